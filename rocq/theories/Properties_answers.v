(** C123: what a call does is a function of what the bus answers, and which answers are a success. *)
From Verif Require Import Life RawHistory ExecFacts BytesFacts ValueFacts CallFacts Adaptive Transcript Answers Properties_calls Properties_transcript.
From Coq Require Import Lia.

(** ** C123.  Two executions of a program, over any two buses, are the same up to the first bus access
    that is answered differently; and that access is the same one, of the same block, address and
    length or data.  Nothing but the answers tells the driver what to do next. *)
Theorem C123_determined : forall chk fuel l ops t1 o1 t2 o2,
  exec (run_life chk fuel l ops) t1 o1 -> o1 <> Cut -> exec (run_life chk fuel l ops) t2 o2 -> o2 <> Cut ->
  (t1 = t2 /\ o1 = o2) \/ exists pre e1 e2 r1 r2, t1 = pre ++ e1 :: r1 /\ t2 = pre ++ e2 :: r2 /\ e1 <> e2 /\ asked e1 = asked e2.
Proof. intros chk fuel l ops t1 o1 t2 o2 X1 N1 X2 N2. exact (determined _ _ _ X1 N1 _ _ X2 N2). Qed.
Print Assumptions C123_determined.

(** On a bus whose answers are any function of what happened before, a program has exactly one
    behaviour. *)
Theorem C123_one_way : forall (B : any_bus) chk fuel l ops, exists tr o,
  (exec (run_life chk fuel l ops) tr o /\ o <> Cut /\ answered B [] tr) /\
  forall tr' o', exec (run_life chk fuel l ops) tr' o' -> o' <> Cut -> answered B [] tr' -> tr' = tr /\ o' = o.
Proof.
  intros B chk fuel l ops. destruct (one_way B (run_life chk fuel l ops) []) as (tr & o & X & N & H). exists tr, o. split; [auto|].
  intros tr' o' X' N' H'. exact (same_way B _ [] _ _ _ _ X' N' H' X N H).
Qed.
Print Assumptions C123_one_way.

(** The traffic that C122 says a success must have been is a success: if the bus answers so, the
    call answers Ok, with enough polls. *)
Theorem C123_tcp_send : forall i d n tr, i < 8 ->
  (exists fuel, exec (tcp_send fuel (mkTcp (socket_new i)) d) tr (Done (Ok n))) <-> tcp_send_traffic i d n tr.
Proof.
  intros i d n tr Hi. split; [intros (fuel & X); exact (C122_tcp_send _ _ _ _ _ Hi X)|]. intros (f & p & l & c & Lf & Lp & En & -> & B & N).
  destruct (socket_blocks i Hi) as (E1 & E2 & _). exists (1 + length l)%nat. pose proof (from_be_lt f Lf) as Bf.
  pose proof (tcp_send_make (mkTcp (socket_new i)) d f p l c Lf Lp B N (1 + length l) ltac:(lia)) as X. cbv zeta in X. rewrite <- En in X. cbn [t_socket] in X. rewrite E1, E2, small_sum in X by lia. exact X.
Qed.
Print Assumptions C123_tcp_send.
Theorem C123_tcp_receive : forall i d d' n tr, i < 8 ->
  (exists fuel, exec (tcp_receive fuel (mkTcp (socket_new i)) d) tr (Done (d', Ok n))) <-> tcp_receive_traffic i d d' n tr.
Proof.
  intros i d d' n tr Hi. split; [intros (fuel & X); exact (C122_tcp_receive _ _ _ _ _ _ Hi X)|]. destruct (socket_blocks i Hi) as (E1 & E2 & E3 & _).
  intros (f & [(-> & B & -> & ->)|(B & l & w & p & got & F & Lw & Lp & En & Lg & -> & ->)]).
  - exists 0%nat. pose proof (tcp_receive_none (mkTcp (socket_new i)) d f 0 B) as X. cbn [t_socket] in X. rewrite E1 in X. exact X.
  - exists (1 + length l)%nat. pose proof (from_be_lt w Lw) as Bw. rewrite En in Lg.
    pose proof (tcp_receive_make (mkTcp (socket_new i)) d f l w p got B F Lw Lp Lg (1 + length l) ltac:(lia)) as X. rewrite <- En in X. cbn [t_socket] in X. rewrite E1, E3, small_sum in X by lia. exact X.
Qed.
Print Assumptions C123_tcp_receive.
Theorem C123_tcp_connect : forall i r tr, i < 8 ->
  (exists fuel, exec (tcp_connect fuel (mkTcp (socket_new i)) (V4 r)) tr (Done (Ok tt))) <-> tcp_connect_traffic i r tr.
Proof.
  intros i r tr Hi. split; [intros (fuel & X); exact (C122_tcp_connect _ _ _ _ _ Hi X)|]. destruct (socket_blocks i Hi) as (E1 & E2 & E3 & E4).
  intros (st & mid & l & c & rest & -> & Hm & N1 & N0 & Hc). exists (1 + length l)%nat.
  assert (Hm' : st = x13 /\ mid = [] \/ st <> x13 /\ st <> x22 /\ st <> x42 /\ (exists s, status_try_from st = Some s) /\ mid = again (register (t_socket (mkTcp (socket_new i))))).
  { destruct Hm as [Hm|[Hi' Em]]; [left; exact Hm|right]. cbn [t_socket]. rewrite E1. clear - Hi' Em. cbn [In] in Hi'.
    repeat (destruct Hi' as [<-|Hi']; [split; [discriminate|split; [discriminate|split; [discriminate|split; [eexists; reflexivity|exact Em]]]]|]). destruct Hi'. }
  assert (Hc' : c = x17 /\ rest = [] \/ c = x00 /\ rest = again (register (t_socket (mkTcp (socket_new i))))) by (cbn [t_socket]; rewrite E1; exact Hc).
  pose proof (connect_make (mkTcp (socket_new i)) r st mid l c rest Hm' N1 N0 Hc' (1 + length l) ltac:(lia)) as X. cbn [t_socket] in X. rewrite E1, E4 in X. exact X.
Qed.
Print Assumptions C123_tcp_connect.
Theorem C123_udp_receive : forall i dst port d d' n a tr, i < 8 ->
  (exists fuel, exec (udp_receive fuel (mkUdp (socket_new i) dst port) d) tr (Done (d', Ok (n, a)))) <-> udp_receive_traffic i d d' n a tr.
Proof.
  intros i dst port d d' n a tr Hi. split; [intros (fuel & X); exact (C122_udp_receive _ _ _ _ _ _ _ _ _ Hi X)|]. destruct (socket_blocks i Hi) as (E1 & E2 & E3 & _).
  intros (f & l & w & p & h & got & F & Lw & W0 & D0 & Lp & Lh & B & En & Lg & Hn & -> & -> & ->). exists (1 + length l)%nat. rewrite En in Lg, Hn.
  pose proof (udp_receive_make (mkUdp (socket_new i) dst port) d f l w p h got B F Lw W0 D0 Lp Lh Hn Lg (1 + length l) ltac:(lia)) as X. rewrite <- En in X. cbn [u_socket] in X. rewrite E1, E3 in X. exact X.
Qed.
Print Assumptions C123_udp_receive.
Theorem C123_raw_write : forall d n tr, (exists fuel, exec (raw_write_frame fuel (mkRaw (socket_new 0)) d) tr (Done (Ok n))) <-> raw_write_traffic d n tr.
Proof.
  intros d n tr. split; [intros (fuel & X); exact (C122_raw_write _ _ _ _ X)|]. intros (f & p & l & c & Lf & Lp & En & -> & B & N). exists (1 + length l)%nat.
  pose proof (raw_write_make (mkRaw (socket_new 0)) d f p l c Lf Lp B N (1 + length l) ltac:(lia)) as X. cbv zeta in X. rewrite <- En in X.
  pose proof (from_be_lt p Lp) as Hp. assert (Es : (from_be p + n) mod 65536 = if n =? 0 then from_be p else wadd16 (from_be p) n).
  { destruct (N.eqb_spec n 0) as [->|]; [rewrite N.add_0_r; now apply N.mod_small|reflexivity]. }
  rewrite Es. exact X.
Qed.
Print Assumptions C123_raw_write.
(** the traffic of a MACRAW read of [m] bytes into [frame], which becomes [frame'] *)
Definition raw_read_traffic (frame frame' : list byte) (m : N) (tr : list event) : Prop :=
  exists l w p rest, (forall q, In q l -> fst q <> snd q /\ length (fst q) = 2%nat /\ length (snd q) = 2%nat) /\ length w = 2%nat /\ length p = 2%nat /\
  tr = flat_map (fun q => [ERead 1 0x26 (fst q) (Ok tt); ERead 1 0x26 (snd q) (Ok tt)]) (l ++ [(w, w)]) ++ ERead 1 0x28 p (Ok tt) :: rest /\
  (from_be w = 0 /\ rest = [] /\ frame' = frame /\ m = 0 \/
   exists h got, length h = 2%nat /\ 2 <= from_be w /\
     let body := if from_be h <? 2 then 0 else from_be h - 2 in let held := from_be w - 2 in
     m = N.min body (N.min held (len frame)) /\ len got = m /\ frame' = got ++ drop m frame /\
     rest = ERead 3 (from_be p) h (Ok tt) :: (if (body =? 0) || (len frame =? 0) then [] else [ERead 3 ((from_be p + 2) mod 65536) got (Ok tt)]) ++
       [EWrite 1 0x28 (to_be ((from_be p + 2 + N.min body held) mod 65536)) (Ok tt); EWrite 1 0x01 [x40] (Ok tt)]).
Theorem C123_raw_read : forall frame frame' m tr,
  (exists fuel, exec (raw_read_frame fuel (mkRaw (socket_new 0)) frame) tr (Done (frame', Ok m))) <-> raw_read_traffic frame frame' m tr.
Proof.
  intros frame frame' m tr. split.
  - intros (fuel & X). destruct (raw_read_start _ _ _ _ _ _ X) as (l & w & p & rest & F & Lw & Lp & E).
    destruct (C54_raw_read_exact _ _ _ _ _ X) as (l' & w' & p' & rest' & D' & _ & _ & E' & H). exists l, w, p, rest.
    split; [intros q I; exact (proj1 (Forall_forall _ _) F q I)|]. split; [exact Lw|]. split; [exact Lp|]. split; [exact E|].
    rewrite E in E'. unfold size_reads in E'. destruct (sized_once 1 p p' rest rest' l l' w w') as (-> & -> & -> & ->).
    + apply Forall_forall. intros q I. exact (proj1 (proj1 (Forall_forall _ _) F q I)).
    + exact D'.
    + unfold sized at 2. rewrite flat_map_app. exact E'.
    + exact H.
  - intros (l & w & p & rest & Hl & Lw & Lp & -> & H). exists (S (length l)).
    assert (F : Forall (fun q => fst q <> snd q /\ two q) l) by (apply Forall_forall; exact Hl).
    destruct H as [(W0 & -> & -> & ->)|(h & got & Lh & W2 & H)]; [exact (raw_read_none (mkRaw (socket_new 0)) frame l w p F Lw Lp W0 _ (le_n _))|].
    cbv zeta in H. destruct H as (Em & Lg & -> & ->).
    replace (if from_be h <? 2 then 0 else from_be h - 2) with (from_be h - 2) in * by (destruct (N.ltb_spec (from_be h) 2); lia). rewrite Em in Lg.
    pose proof (raw_read_make (mkRaw (socket_new 0)) frame l w p h got F Lw Lp Lh W2 Lg _ (le_n _)) as X. rewrite <- Em in X. exact X.
Qed.
Print Assumptions C123_raw_read.
(** a frame of three bytes, of which the buffer has room for two, on the second try *)
Example C123_case_raw_read : exists tr, raw_read_traffic [x00; x00] [x61; x62] 2 tr.
Proof.
  eexists. exists [([x00; x00], [x00; x05])], [x00; x05], [xff; xfe]. eexists. split; [|split; [reflexivity|split; [reflexivity|split; [reflexivity|right]]]].
  - intros q [<-|[]]. repeat split. discriminate.
  - exists [x00; x05], [x61; x62]. split; [reflexivity|]. split; [vm_compute; discriminate|]. repeat split.
Qed.
Theorem C123_udp_send : forall i dst port r d tr, i < 8 ->
  (exists fuel u', exec (udp_send_to fuel (mkUdp (socket_new i) dst port) (V4 r) d) tr (Done (u', Ok tt))) <-> udp_send_traffic i dst r d tr.
Proof.
  intros i dst port r d tr Hi. split; [intros (fuel & u' & X); exact (proj2 (C122_udp_send _ _ _ _ _ _ _ _ _ Hi X))|]. destruct (socket_blocks i Hi) as (E1 & E2 & E3 & _).
  intros (to & f & rest & Lf & F0 & -> & Ht & S). apply sending_datagrams in S. set (u' := mkUdp (socket_new i) (Some r) port).
  assert (S' : sending (register (u_socket u')) (tx_buffer (u_socket u')) (from_be f) d rest) by (cbn [u_socket u']; rewrite E1, E2; exact S).
  destruct (udp_send_make u' d f rest ltac:(discriminate) Lf F0 S') as (N & HN). exists N, u'. specialize (HN N (le_n N)). cbn [u_socket u'] in HN. rewrite E1 in HN.
  unfold udp_send_to, udp_send_to_v4. apply exec_bind_intro with (a := (u', Ok tt)).
  - unfold udp_set_destination. cbn [u_dest]. destruct Ht as [[-> ->]|[Nd ->]].
    + rewrite (proj2 (addr4_eqb_eq r r) eq_refl). constructor.
    + assert (E : match dst with Some a => negb (addr4_eqb a r) | None => true end = true).
      { destruct dst as [a|]; [|reflexivity]. destruct (addr4_eqb a r) eqn:E; [|reflexivity]. apply addr4_eqb_eq in E. congruence. }
      rewrite E. cbn [u_socket]. unfold set_destination_ip, set_destination_port. rewrite E1. apply to_write. apply to_write. constructor.
  - cbn [fst snd]. match goal with |- exec _ ?t _ => rewrite <- (app_nil_r t) end. apply exec_bind_intro with (a := Ok tt); [exact HN|constructor].
Qed.
Print Assumptions C123_udp_send.

(** A bus that answers every read at offset 3 with 17 and every other with 01, and fails every write
    at offset 1: TCP send gets as far as SEND.  (The traffic of successes is in C122_case_tcp and
    C122_case_udp.) *)
Definition contrary : any_bus.
Proof.
  refine {| on_read := fun _ b a n => (if a =? 3 then repeat x17 n else repeat x01 n, Ok tt); on_write := fun _ _ a _ => if a =? 1 then Err 7 else Ok tt |}.
  intros l b a n. cbn [fst]. destruct (a =? 3); apply repeat_length.
Defined.
Example C123_case : exists tr, exec (tcp_send 5 (mkTcp (socket_new 3)) [x01; x02]) tr (Done (Err (NbOther (TOther 7)))) /\ answered contrary [] tr /\ length tr = 6%nat.
Proof.
  eexists. split; [apply (replay_eq _ [([x17], Ok tt); ([x01; x01], Ok tt); ([x01; x01], Ok tt); ([], Ok tt); ([], Ok tt); ([], Err 7)]); vm_compute; reflexivity|].
  split; [|reflexivity]. repeat (apply answered_cons; [reflexivity|]). apply answered_nil.
Qed.
