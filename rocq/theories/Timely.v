(** Programs that read in time: nothing that arrived stays unnoticed. *)
From Verif Require Import Dotted.
From Verif Require Export UdpWire.
From Verif Require Import TcpSession TcpReceive TcpConnect TcpLimits UdpSession UdpReceive UdpCalls OpenFacts ProgFacts HistoryFacts FrameFacts ErrorFacts PacketSend.

(** the RECV flag is up, or nothing waits *)
Definition settled (x : sock) : Prop := recvf x = true \/ NetFacts.pending x = [].
Lemma settled_rxrel x x' : rxv x -> rxrel x x' -> settled x -> settled x'.
Proof.
  intros V (_ & _ & _ & F & H) S. destruct (H V) as (_ & ch & P & _ & Fc). destruct ch as [|b ch].
  - rewrite app_nil_r in P. destruct S as [S|S]; [left; auto|right; congruence].
  - left. apply Fc. discriminate.
Qed.
Lemma settled_sevs i x x' : rxv x -> sevs i x x' -> settled x -> settled x'.
Proof. intros V N. apply settled_rxrel; [exact V|now apply (rxrel_sevs i)]. Qed.

(** ** TCP *)
Lemma dial_rxlog i r x : rxlog (dial_state i r x) = [].
Proof. reflexivity. Qed.
Lemma fresh_settled x : fresh_sock x -> rxlog x = [] -> settled x.
Proof. intros (_ & _ & _ & _ & L) E. right. congruence. Qed.

(** [ops], run from [a] and [s]: during no receive on handle [h] (socket [i]) did further bytes
    arrive, and the buffer passed had room for all that was waiting *)
Inductive timely (e : env) (fuel h : nat) (i : N) : History.app -> sys -> list op -> Prop :=
| ti_nil a s : timely e fuel h i a s []
| ti_cons a s o a' out s' ops :
    run e (step fuel a o) s = (Done (a', out), s') ->
    (forall b, o = OpTcpReceive h b ->
       len (NetFacts.pending (socks (s_chip s) i)) <= len b /\ rxlog (socks (s_chip s') i) = rxlog (socks (s_chip s) i)) ->
    timely e fuel h i a' s' ops -> timely e fuel h i a s (o :: ops).

(** [tcp_session], where all receives since the connect were in time *)
Definition tcp_timely (e : env) (fuel h : nat) (i : N) (r : addr4) (x1 : sock) (acc del : list byte)
  (a : History.app) (s : sys) : Prop :=
  exists ho s00 ops0 a0 outs0 s0 t s1 ops outs,
    run e (run_ops fuel (app_new ho) ops0) s00 = (Done (a0, outs0), s0) /\
    lookup h (handles a0) = Some (HTcp t) /\ index (t_socket t) = i /\
    valid_size (tx_size (socks (s_chip s0) i)) /\ valid_size (rx_size (socks (s_chip s0) i)) /\
    a_port r < 65536 /\
    run e (step fuel a0 (OpTcpConnect h (V4 r))) s0 = (Done (a0, RTcpConnect (Ok tt)), s1) /\
    x1 = socks (s_chip s1) i /\
    run e (run_ops fuel a0 ops) s1 = (Done (a, outs), s) /\
    Forall (leaves_open h) ops /\ no_bus_error h ops outs /\
    acc = accepted h ops outs /\ del = delivered h ops outs /\
    timely e fuel h i a0 s1 ops.

Lemma timely_session e fuel h i r x1 acc del a s : tcp_timely e fuel h i r x1 acc del a s -> tcp_session e fuel h i r x1 acc del a s.
Proof.
  intros (ho & s00 & ops0 & a0 & outs0 & s0 & t & s1 & ops & outs & R0 & L & Ei & Vt & Vr & Hr & R1 & Ex & R2 & K & NB & A & D & _).
  exists ho, s00, ops0, a0, outs0, s0, t, s1, ops, outs. repeat (split; [assumption|]). exact D.
Qed.

Lemma connect_settled e fuel h i r a0 s0 s1 : i < 8 -> lookup h (handles a0) = Some (HTcp (mkTcp (socket_new i))) ->
  valid_size (tx_size (sk i s0)) -> valid_size (rx_size (sk i s0)) -> a_port r < 65536 ->
  run e (step fuel a0 (OpTcpConnect h (V4 r))) s0 = (Done (a0, RTcpConnect (Ok tt)), s1) ->
  settled (sk i s1).
Proof.
  intros Hi L Vt Vr Hr R. apply run_step_nofail in R; [|reflexivity]. pose proof (nofail_no_faults e) as NF.
  cbn [step] in R. rewrite L in R. apply run_bind_done in R as (res & s2 & R1 & R). cbn [run] in R. injection R as _ <-.
  refine (wp_run (nofail e) _ (fun o s' => forall v, o = Done v -> settled (sk i s')) s0 (Done res) s2 R1 _ res eq_refl).
  apply wp_tcp_connect; auto. intros x s' N1. cbv zeta.
  destruct (sevs_wr _ _ _ N1) as (_ & Z1 & _ & Z2).
  pose proof (fresh_dialled i r x ltac:(now rewrite Z1) ltac:(now rewrite Z2)) as F.
  pose proof (dial_rxlog i r x) as Lg.
  assert (Zd : valid_size (tx_size (dial_state i r x)) /\ valid_size (rx_size (dial_state i r x))) by (split; apply F).
  generalize dependent (dial_state i r x). intros y F Lg [Zy1 Zy2]. split; [|split].
  - intros N2 _ v _. apply (settled_sevs i y); [apply F|exact N2|now apply fresh_settled].
  - intros z _ _ Rz v _. pose proof (fresh_reopened y _ Rz Zy1 Zy2) as Fz. apply fresh_settled; [exact Fz|].
    destruct Rz as (u & E & _). rewrite E. apply opened_tx.
  - intros _ v. discriminate.
Qed.

(** what a receive in time does *)
Lemma receive_timely e fuel h i r x1 acc del a s b a' out s' : tcp_session e fuel h i r x1 acc del a s -> settled (sk i s) ->
  run e (step fuel a (OpTcpReceive h b)) s = (Done (a', out), s') -> out_berr out = None ->
  len (NetFacts.pending (sk i s)) <= len b -> rxlog (sk i s') = rxlog (sk i s) ->
  settled (sk i s') /\
  ((exists b', out = RTcpReceive b' (Ok (len (NetFacts.pending (sk i s)))) /\
      b' = NetFacts.pending (sk i s) ++ drop (len (NetFacts.pending (sk i s))) b /\ NetFacts.pending (sk i s') = []) \/
   out = RTcpReceive b (Err (NbOther TNotConnected))).
Proof.
  intros T St R NB Lb Lg. destruct (session_facts _ _ _ _ _ _ _ _ _ _ T) as (Hi & I & L & S).
  pose proof S as (Rd & Rr & _). apply run_step_nofail in R; [|exact NB]. pose proof (nofail_no_faults e) as NF.
  cbn [step] in R. rewrite L in R. apply run_bind_done in R as (res & s2 & R1 & R). cbn [run] in R. injection R as <- <- <-.
  refine (wp_run (nofail e) _ (fun o s' => forall v, o = Done v -> rxlog (sk i s') = rxlog (sk i s) -> settled (sk i s') /\
    ((exists b', RTcpReceive (fst v) (snd v) = RTcpReceive b' (Ok (len (NetFacts.pending (sk i s)))) /\
      b' = NetFacts.pending (sk i s) ++ drop (len (NetFacts.pending (sk i s))) b /\ NetFacts.pending (sk i s') = []) \/
     RTcpReceive (fst v) (snd v) = RTcpReceive b (Err (NbOther TNotConnected)))) s (Done res) s2 R1 _ res eq_refl Lg).
  apply wp_tcp_receive; auto.
  - intros n d' s3 (_ & _ & _ & ch & H4 & H5 & H6 & H7) C v [= <-] Lg3. cbn [fst snd].
    rewrite Lg3 in H7. assert (ch = []) by (destruct ch; [reflexivity|apply (f_equal len) in H7; rewrite len_app, len_cons in H7; lia]). subst ch.
    rewrite app_nil_r in *.
    assert (En : n = len (NetFacts.pending (sk i s))).
    { destruct C as [(x & N & _ & En)|(-> & _ & _ & F)].
      - destruct (sevs_rx _ _ _ N (proj1 Rr)) as (Vx & c & P & _ & _ & _). pose proof (len_pending x) as Lx. rewrite P, len_app in Lx. lia.
      - destruct St as [St|St]; [congruence|]. rewrite St. reflexivity. }
    assert (E0 : NetFacts.pending (sk i s3) = []) by (rewrite H6; apply drop_all; lia).
    split; [right; exact E0|]. left. exists d'. rewrite <- En. split; [reflexivity|]. split; [|exact E0].
    rewrite H5, take_all by lia. reflexivity.
  - intros s3 N _ v [= <-] _. split; [now apply (settled_sevs i (sk i s)); [apply Rr| |]|right; reflexivity].
  - intros; discriminate.
Qed.

Lemma session_settled e fuel h i r x1 : forall ops acc del a s a' outs s', tcp_session e fuel h i r x1 acc del a s -> settled (sk i s) ->
  Forall (leaves_open h) ops -> run e (run_ops fuel a ops) s = (Done (a', outs), s') -> no_bus_error h ops outs ->
  timely e fuel h i a s ops -> settled (sk i s').
Proof.
  induction ops as [|o ops IH]; intros acc del a s a' outs s' T St K R NB Ti; cbn [run_ops] in R.
  - injection R as <- <- <-. exact St.
  - apply run_bind_done in R as ([a3 o3] & s3 & R1 & R3). apply run_bind_done in R3 as ([a4 o4] & s4 & R3 & R4).
    cbn [run fst snd] in *. injection R4 as <- <- <-. inversion K as [|? ? K1 K2]; subst. cbn [no_bus_error] in NB. destruct NB as [NB1 NB2].
    inversion Ti as [|? ? ? a5 o5 s5 ? R5 C T5]; subst. rewrite R1 in R5. injection R5 as <- <- <-.
    refine (IH _ _ _ _ _ _ _ (session_next _ _ _ _ _ _ _ _ _ _ _ _ _ _ T K1 R1 NB1) _ K2 R3 NB2 T5).
    assert (D : (exists b, o = OpTcpReceive h b) \/ (forall b, o <> OpTcpReceive h b)).
    { destruct o; try (right; discriminate). destruct (Nat.eq_dec h0 h) as [->|]; [left; eauto|right; congruence]. }
    destruct D as [(b & ->)|D].
    + destruct (C b eq_refl) as [C1 C2]. eapply (receive_timely e fuel h i); eauto.
    + destruct (session_facts _ _ _ _ _ _ _ _ _ _ T) as (_ & _ & _ & S). apply (settled_rxrel (sk i s)); [apply S| |exact St].
      eapply step_rxrel; eauto.
Qed.
Lemma timely_settled e fuel h i r x1 acc del a s : tcp_timely e fuel h i r x1 acc del a s -> settled (sk i s).
Proof.
  intros (ho & s00 & ops0 & a0 & outs0 & s0 & t & s1 & ops & outs & R0 & L & Ei & Vt & Vr & Hr & R1 & Ex & R2 & K & NB & A & D & Ti).
  pose proof (run_ops_inv e fuel ops0 _ _ _ _ _ (pool_inv_new ho) R0) as I.
  destruct (pi_lookup _ _ _ I L) as (j & Hj & Ej & _). cbn [handle_socket] in Ej. pose proof Ei as Ei'. rewrite Ej in Ei'. cbn [index socket_new] in Ei'. subst j.
  assert (Et : t = mkTcp (socket_new i)) by (destruct t as [t']; cbn [t_socket] in Ej; rewrite Ej; reflexivity).
  assert (L' : lookup h (handles a0) = Some (HTcp (mkTcp (socket_new i)))) by now rewrite <- Et.
  pose proof (connect_settled e fuel h i r a0 s0 s1 Hj L' Vt Vr Hr R1) as S.
  refine (session_settled e fuel h i r x1 ops [] [] a0 s1 a outs s _ S K R2 NB Ti).
  exists ho, s00, ops0, a0, outs0, s0, t, s1, [], []. repeat (split; [assumption|]). split; [reflexivity|].
  split; [constructor|]. split; [exact Logic.I|]. split; reflexivity.
Qed.
Lemma timely_next e fuel h i r x1 acc del a s o a' out s' : tcp_timely e fuel h i r x1 acc del a s ->
  leaves_open h o -> run e (step fuel a o) s = (Done (a', out), s') -> (op_handle o = Some h -> out_berr out = None) ->
  (forall b, o = OpTcpReceive h b -> len (NetFacts.pending (sk i s)) <= len b /\ rxlog (sk i s') = rxlog (sk i s)) ->
  tcp_timely e fuel h i r x1 (acc ++ accepted1 h o out) (del ++ delivered1 h o out) a' s'.
Proof.
  intros (ho & s00 & ops0 & a0 & outs0 & s0 & t & s1 & ops & outs & R0 & L & Ei & Vt & Vr & Hr & R1 & Ex & R2 & K & NB & -> & -> & Ti) Ko R3 NB3 C.
  pose proof (run_ops_outs e fuel _ _ _ _ _ _ R2) as Le. destruct (accepted_snoc h o out ops outs Le) as (A1 & A2 & A3).
  exists ho, s00, ops0, a0, outs0, s0, t, s1, (ops ++ [o]), (outs ++ [out]).
  split; [exact R0|]. split; [exact L|]. split; [exact Ei|]. split; [exact Vt|]. split; [exact Vr|]. split; [exact Hr|].
  split; [exact R1|]. split; [exact Ex|]. split; [now apply (run_ops_snoc e fuel o _ _ _ a outs s)|].
  split; [apply Forall_app; auto|]. split; [auto|]. split; [auto|]. split; [auto|].
  clear - R2 R3 C Ti. revert outs R2. induction Ti as [a0 s1|a0 s1 o1 a1 out1 s2 ops R C1 Ti IH]; intros outs R2; cbn [run_ops List.app] in *.
  - injection R2 as <- _ <-. eapply ti_cons; eauto. constructor.
  - apply run_bind_done in R2 as ([a3 o3] & s3 & Ra & Rb). apply run_bind_done in Rb as ([a4 o4] & s4 & Rb & Rc).
    cbn [run fst snd] in *. injection Rc as <- _ <-. rewrite R in Ra. injection Ra as <- <- <-. eapply ti_cons; eauto.
Qed.

(** ** UDP *)
Lemma rxrel_dest y r : rxrel y (dest_of y r).
Proof. destruct (dest_of_facts y r) as (_ & _ & _ & _ & F5 & F6 & _). apply rxrel_same; try reflexivity. Qed.
Lemma udp_step_rxrel e fuel h i dest port a s o a' out s' : udp_session e fuel h i dest port a s -> keeps_udp h o -> stays_open h o ->
  (forall b, o <> OpUdpReceive h b) -> run e (step fuel a o) s = (Done (a', out), s') -> (op_handle o = Some h -> out_berr out = None) ->
  rxrel (sk i s) (sk i s').
Proof.
  intros T K St Nr R NB. destruct (udp_session_facts _ _ _ _ _ _ _ _ T) as (Hi & Hp & I & L & U).
  pose proof U as (U1 & U2 & U3 & _).
  assert (GS : forall y, sevs i (sk i s) y -> rxrel (sk i s) y) by (intros y N; now apply (rxrel_sevs i)).
  assert (Dec : op_handle o = Some h \/ op_handle o <> Some h).
  { destruct (op_handle o) as [h'|]; [|right; discriminate]. destruct (Nat.eq_dec h' h) as [->|]; [left; reflexivity|right; congruence]. }
  destruct Dec as [E|E].
  2:{ assert (Hs : spares i (step fuel a o)) by (eapply spares_step; eauto; intros ->; exact K).
      pose proof (run_spares e i _ Hs s) as N. rewrite R in N. cbn [snd] in N. auto. }
  assert (Wp : wp (nofail e) (step fuel a o) (fun oc s' => forall v, oc = Done v -> rxrel (sk i s) (sk i s')) s -> rxrel (sk i s) (sk i s')).
  { intros W. refine (session_call _ e _ (fun oc s' => forall v, oc = Done v -> rxrel (sk i s) (sk i s')) s _ s' (es_step fuel a o) R _ W _ eq_refl).
    intros [a1 ou] [= <- <-]. auto. }
  pose proof (nofail_no_faults e) as NF. destruct (uinv_valid _ _ _ U) as (Vt & Vr & C & Id).
  assert (Same : rxrel (sk i s) (sk i s)) by (apply GS, sevs_refl).
  destruct o as [|h'| |h' r'|h' d|h' b|h'| |h' r'|h' pt|h' d|h' r' d|h' b|h'|h'| |q|h' pt|h' q]; cbn [op_handle] in E; try discriminate E; injection E as ->;
    cbn [keeps_udp] in K; try (now elim K);
    try (apply Wp; cbn [step]; rewrite L; unfold udp_handle; apply wp_ret; intros; exact Same).
  - exfalso. now destruct (St r' 0) as [X _].
  - exfalso. now destruct (St (V4 (Addr4 (Ip4 x00 x00 x00 x00) 0)) pt) as [_ X].
  - apply Wp. cbn [step]. rewrite L. unfold udp_handle. apply wp_bind. destruct dest as [r|].
    + unfold udp_send. apply wp_udp_send_all; auto.
      * intros s2 (cs & ps & C1 & C2 & (C3 & _) & _). apply wp_ret. intros v _. apply C3.
      * intros s2 (cs & rest & ps & C1 & C2 & C3 & _ & (C4 & _) & _). apply wp_ret. intros v _. apply C4.
      * intros; discriminate.
    + apply wp_udp_send_unknown; auto. intros s2 N. apply wp_ret. auto.
  - apply Wp. cbn [step]. rewrite L. unfold udp_handle. apply wp_bind. destruct r' as [r|].
    + unfold udp_send_to, udp_send_to_v4. apply wp_bind, wp_udp_set_destination; auto. intros y s1 N1 E1. cbn [fst snd].
      destruct (aimed_facts i dest port r (sk i s) (sk i s1) K U (ex_intro _ y (conj N1 E1))) as (Ua & _).
      assert (G1 : rxrel (sk i s) (sk i s1)).
      { destruct E1 as [->|(-> & _)]; [eapply rxrel_trans; [apply GS, N1|apply rxrel_dest]|auto]. }
      pose proof Ua as (Ua1 & Ua2 & Ua3 & _).
      apply wp_bind. apply wp_udp_send_all; auto.
      * intros s2 (cs & ps & C1 & C2 & (C3 & _) & _). apply wp_ret, wp_ret. intros v _. eapply rxrel_trans; [exact G1|apply C3].
      * intros s2 (cs & rest & ps & C1 & C2 & C3 & _ & (C4 & _) & _). apply wp_ret, wp_ret. intros v _. eapply rxrel_trans; [exact G1|apply C4].
      * intros; discriminate.
    + apply wp_ret, wp_ret. auto.
  - now elim (Nr b).
  - apply Wp. cbn [step]. rewrite L. unfold udp_handle. apply wp_bind. unfold udp_set_port. cbn [u_socket u_dest u_port].
    apply wp_try, wp_set_source_port; auto. intros y s1 N1 E1. apply wp_ret, wp_ret. intros v _. fold (port_of y pt) in E1. rewrite E1.
    eapply rxrel_trans; [apply GS, N1|]. apply rxrel_same; try reflexivity.
Qed.

Lemma udp_opened_settled x p : settled (udp_opened x p).
Proof.
  right. unfold udp_opened. destruct (opened_tx x (open_regs (Some p) MR_UDP (regs x)) SOCK_UDP) as (_ & _ & _ & _ & T1 & T2 & T3 & _).
  unfold NetFacts.pending, rx_rsr. rewrite T1, T2, sub16_self by exact T3. reflexivity.
Qed.
Lemma udp_open_settled e fuel a o s a' s' h i dest port : i < 8 -> port < 65536 -> lookup h (handles a) = Some (udp_handle i dest port) ->
  valid_size (tx_size (sk i s)) -> valid_size (rx_size (sk i s)) ->
  (exists r, o = OpUdpConnect h (V4 r)) \/ (exists p, o = OpUdpBind h p) ->
  run e (step fuel a o) s = (Done (a', RUdpUnit (Ok tt)), s') -> settled (sk i s').
Proof.
  intros Hi Hp L Vt Vr Ho R. apply run_step_nofail in R; [|reflexivity]. pose proof (nofail_no_faults e) as NF.
  destruct Ho as [(r & ->)|(p & ->)]; cbn [step] in R; rewrite L in R; unfold udp_handle in R;
    apply run_bind_done in R as (res & s1 & R1 & R); cbn [run] in R; injection R as _ _ <-.
  - refine (wp_run (nofail e) _ (fun _ s' => settled (sk i s')) s (Done res) s1 R1 _).
    apply wp_udp_connect; auto. intros x y s2 N1 N E.
    destruct (valid_kept i _ _ N1 Vt Vr) as (Vt' & Vr').
    destruct (uinv_opened x port None Hp Vt' Vr' Logic.I) as ((_ & _ & U3 & _) & _).
    pose proof (udp_opened_settled x port) as S0. generalize dependent (udp_opened x port). intros z N U3 S0.
    pose proof (settled_sevs i z y (proj1 U3) N S0) as Sy. pose proof (proj1 (rready_sevs i z y N U3)) as Vy.
    destruct E as [->|(-> & _)]; [|exact Sy]. exact (settled_rxrel y _ Vy (rxrel_dest y r) Sy).
  - refine (wp_run (nofail e) _ (fun _ s' => settled (sk i s')) s (Done res) s1 R1 _).
    apply wp_udp_bind; auto. intros x s2 _ _ ->. apply udp_opened_settled.
Qed.

(** [ops], run from [a] and [s]: every receive on handle [h] (socket [i]) found at most one
    datagram, and during none of them did another arrive *)
Inductive utimely (e : env) (fuel h : nat) (i : N) : History.app -> sys -> list op -> Prop :=
| ut_nil a s : utimely e fuel h i a s []
| ut_cons a s o a' out s' ops :
    run e (step fuel a o) s = (Done (a', out), s') ->
    (forall b, o = OpUdpReceive h b ->
       (exists q, queue (socks (s_chip s) i) q /\ (length q <= 1)%nat) /\ rxlog (socks (s_chip s') i) = rxlog (socks (s_chip s) i)) ->
    utimely e fuel h i a' s' ops -> utimely e fuel h i a s (o :: ops).

(** [udp_session], where the socket was not opened again since, all receives were in time, and
    [ops] are the calls since the bind or connect with their results [outs] *)
Definition udp_timely (e : env) (fuel h : nat) (i : N) (dest : option addr4) (port : N) (ops : list op) (outs : list out)
  (a : History.app) (s : sys) : Prop :=
  exists ho s00 ops0 a0 outs0 s0 u o1 a1 s1,
    run e (run_ops fuel (app_new ho) ops0) s00 = (Done (a0, outs0), s0) /\
    lookup h (handles a0) = Some (HUdp u) /\ index (u_socket u) = i /\ u_port u < 65536 /\
    (coherent (u_dest u) (regs (socks (s_chip s0) i)) \/ (exists r, o1 = OpUdpConnect h (V4 r) /\ u_dest u <> Some r)) /\
    valid_size (tx_size (socks (s_chip s0) i)) /\ valid_size (rx_size (socks (s_chip s0) i)) /\
    ((exists r, o1 = OpUdpConnect h (V4 r)) \/ (exists p, o1 = OpUdpBind h p)) /\
    run e (step fuel a0 o1) s0 = (Done (a1, RUdpUnit (Ok tt)), s1) /\
    run e (run_ops fuel a1 ops) s1 = (Done (a, outs), s) /\
    Forall (keeps_udp h) (o1 :: ops) /\ no_bus_error h ops outs /\
    dest = named h (u_dest u) (o1 :: ops) /\ port = bound h (u_port u) (o1 :: ops) /\
    Forall (stays_open h) ops /\ utimely e fuel h i a1 s1 ops.
Lemma udp_timely_session e fuel h i dest port ops outs a s : udp_timely e fuel h i dest port ops outs a s -> udp_session e fuel h i dest port a s.
Proof.
  intros (ho & s00 & ops0 & a0 & outs0 & s0 & u & o1 & a1 & s1 & H).
  exists ho, s00, ops0, a0, outs0, s0, u, o1, a1, s1, ops, outs. intuition.
Qed.

Lemma records_nil q : Forall wf_dgram q -> records q = [] -> q = [].
Proof.
  intros W E. destruct q as [|g q]; [reflexivity|]. exfalso. apply (f_equal len) in E. unfold records in E. cbn [map concat] in E.
  rewrite len_app, len_record in E by exact (Forall_inv W). change (len (@nil byte)) with 0 in E. lia.
Qed.
(** one receive in time *)
Lemma udp_receive_timely e fuel h i dest port a s b a' out s' q0 : udp_session e fuel h i dest port a s -> settled (sk i s) -> queue (sk i s) q0 ->
  (length q0 <= 1)%nat -> run e (step fuel a (OpUdpReceive h b)) s = (Done (a', out), s') -> out_berr out = None ->
  rxlog (sk i s') = rxlog (sk i s) ->
  settled (sk i s') /\
  ((exists g b' n r, q0 = [g] /\ out = RUdpReceive b' (Ok (n, V4 r)) /\ dotted (a_ip r) = g_ip g /\ a_port r = g_port g /\
      take (len (g_data g)) b' = g_data g /\ len (g_data g) <= n <= len b /\ len b' = len b /\ queue (sk i s') []) \/
   (out = RUdpReceive b (Err WouldBlock) /\ q0 = [] /\ queue (sk i s') q0) \/
   (out = RUdpReceive b (Err (NbOther UBufferOverflow)) /\ b = [] /\ queue (sk i s') q0)).
Proof.
  intros T St Q0 L1 R NB Lg. destruct (udp_session_facts _ _ _ _ _ _ _ _ T) as (Hi & Hp & I & L & U). pose proof U as (U1 & _ & U3 & _).
  assert (NB' : no_berr (Done (a', out))) by (intros a1 ou [= <- <-]; exact NB).
  assert (Qs : sevs i (sk i s) (sk i s') -> queue (sk i s') q0).
  { intros N. destruct (sevs_queue i _ _ q0 N U1 (proj1 U3) Q0) as (q' & Q1 & Q2). rewrite Lg in Q2.
    rewrite <- (app_nil_r (rxlog (sk i s))) in Q2 at 1. apply app_inv_head in Q2. symmetry in Q2.
    apply records_nil in Q2; [subst q'; now rewrite app_nil_r in Q1|]. destruct Q1 as [_ Q1]. apply Forall_app in Q1. apply Q1. }
  destruct (udp_receive_call _ _ _ _ _ _ _ _ _ _ _ _ T Q0 R NB') as
      [(n1 & r & b1 & [= -> ->] & C1)|[([= -> ->] & N & D)|[([= -> ->] & N & D)|[([=] & _)|([=] & _)]]]].
  - destruct C1 as (_ & _ & g & q & later & q' & Eq & W & Ql & Lx & (S1 & S2) & Ln & En & F1 & F2 & F3).
    rewrite Lg in Lx. rewrite <- (app_nil_r (rxlog (sk i s))) in Lx at 1. apply app_inv_head in Lx. symmetry in Lx.
    assert (q' = []) by (apply records_nil; [apply Forall_app in W; apply W|exact Lx]). subst q'. rewrite app_nil_r in Eq.
    assert (E : q0 = [g] /\ q = [] /\ later = []).
    { rewrite Eq in L1. cbn [List.app length] in L1. destruct q; [|cbn in L1; lia]. destruct later; [auto|cbn in L1; lia]. }
    destruct E as (-> & -> & ->).
    split; [right; apply Ql|]. left. exists g, b1, n1, r.
    assert (Lr : len (records [g]) >= 8 + len (g_data g)).
    { pose proof (Forall_inv (proj2 Q0)) as Wg. unfold records. cbn [map concat]. rewrite len_app, len_record by exact Wg. lia. }
    repeat (split; [first [reflexivity|assumption|lia]|]). exact Ql.
  - split; [now apply (settled_sevs i (sk i s)); [apply U3| |]|]. right. left. split; [reflexivity|]. split; [|auto].
    destruct D as [D|D]; [|exact D]. destruct St as [St|St]; [congruence|]. apply records_nil; [apply Q0|]. destruct Q0 as [Q0 _]. congruence.
  - split; [now apply (settled_sevs i (sk i s)); [apply U3| |]|]. right. right. auto.
Qed.

Lemma queue_unique x q q' : queue x q -> queue x q' -> (length q' <= 1)%nat -> (length q <= 1)%nat.
Proof.
  intros (P & W) (P' & W') L. rewrite P in P'. destruct q as [|g q]; [cbn; lia|]. destruct q' as [|g' [|]]; [| |cbn in L; lia].
  - apply records_nil in P'; [discriminate|exact W].
  - destruct q as [|g2 q]; [cbn; lia|]. exfalso. unfold records in P'. cbn [map concat] in P'. rewrite app_nil_r in P'.
    pose proof (Forall_inv W) as Wg. pose proof (Forall_inv W') as Wg'. pose proof (Forall_inv (Forall_inv_tail W)) as Wg2.
    assert (Hl : len (g_data g) = len (g_data g')).
    { pose proof (proj2 (header_of g (record_of g2 ++ concat (map record_of q)) Wg)) as H1.
      pose proof (proj2 (header_of g' [] Wg')) as H2. cbv zeta in H1, H2. rewrite P' in H1. rewrite app_nil_r in H2. congruence. }
    apply (f_equal len) in P'. rewrite !len_app, !len_record in P' by assumption. lia.
Qed.

Lemma udp_gets_settled e fuel h i : forall ops dest port a s a' outs s' q0, udp_session e fuel h i dest port a s -> settled (sk i s) ->
  Forall (keeps_udp h) ops -> Forall (stays_open h) ops -> run e (run_ops fuel a ops) s = (Done (a', outs), s') -> no_bus_error h ops outs ->
  utimely e fuel h i a s ops -> queue (sk i s) q0 ->
  exists gss left new, q0 ++ new = concat gss ++ left /\ queue (sk i s') left /\ rxlog (sk i s') = rxlog (sk i s) ++ records new /\
    udp_gets h ops outs gss /\ Forall (fun gs => (length gs <= 1)%nat) gss /\ settled (sk i s').
Proof.
  induction ops as [|o ops IH]; intros dest port a s a' outs s' q0 T Se K St R NB Ti Q0; cbn [run_ops] in R.
  - injection R as <- <- <-. exists [], q0, []. cbn [concat List.app records map]. rewrite !app_nil_r. split; [reflexivity|].
    split; [exact Q0|]. split; [reflexivity|]. split; [constructor|]. split; [constructor|exact Se].
  - apply run_bind_done in R as ([a1 o1] & s1 & R1 & R). apply run_bind_done in R as ([a2 o2] & s2 & R2 & R).
    cbn [run fst snd] in *. injection R as <- <- <-. inversion K as [|? ? K1 K2]; subst. inversion St as [|? ? S1 S2]; subst.
    cbn [no_bus_error] in NB. destruct NB as [NB1 NB2].
    inversion Ti as [|? ? ? a5 o5 s5 ? R5 C T5]; subst. rewrite R1 in R5. injection R5 as <- <- <-.
    assert (One : exists gs left new, q0 ++ new = gs ++ left /\ queue (sk i s1) left /\ rxlog (sk i s1) = rxlog (sk i s) ++ records new /\
      (forall ops outs gss, udp_gets h ops outs gss -> udp_gets h (o :: ops) (o1 :: outs) (gs :: gss)) /\ (length gs <= 1)%nat /\ settled (sk i s1)).
    { assert (D : (exists b, o = OpUdpReceive h b) \/ (forall b, o <> OpUdpReceive h b)).
      { destruct o; try (right; discriminate). destruct (Nat.eq_dec h0 h) as [->|]; [left; eauto|right; congruence]. }
      destruct D as [(b & ->)|D].
      - destruct (C b eq_refl) as [(q & Qq & Lq) C2]. pose proof (queue_unique _ _ _ Q0 Qq Lq) as L0.
        destruct (udp_receive_timely e fuel h i dest port a s b a1 o1 s1 q0 T Se Q0 L0 R1 (NB1 eq_refl) C2) as (Sx & X).
        destruct X as [(g & b' & n & r & -> & -> & F1 & F2 & F3 & F4 & F5 & Q1)|[(-> & -> & Q1)|(-> & -> & Q1)]].
        + exists [g], [], []. rewrite app_nil_r. split; [reflexivity|]. split; [exact Q1|]. split; [change (records []) with (@nil byte); rewrite app_nil_r; exact C2|].
          split; [intros; now apply ug_get|]. split; [cbn; lia|exact Sx].
        + exists [], [], []. split; [reflexivity|]. split; [exact Q1|]. split; [change (records []) with (@nil byte); rewrite app_nil_r; exact C2|].
          split; [intros; apply ug_other; [discriminate|assumption]|]. split; [cbn; lia|exact Sx].
        + exists [], q0, []. rewrite app_nil_r. split; [reflexivity|]. split; [exact Q1|]. split; [change (records []) with (@nil byte); rewrite app_nil_r; exact C2|].
          split; [intros; apply ug_other; [discriminate|assumption]|]. split; [cbn; lia|exact Sx].
      - pose proof (udp_step_rxrel _ _ _ _ _ _ _ _ _ _ _ _ T K1 S1 D R1 NB1) as X.
        destruct (udp_session_facts _ _ _ _ _ _ _ _ T) as (_ & _ & _ & _ & (_ & _ & U3 & _)).
        pose proof (settled_rxrel _ _ (proj1 U3) X Se) as Sx.
        destruct (gets_out _ _ _ _ _ _ _ _ _ _ _ _ _ T K1 S1 R1 NB1 Q0) as (gs & left & new & E1 & Q1 & L1 & W1 & H1).
        exists gs, left, new. do 4 (split; [assumption|]). split; [|exact Sx].
        specialize (H1 [] [] [] (ug_nil h)). inversion H1; subst; [now elim (D buf)|cbn; lia]. }
    destruct One as (gs & left & new & E1 & Q1 & L1 & H1 & G1 & Sx).
    destruct (IH _ _ _ _ _ _ _ _ (udp_session_next _ _ _ _ _ _ _ _ _ _ _ _ T K1 R1 NB1) Sx K2 S2 R2 NB2 T5 Q1) as (gss & left' & new' & E2 & Q2 & L2 & H2 & G2 & S3).
    exists (gs :: gss), left', (new ++ new'). split; [rewrite app_assoc, E1, <- app_assoc, E2; cbn [concat]; now rewrite app_assoc|].
    split; [exact Q2|]. split; [now rewrite L2, L1, records_app, app_assoc|]. split; [auto|]. split; [constructor; assumption|exact S3].
Qed.

Lemma udp_timely_facts e fuel h i dest port ops outs a s : udp_timely e fuel h i dest port ops outs a s ->
  exists gss left, udp_gets h ops outs gss /\ Forall (fun gs => (length gs <= 1)%nat) gss /\ queue (sk i s) left /\
    rxlog (sk i s) = records (concat gss ++ left) /\ settled (sk i s).
Proof.
  intros (ho & s00 & ops0 & a0 & outs0 & s0 & u & o1 & a1 & s1 & R0 & L & Ei & Hp & C & Vt & Vr & Ho & R1 & R2 & K & NB & Ed & Ep & St & Ti).
  pose proof (run_ops_inv e fuel ops0 _ _ _ _ _ (pool_inv_new ho) R0) as Pi.
  destruct (pi_lookup _ _ _ Pi L) as (j & Hj & Ej & _). cbn [handle_socket] in Ej. pose proof Ei as Ei'. rewrite Ej in Ei'. cbn [index socket_new] in Ei'. subst j.
  destruct u as [so dest0 port0]. cbn [u_socket u_dest u_port] in *. subst so. inversion K as [|? ? K1 K2]; subst.
  pose proof (udp_open_settled e fuel a0 o1 s0 a1 s1 h i dest0 port0 Hj Hp L Vt Vr Ho R1) as Se.
  destruct (open_queue e fuel a0 o1 s0 a1 s1 h i dest0 port0 Hj Hp Pi L C Vt Vr Ho K1 R1) as (q & Q & Lq).
  assert (T : udp_session e fuel h i (named h dest0 [o1]) (bound h port0 [o1]) a1 s1).
  { exists ho, s00, ops0, a0, outs0, s0, (mkUdp (socket_new i) dest0 port0), o1, a1, s1, [], []. cbn [u_socket u_dest u_port].
    do 9 (split; [assumption|]). split; [reflexivity|]. split; [constructor; [exact K1|constructor]|]. split; [exact Logic.I|]. auto. }
  destruct (udp_gets_settled e fuel h i ops _ _ a1 s1 a outs s q T Se K2 St R2 NB Ti Q) as (gss & left & new & E & Ql & Lg & G & F & S).
  exists gss, left. split; [exact G|]. split; [exact F|]. split; [exact Ql|]. split; [|exact S].
  now rewrite Lg, Lq, <- records_app, E.
Qed.
