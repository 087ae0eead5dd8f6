(** UDP receive against the chip. *)
From Verif Require Export UdpSend TcpReceive.
From Verif Require Import Datasheet ProgFacts.

(** one queued datagram *)
Record dgram := mkDgram { g_ip : list byte; g_port : N; g_data : list byte }.
Definition wf_dgram (g : dgram) : Prop := len (g_ip g) = 4 /\ g_port g < 65536 /\ len (g_data g) < 65536.
Definition record_of (g : dgram) : list byte := udp_record (g_ip g) (g_port g) (g_data g).
Definition records (q : list dgram) : list byte := concat (map record_of q).
(** [q] is waiting in the RX buffer *)
Definition queue (x : sock) (q : list dgram) : Prop := pending x = records q /\ Forall wf_dgram q.

Lemma records_app a b : records (a ++ b) = records a ++ records b.
Proof. unfold records. now rewrite map_app, concat_app. Qed.
Lemma len_record g : wf_dgram g -> len (record_of g) = 8 + len (g_data g).
Proof. intros (H & _). unfold record_of, udp_record. rewrite !len_app, H. change (len [hi (g_port g); lo (g_port g)]) with 2.
  change (len [hi (len (g_data g)); lo (len (g_data g))]) with 2. lia. Qed.

Lemma sevs_queue i x y q : sevs i x y -> sr x = SOCK_UDP -> rxv x -> queue x q ->
  exists q', queue y (q ++ q') /\ rxlog y = rxlog x ++ records q'.
Proof.
  intros H S V Q.
  assert (G : sr y = SOCK_UDP /\ rxv y /\ exists q', queue y (q ++ q') /\ rxlog y = rxlog x ++ records q').
  { refine (sevs_inv i (fun y => sr y = SOCK_UDP /\ rxv y /\ exists q', queue y (q ++ q') /\ rxlog y = rxlog x ++ records q') _ x y H _).
    - intros z ev Hev (Sz & Vz & q' & (Q1 & Q2) & Q3).
      assert (Sz' : sr (sock_step z ev) = SOCK_UDP) by (rewrite <- Sz; apply (sevs_sr_fixed i z _ (sevs_one i z ev Hev)); rewrite Sz; auto).
      destruct (rx_step z ev Vz) as (Vz' & [(ch & A & P1 & P2 & _)|(P1 & P2)]); (split; [exact Sz'|]); (split; [exact Vz'|]).
      + destruct A as [n d A1|n ip p d A1 A2 A3 A4|d A1 A2]; [rewrite Sz in A1; discriminate| |rewrite Sz in A1; discriminate]. exists (q' ++ [mkDgram ip p d]). rewrite app_assoc. split; [split|].
        * rewrite P1, Q1, (records_app (q ++ q')). unfold records at 3. cbn [map concat]. now rewrite app_nil_r.
        * apply Forall_app. split; [exact Q2|]. constructor; [|constructor]. now split.
        * rewrite P2, Q3, records_app, <- app_assoc. do 2 f_equal. unfold records. cbn [map concat]. now rewrite app_nil_r.
      + exists q'. rewrite P2. split; [split; [now rewrite P1|exact Q2]|exact Q3].
    - split; [exact S|]. split; [exact V|]. exists []. rewrite !app_nil_r. auto. }
  apply G.
Qed.

(** a read that runs past the received data: only the part that is there is known *)
Lemma read_bytes_app e blk : forall n k a s, let r1 := read_bytes e blk a n s in
  exists a', let r2 := read_bytes e blk a' k (snd r1) in
  read_bytes e blk a (n + k) s = (fst r1 ++ fst r2, snd r2).
Proof.
  induction n as [|n IH]; intros k a s; cbn [read_bytes plus].
  - exists a. cbn [fst snd List.app]. now destruct (read_bytes e blk a k s).
  - destruct (IH k (next_addr a) (tick e s)) as (a' & E). exists a'. destruct (read_bytes e blk (next_addr a) n (tick e s)) as [l s2]. cbn [fst snd] in *.
    rewrite E. reflexivity.
Qed.
Section Front.
  Context (e : env) (i : N).
  Hypothesis NF : no_faults e.
  Lemma read_bytes_sevs blk : forall n a s, sevs i (sk i s) (sk i (snd (read_bytes e blk a n s))).
  Proof.
    induction n as [|n IH]; intros a0 s0; cbn [read_bytes]; [apply sevs_refl|].
    specialize (IH (next_addr a0) (tick e s0)). destruct (read_bytes e blk (next_addr a0) n (tick e s0)).
    eapply sevs_trans; [apply tick_sevs|exact IH].
  Qed.
  Lemma wp_rrx_front {A} a buf off m (k : list byte * res unit berr -> prog A) Q s :
    rxv (sk i s) -> a < 65536 ->
    a mod rx_size (sk i s) = (rx_base (sk i s) + off) mod rx_size (sk i s) ->
    off + m <= rx_rsr (sk i s) -> m <= len buf ->
    (forall s1 junk, sevs i (sk i s) (sk i s1) -> len junk = len buf - m ->
       wp e (k (take m (drop off (pending (sk i s))) ++ junk, Ok tt)) Q s1) ->
    wp e (BusRead (BSB_RX i) a buf k) Q s.
  Proof.
    intros V Ha Hm Hn Hl H. unfold wp. cbn [run]. unfold bus_read. rewrite NF.
    replace (length buf) with (N.to_nat m + N.to_nat (len buf - m))%nat by (unfold len in *; lia).
    destruct (read_bytes_app e (BSB_RX i) (N.to_nat m) (N.to_nat (len buf - m)) a s) as (a' & E). cbv zeta in E. rewrite E.
    destruct (rds_rx e i (N.to_nat m) a s off V Ha Hm ltac:(lia)) as [I1 I2].
    rewrite I1. apply (H (end_call _)).
    - eapply sevs_trans; [exact I2|]. apply read_bytes_sevs.
    - unfold len. rewrite read_bytes_length. fold (len buf). lia.
  Qed.
End Front.

(** ** One receive *)
(** the sending side of a UDP or MACRAW socket, under a receive *)
Definition pkeep (x x' : sock) : Prop :=
  rested x' /\ sent x' = sent x /\ dialled x' = dialled x /\ sr x' = sr x /\ fresh_ok x' = fresh_ok x /\ tmof x' = tmof x /\
  (forall a, a <> Sn_RX_RD -> a <> Sn_RX_RD + 1 -> regs x' a = regs x a).
Lemma pkeep_trans x y z : pkeep x y -> pkeep y z -> pkeep x z.
Proof.
  intros (A1 & A2 & A3 & A4 & A5 & A6 & A7) (B1 & B2 & B3 & B4 & B5 & B6 & B7). split; [exact B1|].
  do 5 (split; [congruence|]). intros a Ha Hb. rewrite B7 by assumption. now apply A7.
Qed.
Lemma pkeep_sevs i x y : sevs i x y -> rested x -> pkeep x y.
Proof.
  intros H R. destruct (rested_sevs i x y H R) as (R1 & E1 & E2 & E3 & E4 & E5).
  split; [exact R1|]. split; [exact E1|]. split; [now apply (sevs_dialled i)|]. split; [exact E5|]. split; [exact E3|]. split; [exact E4|].
  intros a _ _. now rewrite E2.
Qed.
Lemma pkeep_recv y v : v < 65536 -> rested y -> pkeep y (recv_of y v).
Proof.
  intros Hv (P & V & B & E1 & E2 & E3). destruct (recv_fields y v Hv) as (W & Z & _).
  split. { split; [exact P|]. split; [now rewrite Z|]. split; [exact B|]. rewrite W. auto. }
  do 5 (split; [reflexivity|]). intros a Ha Hb. unfold recv_of. sfields. now apply rx_regs_other.
Qed.
Lemma pkeep_clear y : rested y -> pkeep y (set_ir y (N.ldiff (ir y) (interrupt_u8 InReceive))).
Proof.
  intros R. split; [exact R|]. do 3 (split; [reflexivity|]). split; [|split].
  - unfold fresh_ok, sendok. sfields. rewrite N.ldiff_spec. change (N.testbit (interrupt_u8 InReceive) 4) with false. now rewrite andb_true_r.
  - unfold tmof. sfields. rewrite N.ldiff_spec. change (N.testbit (interrupt_u8 InReceive) 3) with false. now rewrite andb_true_r.
  - intros a _ _. reflexivity.
Qed.

Definition sender (g : dgram) (a : addr4) : Prop := octets (a_ip a) = g_ip g /\ a_port a = g_port g.

(** The datagrams [g :: q] were waiting when the size was read, [later] arrived after that. *)
Definition urecv (x : sock) (q0 : list dgram) (buf : list byte) (n : N) (o : addr4) (buf' : list byte) (x' : sock) : Prop :=
  pkeep x x' /\ rready x' /\
  exists g q later q', q0 ++ q' = (g :: q) ++ later /\ Forall wf_dgram (q0 ++ q') /\ queue x' later /\ rxlog x' = rxlog x ++ records q' /\
    sender g o /\ len (g_data g) <= len buf /\ n = N.min (len (records (g :: q))) (len buf) /\
    take (len (g_data g)) buf' = g_data g /\ drop n buf' = drop n buf /\ len buf' = len buf.

Lemma header_of g rest : wf_dgram g -> let h := udp_header_from (take 8 (record_of g ++ rest)) in
  sender g (origin h) /\ h_len h = len (g_data g).
Proof.
  intros (H1 & H2 & H3). unfold record_of, udp_record, sender. destruct g as [ip p d]. cbn [g_ip g_port g_data] in *.
  destruct ip as [|a [|b [|c [|f [|]]]]]; try discriminate; [|exfalso; unfold len in H1; cbn [length] in H1; lia].
  unfold take. change (N.to_nat 8) with 8%nat. cbn [List.app firstn udp_header_from nth origin h_len octets a_ip a_port ip0 ip1 ip2 ip3].
  split; [split; [reflexivity|]|]; rewrite from_be_2; unfold hi, lo; rewrite !b2n_u8; lia.
Qed.

Section Receive.
  Context (e : env) (i : N).
  Hypothesis NF : no_faults e.
  Hypothesis Hi : i < 8.
  Context (d : option addr4) (p : N).
  Let so := mkUdp (socket_new i) d p.

  Lemma wp_udp_receive fuel buf q0 (Q : outcome (list byte * res (N * UdpHeader) (nberr uerr)) -> sys -> Prop) s :
    sr (sk i s) = SOCK_UDP -> rested (sk i s) -> rready (sk i s) -> queue (sk i s) q0 ->
    (forall n h buf' s', urecv (sk i s) q0 buf n (origin h) buf' (sk i s') -> Q (Done (buf', Ok (n, h))) s') ->
    (forall s', sevs i (sk i s) (sk i s') -> (recvf (sk i s) = false \/ q0 = []) -> Q (Done (buf, Err WouldBlock)) s') ->
    (forall s', sevs i (sk i s) (sk i s') -> buf = [] -> Q (Done (buf, Err (NbOther UBufferOverflow))) s') ->
    (forall s' g q q1, sevs i (sk i s) (sk i s') -> q0 ++ q1 = g :: q -> queue (sk i s') (q0 ++ q1) -> len buf < len (g_data g) ->
       Q (Panicked P_udp_recv_slice) s') ->
    (forall s', sevs i (sk i s) (sk i s') -> Q Looping s') ->
    wp e (udp_socket_receive fuel so buf) Q s.
  Proof.
    intros Su R Rr Q0 HO HW HB HP HL. unfold udp_socket_receive. cbn [u_socket so]. cbv zeta.
    apply wp_try, wp_get_status; auto. intros s1 N1. cbv beta iota.
    destruct (rested_sevs i _ _ N1 R) as (_ & _ & _ & _ & _ & S1). rewrite S1, Su. change (udp_status_gate (u8 SOCK_UDP)) with (@Ok unit (nberr uerr) tt).
    cbv iota.
    apply wp_try, (wp_has_interrupt e i NF Hi InReceive 2); [reflexivity|reflexivity|]. intros s2 N2. cbv beta iota.
    assert (N02 : sevs i (sk i s) (sk i s2)) by (eapply sevs_trans; eauto).
    fold (recvf (sk i s2)). destruct (recvf (sk i s2)) eqn:F; cbn [negb].
    2: { apply wp_ret, HW; auto. left. destruct (recvf (sk i s)) eqn:F0; [|reflexivity]. apply (sevs_ir i _ _ 2 N02) in F0. unfold recvf in F. congruence. }
    pose proof (rready_sevs _ _ _ N02 Rr) as Rr2.
    apply wp_try, wp_get_receive_size; auto; [apply Rr2| |intros s3 N3; apply HL; eapply sevs_trans; eauto].
    intros y s3 N3 N3'. cbv beta iota.
    assert (N0y : sevs i (sk i s) y) by (eapply sevs_trans; eauto).
    assert (N03 : sevs i (sk i s) (sk i s3)) by (eapply sevs_trans; eauto).
    destruct (sevs_queue i _ _ q0 N0y Su (proj1 Rr) Q0) as (q1 & Qy & Ly).
    pose proof (rready_sevs _ _ _ N0y Rr) as (Vy & Ey).
    destruct (N.eqb_spec (rx_rsr y) 0) as [Z|Nz].
    { apply wp_ret, HW; auto. right. destruct Qy as (Q1 & Q2). rewrite <- len_pending, Q1 in Z.
      destruct q0 as [|g q0]; [reflexivity|]. exfalso. cbn [List.app] in *. unfold records in Z. cbn [map concat] in Z. rewrite len_app, len_record in Z by (now inversion Q2). lia. }
    destruct (N.eqb_spec (len buf) 0) as [Zb|Nb].
    { apply wp_ret, HB; auto. destruct buf; [reflexivity|]. rewrite len_cons in Zb. lia. }
    destruct Qy as (Q1 & Q2). destruct (q0 ++ q1) as [|g q] eqn:Eq.
    { exfalso. rewrite <- len_pending, Q1 in Nz. now apply Nz. }
    pose proof (Forall_inv Q2) as Wg. pose proof (len_record g Wg) as Lg.
    assert (Tot : rx_rsr y = len (records (g :: q))) by (rewrite <- Q1; symmetry; apply len_pending).
    assert (Tge : 8 + len (g_data g) <= len (records (g :: q))) by (unfold records; cbn [map concat]; rewrite len_app, Lg; lia).
    apply wp_try, wp_get_rx_read_pointer; auto. intros s4 N4. cbv beta iota.
    assert (N04 : sevs i (sk i s) (sk i s4)) by (eapply sevs_trans; eauto). assert (Ny4 : sevs i y (sk i s4)) by (eapply sevs_trans; eauto).
    pose proof (rready_sevs _ _ _ N04 Rr) as (V4 & E4). pose proof V4 as (Vz & Vw & Vb & Vr).
    destruct (sevs_rx _ _ _ Ny4 Vy) as (_ & c4 & P4 & _ & _ & R4).
    rewrite E4. unfold read_reg. cbn [bind]. apply wp_try. cbn [u_socket]. rewrite so_rx by exact Hi.
    apply (wp_rrx e i NF _ _ 0); [exact V4|exact Vb|now rewrite N.add_0_r|change (len (zeros 8)) with 8; lia|].
    intros s5 N5. apply wp_ret. cbn [fst snd]. cbv beta iota.
    change (firstn (length (zeros 8)) (skipn (N.to_nat 0) (pending (sk i s4)))) with (take 8 (pending (sk i s4))).
    destruct (header_of g (records q ++ c4) Wg) as (Hs & Hl). cbv zeta in Hs, Hl.
    assert (Ep : pending (sk i s4) = record_of g ++ (records q ++ c4)).
    { rewrite P4, Q1. unfold records at 1. cbn [map concat]. now rewrite <- app_assoc. }
    rewrite <- Ep in Hs, Hl. rewrite Hl. set (h := udp_header_from _) in *.
    assert (N05 : sevs i (sk i s) (sk i s5)) by (eapply sevs_trans; eauto).
    set (n := N.max (N.min (rx_rsr y) (len buf)) (len (g_data g))).
    apply wp_slice_to.
    2: { intros Hn. destruct (sevs_queue i _ _ q0 N05 Su (proj1 Rr) Q0) as (q5 & Q5 & _).
         assert (N35 : sevs i y (sk i s5)) by (eapply sevs_trans; eauto).
         destruct (sevs_queue i _ _ (g :: q) N35) as (q6 & Q6 & _); auto.
         { destruct (rested_sevs i _ _ N0y R) as (_ & _ & _ & _ & _ & Sy). congruence. }
         { now split. }
         apply (HP s5 g (q ++ q6) (q1 ++ q6)); auto.
         - rewrite app_assoc, Eq. reflexivity.
         - rewrite app_assoc, Eq. exact Q6.
         - unfold n in Hn. lia. }
    intros Hn. assert (En : n = N.min (rx_rsr y) (len buf)) by (unfold n in *; lia).
    assert (Hd : len (g_data g) <= n) by (unfold n; lia).
    assert (Ln : len (take n buf) = n) by (rewrite len_take; lia).
    pose proof (rready_sevs _ _ _ N5 (conj V4 E4)) as (V5 & E5).
    assert (B5 : rx_base (sk i s5) = rx_base (sk i s4)) by now apply (sevs_rx_base i).
    destruct (sevs_rx _ _ _ N5 V4) as (_ & c5 & P5 & _ & _ & R5).
    apply wp_bind. unfold read_into.
    apply (wp_rrx_front e i NF _ _ 8 (len (g_data g))); [exact V5|apply N.mod_lt; discriminate| |lia|lia|].
    { rewrite B5. unfold wadd16. change (8 mod 65536) with 8. apply mod_wrap. apply V5. }
    intros s6 junk N6 Lj. cbn [bind fst snd]. cbv beta iota. apply wp_ret. cbn [fst snd].
    assert (Hv : wadd16 (rx_base (sk i s4)) (as_u16 (rx_rsr y)) = (rx_base (sk i s4) + rx_rsr y) mod 65536).
    { unfold wadd16, as_u16. apply N.add_mod_idemp_r. discriminate. }
    rewrite Hv. set (v := (rx_base (sk i s4) + rx_rsr y) mod 65536). assert (Lv : v < 65536) by (apply N.mod_lt; discriminate).
    assert (N06 : sevs i (sk i s) (sk i s6)) by (eapply sevs_trans; eauto).
    apply wp_recv; auto; [apply (rested_sevs i _ _ N06 R)|]. intros y7 s7 N7 E7.
    apply wp_try, wp_reset_interrupt; auto. intros z8 s8 N8 E8. cbv beta iota. apply wp_ret.
    assert (N07 : sevs i (sk i s) y7) by (eapply sevs_trans; eauto).
    assert (N57 : sevs i (sk i s5) y7) by (eapply sevs_trans; eauto). assert (Ny7 : sevs i y y7) by (eapply sevs_trans; [exact Ny4|eapply sevs_trans; eauto]).
    destruct (rested_sevs i _ _ N07 R) as (R7 & _ & _ & _ & _ & S7).
    pose proof (rready_sevs _ _ _ N07 Rr) as (V7 & _).
    assert (B7 : rx_base y7 = rx_base (sk i s4)) by (rewrite <- B5; now apply (sevs_rx_base i)).
    destruct (rested_sevs i _ _ N0y R) as (_ & _ & _ & _ & _ & Sy).
    destruct (sevs_queue i y y7 (g :: q) Ny7 ltac:(congruence) Vy (conj Q1 Q2)) as (q7 & (Q7a & Q7b) & L7).
    destruct (sevs_rx _ _ _ Ny7 Vy) as (_ & c7 & _ & _ & _ & R7').
    destruct (recv_rx y7 (rx_rsr y) V7 ltac:(lia)) as (V7r & P7). rewrite B7 in V7r, P7. fold v in V7r, P7. rewrite <- E7 in V7r, P7.
    assert (P7' : pending (sk i s7) = records q7).
    { rewrite P7, Q7a, records_app, Tot. apply drop_app_exact. }
    destruct (recv_fields y7 v Lv) as (_ & _ & _ & F1 & F2).
    pose proof (pkeep_recv y7 v Lv R7) as T7. rewrite <- E7 in T7, F1, F2. pose proof T7 as (R7s & _ & _ & S7s & _).
    apply Forall_app in Q7b. destruct Q7b as (_ & Q7b).
    destruct (sevs_queue i (sk i s7) z8 q7 N8 ltac:(congruence) V7r (conj P7' Q7b)) as (q8 & Q8 & L8).
    destruct (rested_sevs i _ _ N8 R7s) as (R8 & _).
    apply HO. split; [|split].
    - eapply pkeep_trans; [apply (pkeep_sevs i _ _ N07 R)|]. eapply pkeep_trans; [exact T7|]. eapply pkeep_trans; [apply (pkeep_sevs i _ _ N8 R7s)|].
      rewrite E8. now apply pkeep_clear.
    - rewrite E8. assert (E9 : rx_rd (sk i s7) = rx_base (sk i s7)) by congruence. exact (rready_sevs _ _ _ N8 (conj V7r E9)).
    - exists g, q, (q7 ++ q8), (q1 ++ q7 ++ q8). rewrite E8.
      split; [rewrite app_assoc, Eq; reflexivity|]. split; [rewrite app_assoc, Eq; apply Forall_app; split; [exact Q2|apply Q8]|].
      split; [exact Q8|]. split.
      { change (rxlog (set_ir z8 _)) with (rxlog z8). rewrite L8, E7. change (rxlog (recv_of y7 v)) with (rxlog y7).
        rewrite L7, Ly, !records_app, !app_assoc. reflexivity. }
      split; [exact Hs|]. split; [lia|]. split; [rewrite <- Tot; exact En|].
      assert (Ed : take (len (g_data g)) (drop 8 (pending (sk i s5))) = g_data g).
      { rewrite P5, Ep. unfold record_of, udp_record. destruct Wg as (Wi & _).
        set (hd := g_ip g ++ [hi (g_port g); lo (g_port g)] ++ [hi (len (g_data g)); lo (len (g_data g))]).
        assert (Lh : len hd = 8) by (unfold hd; rewrite !len_app, Wi; reflexivity). rewrite <- Lh.
        replace (((g_ip g ++ [hi (g_port g); lo (g_port g)] ++ [hi (len (g_data g)); lo (len (g_data g))] ++ g_data g) ++ records q ++ c4) ++ c5)
          with (hd ++ (g_data g ++ (records q ++ c4) ++ c5)) by (unfold hd; rewrite <- !app_assoc; reflexivity).
        rewrite drop_app_exact. apply take_app_exact. }
      rewrite Ed. rewrite Ln in Lj. split; [rewrite <- app_assoc; apply take_app_exact|].
      assert (Lf : len (g_data g ++ junk) = n) by (rewrite len_app; lia).
      split; [rewrite <- Lf at 1; apply drop_app_exact|]. rewrite len_app, len_drop, Lf. lia.
  Qed.
End Receive.
