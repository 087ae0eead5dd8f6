(** TCP receive against the chip. *)
From Verif Require Export TcpSend RxFacts.
From Verif Require Import Datasheet ProgFacts.

(** everything received and not yet returned starts where the driver reads next *)
Definition rready (x : sock) : Prop := rxv x /\ rx_rd x = rx_base x.
Lemma rready_sevs i x y : sevs i x y -> rready x -> rready y.
Proof.
  intros H (V & E). destruct (sevs_rx i x y H V) as (V' & _). destruct (sevs_wr i x y H) as (_ & _ & E1 & _).
  split; [exact V'|]. now rewrite E1, (sevs_rx_base i x y H).
Qed.
Lemma rready_rxrel x y : rxrel x y -> rready x -> rready y.
Proof. intros (E1 & E2 & _ & _ & H) (V & E). split; [now apply H|congruence]. Qed.

(** the sending side, under driver steps that do not concern it *)
Definition txkeep (x x' : sock) : Prop :=
  ready x' /\ unsent x' = unsent x /\ sent x' = sent x /\ tx_wr x' = tx_wr x /\ tx_rd x' = tx_rd x /\ dialled x' = dialled x /\
  (forall a, a <> Sn_RX_RD -> a <> Sn_RX_RD + 1 -> regs x' a = regs x a).
Lemma txkeep_trans x y z : txkeep x y -> txkeep y z -> txkeep x z.
Proof.
  intros (A1 & A2 & A3 & A4 & A5 & A6 & A7) (B1 & B2 & B3 & B4 & B5 & B6 & B7).
  split; [exact B1|]. split; [congruence|]. split; [congruence|]. split; [congruence|]. split; [congruence|]. split; [congruence|].
  intros a Ha Hb. rewrite B7 by assumption. now apply A7.
Qed.
Lemma txkeep_sevs i x y : sevs i x y -> ready x -> txkeep x y.
Proof.
  intros H R. pose proof R as (V & B & O & _). destruct (calm_sevs i x y H B O) as (_ & _ & _ & _ & E1 & E2).
  destruct (sevs_wr i x y H) as (W & _). split; [now apply (ready_sevs i x)|]. split; [now apply (unsent_sevs i)|].
  split; [exact E2|]. split; [exact W|]. split; [exact E1|]. split; [now apply (sevs_dialled i)|]. intros a _ _. now rewrite (sevs_regs i x y H).
Qed.
Lemma txkeep_recv y v : v < 65536 -> ready y -> txkeep y (recv_of y v).
Proof.
  intros Hv (V & B & O & S & E & L). destruct (recv_tx y v Hv V) as (V' & U & _). destruct (recv_fields y v Hv) as (W & _).
  split. { split; [exact V'|]. split; [exact B|]. split; [exact O|]. split; [exact S|]. split; [exact E|exact L]. }
  split; [exact U|]. split; [reflexivity|]. split; [exact W|]. split; [reflexivity|]. split; [reflexivity|].
  intros a Ha Hb. unfold recv_of. cbn [regs set_regs set_rx_base]. now apply rx_regs_other.
Qed.
Lemma txkeep_clear y : ready y -> txkeep y (set_ir y (N.ldiff (ir y) (interrupt_u8 InReceive))).
Proof.
  intros (V & B & O & S & E & L).
  split. { split; [exact V|]. split; [exact B|]. split; [exact O|]. split; [|split; [exact E|exact L]].
    unfold sendok in *. sfields. now rewrite N.ldiff_spec, S. }
  split; [reflexivity|]. split; [reflexivity|]. split; [reflexivity|]. split; [reflexivity|]. split; [reflexivity|].
  intros a Ha Hb. reflexivity.
Qed.

(** [n] bytes delivered to the front of the buffer *)
Definition recv_done (x : sock) (buf : list byte) (n : N) (buf' : list byte) (x' : sock) : Prop :=
  n <= len buf /\ txkeep x x' /\ rready x' /\
  exists ch, n <= len (pending x ++ ch) /\ buf' = take n (pending x ++ ch) ++ drop n buf /\
    pending x' = drop n (pending x ++ ch) /\ rxlog x' = rxlog x ++ ch.

Section Receive.
  Context (e : env) (i : N).
  Hypothesis NF : no_faults e.
  Hypothesis Hi : i < 8.

  Lemma wp_tcp_receive_data n data (Q : outcome (list byte * res N terr) -> sys -> Prop) s :
    ready (sk i s) -> rready (sk i s) -> n <= len data -> n <= rx_rsr (sk i s) ->
    (forall s' d', recv_done (sk i s) data n d' (sk i s') -> Q (Done (d', Ok n)) s') ->
    wp e (tcp_receive_data (mkTcp (socket_new i)) n data) Q s.
  Proof.
    intros Rd Rr Hn Hr H. unfold tcp_receive_data. cbn [t_socket]. cbv zeta.
    assert (Ln : len (take n data) = n) by (rewrite len_take; lia).
    apply wp_try, wp_get_rx_read_pointer; auto. intros s1 N1. cbv beta iota.
    pose proof (rready_sevs _ _ _ N1 Rr) as (V1 & E1). pose proof V1 as (Vz & Vw & Vb & Vr).
    destruct (sevs_rx _ _ _ N1 (proj1 Rr)) as (_ & ch1 & P1 & L1 & _ & S1).
    rewrite E1. unfold read_into. cbn [bind]. rewrite so_rx by exact Hi.
    apply (wp_rrx e i NF _ _ 0); [exact V1|exact Vb|now rewrite N.add_0_r|rewrite Ln; lia|].
    intros s2 N2. cbn [bind fst snd]. change (N.to_nat 0) with 0%nat. cbn [skipn].
    pose proof (ready_sevs _ _ _ N1 Rd) as R1. pose proof (ready_sevs _ _ _ N2 R1) as R2.
    assert (Hv : wadd16 (rx_base (sk i s1)) (as_u16 (len (take n data))) = (rx_base (sk i s1) + n) mod 65536).
    { rewrite Ln. unfold wadd16, as_u16. apply N.add_mod_idemp_r. discriminate. }
    rewrite Hv. set (v := (rx_base (sk i s1) + n) mod 65536). assert (Lv : v < 65536) by (apply N.mod_lt; discriminate).
    apply wp_recv; auto; [apply R2|]. intros y s3 N3 E3.
    apply wp_try, wp_reset_interrupt; auto. intros z s4 N4 E4. cbv beta iota. apply wp_ret. rewrite Ln.
    assert (Ny : sevs i (sk i s1) y) by (eapply sevs_trans; eauto).
    pose proof (ready_sevs _ _ _ Ny R1) as Ry.
    pose proof (rready_sevs _ _ _ Ny (conj V1 E1)) as (Vy & Ey).
    destruct (sevs_rx _ _ _ Ny V1) as (_ & ch2 & P2 & L2 & _ & S2).
    assert (By : rx_base y = rx_base (sk i s1)) by now apply (sevs_rx_base i).
    destruct (recv_rx y n Vy ltac:(lia)) as (V3 & P3). rewrite By in V3, P3. fold v in V3, P3. rewrite <- E3 in V3, P3.
    destruct (recv_fields y v Lv) as (_ & _ & _ & F1 & F2).
    pose proof (txkeep_recv y v Lv Ry) as T3. rewrite <- E3 in T3, F1, F2.
    destruct (sevs_rx _ _ _ N4 V3) as (_ & ch3 & P4 & L4 & _ & _).
    apply H. split; [exact Hn|]. split; [|split].
    - eapply txkeep_trans; [apply (txkeep_sevs i _ _ N1 Rd)|]. eapply txkeep_trans; [apply (txkeep_sevs i _ _ Ny R1)|].
      eapply txkeep_trans; [exact T3|]. eapply txkeep_trans; [apply (txkeep_sevs i _ _ N4), T3|].
      rewrite E4. apply txkeep_clear. apply (ready_sevs _ _ _ N4), T3.
    - rewrite E4. assert (E5 : rx_rd (sk i s3) = rx_base (sk i s3)) by congruence.
      exact (rready_sevs _ _ _ N4 (conj V3 E5)).
    - exists (ch1 ++ ch2 ++ ch3).
      assert (Lp : len (pending (sk i s)) = rx_rsr (sk i s)) by apply len_pending.
      assert (Lp1 : len (pending (sk i s1)) = rx_rsr (sk i s1)) by apply len_pending.
      split; [rewrite len_app; lia|]. split; [|split].
      + f_equal. change (length (take n data)) with (length (take n data)).
        assert (Hl : length (take n data) = N.to_nat n) by (unfold len in Ln; lia). rewrite Hl. fold (take n (pending (sk i s1))).
        rewrite P1. rewrite !take_app_le by lia. reflexivity.
      + rewrite E4. change (pending (set_ir z _)) with (pending z). rewrite P4, P3, P2, P1.
        rewrite !app_assoc. rewrite !drop_app_le by (rewrite ?len_app; lia). reflexivity.
      + rewrite E4. change (rxlog (set_ir z _)) with (rxlog z). rewrite L4, E3. change (rxlog (recv_of y v)) with (rxlog y).
        rewrite L2, L1, !app_assoc. reflexivity.
  Qed.

  Lemma recv_done_before x0 x buf n buf' x' : sevs i x0 x -> ready x0 -> rready x0 ->
    recv_done x buf n buf' x' -> recv_done x0 buf n buf' x'.
  Proof.
    intros N R0 (V & _) (H1 & H2 & H3 & ch & H4 & H5 & H6 & H7).
    destruct (sevs_rx _ _ _ N V) as (_ & c & P & L & _).
    split; [exact H1|]. split; [eapply txkeep_trans; [now apply (txkeep_sevs i _ _ N)|exact H2]|]. split; [exact H3|].
    exists (c ++ ch). rewrite app_assoc, <- P. split; [exact H4|]. split; [exact H5|]. split; [exact H6|]. rewrite H7, L. symmetry. apply app_assoc.
  Qed.
  Lemma recv_done_none x buf x' : sevs i x x' -> ready x -> rready x -> recv_done x buf 0 buf x'.
  Proof.
    intros N R Rr. destruct (sevs_rx _ _ _ N (proj1 Rr)) as (_ & c & P & L & _).
    split; [lia|]. split; [now apply (txkeep_sevs i)|]. split; [now apply (rready_sevs i x)|].
    exists c. split; [lia|]. split; [reflexivity|]. split; [exact P|exact L].
  Qed.

  Lemma wp_tcp_receive fuel data (Q : outcome (list byte * res N (nberr terr)) -> sys -> Prop) s :
    ready (sk i s) -> rready (sk i s) ->
    (forall n d' s', recv_done (sk i s) data n d' (sk i s') ->
       (exists x, sevs i (sk i s) x /\ recvf x = true /\ n = N.min (len data) (rx_rsr x)) \/
       (n = 0 /\ d' = data /\ sevs i (sk i s) (sk i s') /\ recvf (sk i s) = false) ->
       Q (Done (d', Ok n)) s') ->
    (forall s', sevs i (sk i s) (sk i s') -> sr (sk i s') <> SOCK_ESTABLISHED -> Q (Done (data, Err (NbOther TNotConnected))) s') ->
    (forall s', sevs i (sk i s) (sk i s') -> Q Looping s') ->
    wp e (tcp_receive fuel (mkTcp (socket_new i)) data) Q s.
  Proof.
    intros Rd Rr H HE HL. unfold tcp_receive, tcp_socket_receive. cbn [t_socket].
    apply wp_bind, wp_try, wp_tcp_is_connected; auto; [apply Rd|]. intros s1 N1. cbv beta iota.
    destruct (sr (sk i s1) =? SOCK_ESTABLISHED) eqn:Est; cbn [negb];
      [apply N.eqb_eq in Est|apply N.eqb_neq in Est; apply wp_ret, wp_ret; now apply HE].
    pose proof (ready_sevs _ _ _ N1 Rd) as R1. pose proof (rready_sevs _ _ _ N1 Rr) as Rr1.
    apply wp_try, (wp_has_interrupt e i NF Hi InReceive 2); [reflexivity|reflexivity|]. intros s2 N2. cbv beta iota.
    assert (N12 : sevs i (sk i s) (sk i s2)) by (eapply sevs_trans; eauto).
    fold (recvf (sk i s2)). destruct (recvf (sk i s2)) eqn:F; cbn [negb].
    2: { apply wp_ret, wp_ret. cbn [fst snd]. apply H.
         - now apply recv_done_none.
         - right. split; [reflexivity|]. split; [reflexivity|]. split; [exact N12|].
           destruct (recvf (sk i s)) eqn:F0; [|reflexivity]. apply (sevs_ir i _ _ 2 N12) in F0. unfold recvf in F. congruence. }
    pose proof (ready_sevs _ _ _ N12 Rd) as R2. pose proof (rready_sevs _ _ _ N12 Rr) as Rr2.
    apply wp_try, wp_get_receive_size; auto; [apply Rr2| |intros s3 N3; apply HL; eapply sevs_trans; eauto].
    intros x s3 N3 N3'. cbv beta iota.
    assert (N2x : sevs i (sk i s) x) by (eapply sevs_trans; eauto).
    assert (N23 : sevs i (sk i s) (sk i s3)) by (eapply sevs_trans; eauto).
    pose proof (ready_sevs _ _ _ N23 Rd) as R3. pose proof (rready_sevs _ _ _ N23 Rr) as Rr3.
    assert (Hx : rx_rsr x <= rx_rsr (sk i s3)).
    { destruct (sevs_rx _ _ _ N3' (proj1 (rready_sevs _ _ _ N2x Rr))) as (_ & ch & _ & _ & _ & E). lia. }
    assert (Fx : recvf x = true) by (apply (sevs_ir i _ _ 2 N3); exact F).
    destruct (N.ltb_spec (len data) (rx_rsr x)).
    - apply wp_tcp_receive_data; auto; [lia|lia|]. intros s' d' D. apply wp_ret. cbn [fst snd]. apply H.
      + eapply recv_done_before; eauto.
      + left. exists x. split; [exact N2x|]. split; [exact Fx|lia].
    - destruct (N.leb_spec (rx_rsr x) (len data)); [|lia].
      apply wp_tcp_receive_data; auto. intros s' d' D. apply wp_ret. cbn [fst snd]. apply H.
      + eapply recv_done_before; eauto.
      + left. exists x. split; [exact N2x|]. split; [exact Fx|lia].
  Qed.
End Receive.
