(** Taking data out of a socket's RX buffer (shared by TCP, UDP and MACRAW). *)
From Verif Require Export TxFacts.
From Verif Require Import Datasheet.

(** the socket after the read pointer has been set to [v] and RECV issued *)
Definition recv_of (y : sock) (v : N) : sock :=
  set_rx_base (set_regs y (puts (regs y) Sn_RX_RD (to_be v))) v.

Lemma rx_regs_other m v a : a <> Sn_RX_RD -> a <> Sn_RX_RD + 1 -> puts m Sn_RX_RD (to_be v) a = m a.
Proof. intros H1 H2. apply puts_other. change (len (to_be v)) with 2. unfold Sn_RX_RD in *. lia. Qed.
Lemma recv_fields y v : v < 65536 ->
  tx_wr (recv_of y v) = tx_wr y /\ tx_size (recv_of y v) = tx_size y /\
  rx_size (recv_of y v) = rx_size y /\ rx_rd (recv_of y v) = v /\ rx_base (recv_of y v) = v.
Proof.
  intros Hv. unfold tx_wr at 1, tx_size at 1, rx_size at 1, rx_rd at 1, recv_of. cbn [regs set_regs set_rx_base rx_base].
  split; [rewrite get16_puts_other by (left; reflexivity); reflexivity|].
  rewrite !rx_regs_other by discriminate. split; [reflexivity|]. split; [reflexivity|]. split; [now apply puts_get16|reflexivity].
Qed.
Lemma recv_rx y n : rxv y -> n <= rx_rsr y ->
  rxv (recv_of y ((rx_base y + n) mod 65536)) /\
  pending (recv_of y ((rx_base y + n) mod 65536)) = drop n (pending y).
Proof.
  intros (Vz & H1 & H2 & H3) Hn. set (v := (rx_base y + n) mod 65536).
  assert (Hv : v < 65536) by (apply N.mod_lt; discriminate).
  destruct (recv_fields y v Hv) as (_ & _ & E1 & _ & E2).
  assert (ER : rx_rsr (recv_of y v) = rx_rsr y - n).
  { unfold rx_rsr. rewrite E2. change (rx_wr (recv_of y v)) with (rx_wr y). unfold v. now apply sub16_retire. }
  split.
  - unfold rxv. rewrite E1, E2, ER. change (rx_wr (recv_of y v)) with (rx_wr y). split; [exact Vz|]. split; [exact H1|]. split; [exact Hv|]. lia.
  - unfold pending. rewrite ER, E1, E2. change (rxm (recv_of y v)) with (rxm y). unfold v.
    rewrite ring_read_wrap by exact Vz. unfold drop. rewrite skipn_ring_read by lia. f_equal; lia.
Qed.
Lemma recv_tx y v : v < 65536 -> txv y -> txv (recv_of y v) /\ unsent (recv_of y v) = unsent y /\ unacked (recv_of y v) = unacked y.
Proof.
  intros Hv V. destruct (recv_fields y v Hv) as (E1 & E2 & _).
  unfold txv, unsent, unacked in *. rewrite E1, E2. auto.
Qed.

Section Recv.
  Context (e : env) (i : N).
  Hypothesis NF : no_faults e.
  Hypothesis Hi : i < 8.

  (** set the read pointer, then RECV *)
  Lemma wp_recv {R} (h h' : berr -> R) v (k : prog R) (Q : outcome R -> sys -> Prop) s :
    idle (sk i s) -> v < 65536 ->
    (forall y s2, sevs i (sk i s) y -> sk i s2 = recv_of y v -> wp e k Q s2) ->
    wp e (try b <- set_rx_read_pointer (socket_new i) v else h ;;
          try c <- command (socket_new i) CmReceive else h' ;; k) Q s.
  Proof.
    intros I Hv H. apply wp_try, wp_set_rx_read_pointer; auto. intros y s1 N1 E1. cbv beta iota.
    destruct (sevs_idle _ _ _ N1 I) as (Iy & _).
    apply wp_try, wp_command; auto. intros z s2 N2 E2. cbv beta iota. rewrite E1 in N2.
    destruct (sevs_set_regs i y _ z (puts_sizes (to_be v) (regs y) Sn_RX_RD ltac:(reflexivity)) Iy N2) as (u & U1 & U2).
    apply (H u); [eapply sevs_trans; eauto|]. rewrite E2.
    change (do_command i z (command_u8 CmReceive)) with (set_rx_base z (rx_rd z)). rewrite U2.
    unfold recv_of. rewrite (sevs_regs _ _ _ U1).
    assert (E : rx_rd (set_regs u (puts (regs y) Sn_RX_RD (to_be v))) = v) by (unfold rx_rd; cbn [regs set_regs]; now apply puts_get16).
    now rewrite E.
  Qed.
End Recv.
