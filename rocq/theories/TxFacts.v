(** Putting data into a socket's TX buffer (shared by TCP, UDP and MACRAW). *)
From Verif Require Export OpenFacts.
From Verif Require Import Datasheet.

(** ** Receiving side, under driver steps that do not concern it *)
Definition rxrel (x x' : sock) : Prop :=
  rx_rd x' = rx_rd x /\ rx_base x' = rx_base x /\ rx_size x' = rx_size x /\
  (recvf x = true -> recvf x' = true) /\
  (rxv x -> rxv x' /\ exists ch, pending x' = pending x ++ ch /\ rxlog x' = rxlog x ++ ch /\
     (ch <> [] -> recvf x' = true)).
Lemma rxrel_trans a b c : rxrel a b -> rxrel b c -> rxrel a c.
Proof.
  intros (A1 & A2 & A3 & A4 & A5) (B1 & B2 & B3 & B4 & B5).
  split; [congruence|]. split; [congruence|]. split; [congruence|]. split; [auto|].
  intros V. destruct (A5 V) as (V1 & ch & P1 & P2 & P3). destruct (B5 V1) as (V2 & ch' & Q1 & Q2 & Q3).
  split; [exact V2|]. exists (ch ++ ch'). rewrite Q1, Q2, P1, P2, !app_assoc. split; [reflexivity|]. split; [reflexivity|].
  intros H. destruct ch as [|c0 ch]; [apply Q3; exact H|]. apply B4, P3. discriminate.
Qed.
Lemma rxrel_sevs i x x' : sevs i x x' -> rxrel x x'.
Proof.
  intros H. destruct (sevs_wr i x x' H) as (_ & _ & E1 & E2).
  split; [exact E1|]. split; [now apply (sevs_rx_base i)|]. split; [exact E2|]. split; [apply (sevs_ir i _ _ 2 H)|].
  intros V. destruct (sevs_rx i x x' H V) as (V' & ch & P1 & P2 & P3 & _). split; [exact V'|]. exists ch. auto.
Qed.
(** nothing on the receiving side changed *)
Lemma rxrel_same x x' : rx_rd x' = rx_rd x -> rx_base x' = rx_base x -> rx_size x' = rx_size x -> rx_wr x' = rx_wr x ->
  rxm x' = rxm x -> rxlog x' = rxlog x -> recvf x' = recvf x -> rxrel x x'.
Proof.
  intros H1 H2 H3 H4 H5 H6 H7. split; [exact H1|]. split; [exact H2|]. split; [exact H3|]. split; [congruence|].
  assert (H8 : rx_rsr x' = rx_rsr x) by (unfold rx_rsr; congruence).
  intros V. split; [unfold rxv in *; now rewrite H2, H3, H4, H8|]. exists [].
  unfold pending. rewrite H2, H3, H5, H8, H6, !app_nil_r. split; [reflexivity|]. split; [reflexivity|]. congruence.
Qed.

(** ** Staging data *)
Definition staged_of (y : sock) (w : list byte) : sock :=
  set_regs (set_txm y (ring_write (txm y) (tx_size y) (tx_wr y) w))
    (puts (regs y) Sn_TX_WR (to_be ((tx_wr y + len w) mod 65536))).
(** staged but not yet handed to a SEND; not yet acknowledged *)
Definition unsent (y : sock) : list byte :=
  ring_read (txm y) (tx_size y) (tx_end y) (N.to_nat (sub16 (tx_wr y) (tx_end y))).
Definition unacked (y : sock) : list byte :=
  ring_read (txm y) (tx_size y) (tx_ack y) (N.to_nat (sub16 (tx_wr y) (tx_ack y))).

Lemma tx_regs_other m v a : a <> Sn_TX_WR -> a <> Sn_TX_WR + 1 -> puts m Sn_TX_WR (to_be v) a = m a.
Proof. intros H1 H2. apply puts_other. change (len (to_be v)) with 2. lia. Qed.
Lemma tx_regs_sizes m v : same_sizes m (puts m Sn_TX_WR (to_be v)).
Proof. apply puts_sizes. reflexivity. Qed.
Lemma staged_fields y w :
  tx_wr (staged_of y w) = (tx_wr y + len w) mod 65536 /\ tx_size (staged_of y w) = tx_size y /\
  rx_size (staged_of y w) = rx_size y /\ rx_rd (staged_of y w) = rx_rd y.
Proof.
  unfold tx_wr at 1, tx_size at 1, rx_size at 1, rx_rd at 1, staged_of. cbn [regs set_regs].
  split; [apply puts_get16, N.mod_lt; discriminate|].
  rewrite !tx_regs_other by discriminate. split; [reflexivity|]. split; [reflexivity|].
  apply get16_puts_other. right. discriminate.
Qed.
Lemma staged_rxrel y w : rxrel y (staged_of y w).
Proof.
  destruct (staged_fields y w) as (_ & _ & E1 & E2). apply rxrel_same; auto.
Qed.
(** data already in the buffer is not touched if the new data fits *)
Lemma staged_window y w a n : valid_size (tx_size y) -> a < 65536 ->
  n + len w <= tx_size y -> n = sub16 (tx_wr y) a ->
  ring_read (txm (staged_of y w)) (tx_size y) a (N.to_nat n) = ring_read (txm y) (tx_size y) a (N.to_nat n) /\
  ring_read (txm (staged_of y w)) (tx_size y) a (N.to_nat (n + len w)) =
  ring_read (txm y) (tx_size y) a (N.to_nat n) ++ w.
Proof.
  intros V Ha Hn En. pose proof (valid_pos _ V) as Hz. pose proof (tx_wr_lt y) as Hw.
  assert (E : ring_write (txm y) (tx_size y) (tx_wr y) w = ring_write (txm y) (tx_size y) (a + n) w).
  { rewrite <- (ring_write_wrap (txm y) (tx_size y) (a + n)) by exact V. f_equal. rewrite En. symmetry. now apply add_sub16. }
  unfold staged_of. cbn [txm set_regs set_txm]. rewrite E.
  assert (B : ring_read (ring_write (txm y) (tx_size y) (a + n) w) (tx_size y) a (N.to_nat n) = ring_read (txm y) (tx_size y) a (N.to_nat n)).
  { apply ring_read_write_before; auto; lia. }
  split; [exact B|].
  replace (N.to_nat (n + len w)) with (N.to_nat n + length w)%nat by (unfold len; lia).
  rewrite ring_read_app, B, N2Nat.id. f_equal. apply ring_read_write_same; auto. lia.
Qed.
Lemma staged_wr_ack y w a : txv y -> a < 65536 -> sub16 (tx_wr y) a + len w < 65536 ->
  sub16 (tx_wr (staged_of y w)) a = sub16 (tx_wr y) a + len w.
Proof.
  intros V Ha H. destruct (staged_fields y w) as (-> & _). apply sub16_advance; auto. apply tx_wr_lt.
Qed.
Lemma staged_txv y w : txv y -> len w <= tx_fsr y ->
  txv (staged_of y w) /\ unacked (staged_of y w) = unacked y ++ w /\ unsent (staged_of y w) = unsent y ++ w.
Proof.
  intros V L. pose proof V as (Vz & H1 & H2 & H3 & H4 & H5). pose proof (valid_le _ Vz) as Hz.
  unfold tx_fsr in L.
  assert (E1 : sub16 (tx_wr (staged_of y w)) (tx_ack y) = sub16 (tx_wr y) (tx_ack y) + len w) by (apply staged_wr_ack; auto; lia).
  assert (E2 : sub16 (tx_wr (staged_of y w)) (tx_end y) = sub16 (tx_wr y) (tx_end y) + len w) by (apply staged_wr_ack; auto; lia).
  destruct (staged_fields y w) as (_ & Ez & _). split; [|split].
  - unfold txv. rewrite Ez. change (tx_ack (staged_of y w)) with (tx_ack y). change (tx_end (staged_of y w)) with (tx_end y).
    change (tx_rd (staged_of y w)) with (tx_rd y). rewrite E1, E2. split; [exact Vz|]. split; [auto|]. split; [auto|]. split; [auto|]. split; lia.
  - unfold unacked. rewrite Ez. change (tx_ack (staged_of y w)) with (tx_ack y). rewrite E1. apply staged_window; auto. lia.
  - unfold unsent. rewrite Ez. change (tx_end (staged_of y w)) with (tx_end y). rewrite E2. apply staged_window; auto. lia.
Qed.

Section Stage.
  Context (e : env) (i : N).
  Hypothesis NF : no_faults e.
  Hypothesis Hi : i < 8.
  Lemma wp_stage {R} (h : berr -> R) w (k : prog R) Q s :
    idle (sk i s) -> valid_size (tx_size (sk i s)) -> len w < 65536 ->
    (forall y s3, sevs i (sk i s) y -> sk i s3 = staged_of y w -> wp e k Q s3) ->
    wp e (try wp <- get_tx_write_pointer (socket_new i) else h ;;
          try a <- write_frame (tx_buffer (socket_new i)) wp w else h ;;
          try b <- set_tx_write_pointer (socket_new i) (wadd16 wp (as_u16 (len w))) else h ;;
          k) Q s.
  Proof.
    intros I V L H.
    apply wp_try, wp_get_tx_write_pointer; auto. intros s1 N1. cbv beta iota.
    destruct (sevs_idle _ _ _ N1 I) as (I1 & _). destruct (sevs_wr _ _ _ N1) as (W1 & Z1 & _).
    apply wp_try. unfold write_frame. rewrite so_tx by exact Hi.
    apply wp_wtx; [exact NF|exact I1|now rewrite Z1|]. intros y2 s2 N2 E2. apply wp_ret. cbv beta iota.
    destruct (sevs_idle _ _ _ N2 I1) as (I2 & _). destruct (sevs_wr _ _ _ N2) as (W2 & Z2 & _).
    apply wp_try, wp_set_tx_write_pointer; auto; [rewrite E2; exact I2|]. intros y3 s3 N3 E3. cbv beta iota.
    rewrite E2 in N3. destruct (sevs_set_txm i y2 _ _ I2 N3) as (y & N4 & ->).
    apply (H y s3); [eapply sevs_trans; [exact N1|eapply sevs_trans; eauto]|].
    rewrite E3. unfold staged_of. cbn [regs set_txm].
    destruct (sevs_wr _ _ _ N4) as (W4 & Z4 & _). rewrite (sevs_txm _ _ _ N4), Z4, W4, W2.
    unfold wadd16, as_u16. rewrite (N.mod_small (len w)) by exact L. reflexivity.
  Qed.
End Stage.
