(** What each primitive of socket.rs does to the chip's socket, whatever the network does
    meanwhile. *)
From Verif Require Export ChipLogic.
From Verif Require Import Datasheet.

(** ** Transmit pointers *)
Definition txv (s : sock) : Prop :=
  valid_size (tx_size s) /\ tx_rd s < 65536 /\ tx_ack s < 65536 /\ tx_end s < 65536 /\
  sub16 (tx_wr s) (tx_ack s) =
    sub16 (tx_wr s) (tx_end s) + (sub16 (tx_end s) (tx_rd s) + sub16 (tx_rd s) (tx_ack s)) /\
  sub16 (tx_wr s) (tx_ack s) <= tx_size s.

Lemma get16_lt m a : get16 m a < 65536.
Proof. unfold get16. pose proof (b2n_lt (m a)). pose proof (b2n_lt (m (a + 1))). lia. Qed.
Lemma tx_wr_lt s : tx_wr s < 65536. Proof. apply get16_lt. Qed.
Lemma rx_rd_lt s : rx_rd s < 65536. Proof. apply get16_lt. Qed.

(** the event leaves the transmit pointers alone *)
Lemma tx_step s ev : txv s ->
  txv (sock_step s ev) /\
  sub16 (tx_wr (sock_step s ev)) (tx_ack (sock_step s ev)) <= sub16 (tx_wr s) (tx_ack s).
Proof.
  intros (V & H1 & H2 & H3 & H4 & H5).
  assert (R : regs (sock_step s ev) = regs s) by (ev_cases ev; auto).
  assert (W : tx_wr (sock_step s ev) = tx_wr s) by (unfold tx_wr; now rewrite R).
  assert (Z : tx_size (sock_step s ev) = tx_size s) by (unfold tx_size; now rewrite R).
  pose proof (tx_wr_lt s) as HW. pose proof (valid_le _ V) as HZ.
  set (w := tx_wr s) in *. set (z := tx_size s) in *.
  unfold txv. rewrite W, Z. clearbody w z. clear W Z R.
  assert (Triv : forall rd ack en, rd = tx_rd s -> ack = tx_ack s -> en = tx_end s ->
    (valid_size z /\ rd < 65536 /\ ack < 65536 /\ en < 65536 /\
     sub16 w ack = sub16 w en + (sub16 en rd + sub16 rd ack) /\ sub16 w ack <= z) /\
    sub16 w ack <= sub16 w (tx_ack s)).
  { intros rd ack en -> -> ->. split; [auto 10|lia]. }
  destruct ev; try (unfold sock_step, rx_append; cbv zeta;
    repeat match goal with |- context [if ?b then _ else _] =>
             lazymatch b with context [if _ then _ else _] => fail | _ => destruct b end end; sfields; apply Triv; reflexivity).
  - (* transmit *)
    cbn [sock_step]. unfold transmit. destruct (tx_busy s); [|apply Triv; reflexivity]. cbv zeta.
    set (k' := if (sr s =? SOCK_UDP) || (sr s =? SOCK_MACRAW) then sub16 (tx_end s) (tx_rd s) else N.min k (sub16 (tx_end s) (tx_rd s))).
    assert (Hk : k' <= sub16 (tx_end s) (tx_rd s)) by (unfold k'; destruct ((sr s =? SOCK_UDP) || (sr s =? SOCK_MACRAW)); lia).
    assert (G : forall b b2 b3 : bool,
      (let s' := if b then s else s in
       let rd := (tx_rd s + k') mod 65536 in let ack := if b2 then rd else tx_ack s in let en := tx_end s in
      (valid_size z /\ rd < 65536 /\ ack < 65536 /\ en < 65536 /\
     sub16 w ack = sub16 w en + (sub16 en rd + sub16 rd ack) /\ sub16 w ack <= z) /\
    sub16 w ack <= sub16 w (tx_ack s))).
    { intros b0 b2 b3. cbv zeta. pose proof (N.mod_lt (tx_rd s + k') 65536 ltac:(discriminate)) as Hm.
      assert (E1 : sub16 (tx_end s) ((tx_rd s + k') mod 65536) = sub16 (tx_end s) (tx_rd s) - k') by (apply sub16_retire; auto).
      assert (E2 : sub16 ((tx_rd s + k') mod 65536) (tx_ack s) = sub16 (tx_rd s) (tx_ack s) + k') by (apply sub16_advance; auto; lia).
      destruct b2.
      - assert (E3 : sub16 w ((tx_rd s + k') mod 65536) = sub16 w (tx_end s) + (sub16 (tx_end s) (tx_rd s) - k')).
        { assert (E4 : sub16 w (tx_rd s) = sub16 w (tx_end s) + sub16 (tx_end s) (tx_rd s)) by (apply sub16_chain; auto; lia).
          rewrite (sub16_retire w (tx_rd s) k'); auto; lia. }
        rewrite (sub16_self ((tx_rd s + k') mod 65536)) by assumption. rewrite E1, E3. split; [|lia].
        split; [exact V|]. split; [auto|]. split; [auto|]. split; [auto|]. split; lia.
      - rewrite E1, E2. split; [|lia]. split; [exact V|]. split; [auto|]. split; [auto|]. split; [auto|]. split; lia. }
    destruct (k' =? 0), ((sr s =? SOCK_UDP) || (sr s =? SOCK_MACRAW)), (k' =? sub16 (tx_end s) (tx_rd s)); sfields;
      first [exact (G true true true)|exact (G true false true)].
  - (* timeout *)
    cbn [sock_step]. destruct (tx_busy s); [|apply Triv; reflexivity]. cbv zeta.
    destruct advance; [|destruct ((sr s =? SOCK_UDP) || (sr s =? SOCK_MACRAW)); sfields; apply Triv; reflexivity].
    destruct ((sr s =? SOCK_UDP) || (sr s =? SOCK_MACRAW)); sfields;
      (rewrite (sub16_self (tx_end s)) by assumption; split; [|lia];
       split; [exact V|]; split; [auto|]; split; [auto|]; split; [auto|]; split; lia).
  - (* acknowledgement *)
    cbn [sock_step]. sfields. set (m := N.min k (sub16 (tx_rd s) (tx_ack s))).
    assert (Hm : m <= sub16 (tx_rd s) (tx_ack s)) by (unfold m; lia).
    rewrite (sub16_retire w (tx_ack s) m), (sub16_retire (tx_rd s) (tx_ack s) m) by (auto; lia).
    split; [|lia]. split; [exact V|]. split; [auto|]. split; [apply N.mod_lt; discriminate|]. split; [auto|]. split; lia.
Qed.
Lemma sevs_txv i x x' : sevs i x x' -> txv x ->
  txv x' /\ sub16 (tx_wr x') (tx_ack x') <= sub16 (tx_wr x) (tx_ack x).
Proof.
  intros H V. refine (sevs_inv i (fun y => txv y /\ sub16 (tx_wr y) (tx_ack y) <= sub16 (tx_wr x) (tx_ack x)) _ x x' H _).
  - intros y ev _ (Hy & L). destruct (tx_step y ev Hy) as [Hy' L']. split; [exact Hy'|lia].
  - split; [exact V|lia].
Qed.
Lemma sevs_wr i x x' : sevs i x x' -> tx_wr x' = tx_wr x /\ tx_size x' = tx_size x /\ rx_rd x' = rx_rd x /\ rx_size x' = rx_size x.
Proof. intros H. unfold tx_wr, tx_size, rx_rd, rx_size. now rewrite (sevs_regs i x x' H). Qed.
Lemma sevs_fsr i x x' : sevs i x x' -> txv x -> tx_fsr x <= tx_fsr x'.
Proof.
  intros H V. destruct (sevs_txv i x x' H V) as [V' L]. destruct (sevs_wr i x x' H) as (E1 & E2 & _).
  unfold tx_fsr. rewrite E2. lia.
Qed.

(** ** Register contents *)
Lemma puts_other : forall d m a x, x < a \/ a + len d <= x -> puts m a d x = m x.
Proof.
  induction d as [|b d IH]; intros m a x H; [reflexivity|]. cbn [puts]. rewrite len_cons in H.
  rewrite IH by lia. unfold upd. destruct (N.eqb_spec x a); [lia|reflexivity].
Qed.
Lemma puts_at : forall d m a j, (j < length d)%nat -> puts m a d (a + N.of_nat j) = nth j d x00.
Proof.
  induction d as [|b d IH]; intros m a j H; [cbn in H; lia|]. cbn [puts]. destruct j as [|j].
  - change (N.of_nat 0) with 0. rewrite N.add_0_r, puts_other by lia. unfold upd. now rewrite N.eqb_refl.
  - replace (a + N.of_nat (S j)) with (a + 1 + N.of_nat j) by lia. cbn [nth]. apply IH. cbn in H. lia.
Qed.
Lemma puts_get16 m a v : v < 65536 -> get16 (puts m a (to_be v)) a = v.
Proof.
  intros H. unfold get16.
  rewrite <- (N.add_0_r a) at 2. change 0 with (N.of_nat 0) at 1. rewrite puts_at by (cbn; lia).
  change 1 with (N.of_nat 1). rewrite puts_at by (cbn; lia). cbn [to_be nth].
  change (b2n (u8 (v / 256)) * 256 + b2n (u8 v)) with (from_be (to_be v)). now apply from_be_to_be.
Qed.
Lemma get16_puts_other m a d b : b + 1 < a \/ a + len d <= b -> get16 (puts m a d) b = get16 m b.
Proof. intros H. unfold get16. now rewrite !puts_other by lia. Qed.

(** interrupt flags *)
Lemma flag_read n k : k < 8 ->
  negb (N.land (b2n (u8 n)) (2 ^ k) =? 0) = N.testbit n k.
Proof.
  intros H. rewrite b2n_u8.
  assert (E : N.testbit n k = N.testbit (n mod 256) k).
  { change 256 with (2 ^ 8). now rewrite N.mod_pow2_bits_low. }
  rewrite E. set (m := n mod 256). destruct (N.eqb_spec (N.land m (2 ^ k)) 0) as [Z|Z]; cbn.
  - apply (f_equal (fun x => N.testbit x k)) in Z. rewrite N.land_spec, N.pow2_bits_true, andb_true_r, N.bits_0 in Z. congruence.
  - destruct (N.testbit m k) eqn:T; [reflexivity|]. exfalso. apply Z. apply N.bits_inj. intros j.
    rewrite N.land_spec, N.bits_0, N.pow2_bits_eqb. destruct (N.eqb_spec k j) as [->|_]; [now rewrite T|apply andb_false_r].
Qed.

Section Prims.
  Context (e : env) (i : N).
  Hypothesis NF : no_faults e.
  Hypothesis Hi : i < 8.
  Let so := socket_new i.

  Lemma so_reg : register (socket_new i) = BSB_REG i. Proof. now destruct (socket_blocks i Hi). Qed.
  Lemma so_tx : tx_buffer (socket_new i) = BSB_TX i. Proof. now destruct (socket_blocks i Hi) as (_ & ? & _). Qed.
  Lemma so_rx : rx_buffer (socket_new i) = BSB_RX i. Proof. now destruct (socket_blocks i Hi) as (_ & _ & ? & _). Qed.

  Lemma wp_get_status (R : outcome (res byte berr) -> sys -> Prop) s :
    (forall s1, sevs i (sk i s) (sk i s1) -> R (Done (Ok (u8 (sr (sk i s1))))) s1) ->
    wp e (get_status (socket_new i)) R s.
  Proof.
    intros H. unfold get_status, read_reg, try_. cbn [bind zeros repeat]. rewrite so_reg. apply wp_rd1; [exact NF|].
    intros s1 N1. exact (H s1 N1).
  Qed.
  Lemma wp_has_interrupt code k (R : outcome (res bool berr) -> sys -> Prop) s :
    interrupt_u8 code = 2 ^ k -> k < 8 ->
    (forall s1, sevs i (sk i s) (sk i s1) -> R (Done (Ok (N.testbit (ir (sk i s1)) k))) s1) ->
    wp e (has_interrupt (socket_new i) code) R s.
  Proof.
    intros Hk Hk8 H. unfold has_interrupt, read_reg, try_. cbn [bind zeros repeat]. rewrite so_reg. apply wp_rd1; [exact NF|].
    intros s1 N1. cbn [bind snd fst]. apply wp_ret. 
    change (byte0 [sock_rd (sk i s1) s_INTERRUPT]) with (u8 (ir (sk i s1))).
    rewrite Hk, flag_read by assumption. exact (H s1 N1).
  Qed.
  Lemma wp_reset_interrupt code (R : outcome (res unit berr) -> sys -> Prop) s :
    (forall x s1, sevs i (sk i s) x -> sk i s1 = set_ir x (N.ldiff (ir x) (interrupt_u8 code)) -> R (Done (Ok tt)) s1) ->
    wp e (reset_interrupt (socket_new i) code) R s.
  Proof.
    intros H. unfold reset_interrupt, write_frame. rewrite so_reg. apply wp_wr1; [exact NF|].
    intros x s1 N1 E1. apply wp_ret. apply (H x s1 N1). rewrite E1. unfold sock_wr.
    change (s_INTERRUPT =? Sn_CR) with false. change (s_INTERRUPT =? Sn_IR) with true. cbv iota.
    rewrite b2n_u8. f_equal. f_equal. apply N.mod_small. destruct code; reflexivity.
  Qed.
  Lemma wp_command c (R : outcome (res unit berr) -> sys -> Prop) s :
    (forall x s1, sevs i (sk i s) x -> sk i s1 = do_command i x (command_u8 c) -> R (Done (Ok tt)) s1) ->
    wp e (command (socket_new i) c) R s.
  Proof.
    intros H. unfold command, write_frame. rewrite so_reg. apply wp_wr1; [exact NF|].
    intros x s1 N1 E1. apply wp_ret. apply (H x s1 N1). rewrite E1. unfold sock_wr.
    change (s_COMMAND =? Sn_CR) with true. cbv iota. rewrite b2n_u8. f_equal. apply N.mod_small. destruct c; reflexivity.
  Qed.
  Lemma wp_plain_write a d (R : outcome (res unit berr) -> sys -> Prop) s :
    idle (sk i s) -> a + len d < 65536 ->
    forallb plain (map (fun j => a + N.of_nat j) (seq 0 (length d))) = true ->
    (forall y s1, sevs i (sk i s) y -> sk i s1 = set_regs y (puts (regs y) a d) -> R (Done (Ok tt)) s1) ->
    wp e (write_frame (register (socket_new i)) a d) R s.
  Proof.
    intros I Ha HP H. unfold write_frame. rewrite so_reg. apply wp_wrp; auto.
  Qed.
  Lemma wp_set_mode m (R : outcome (res unit berr) -> sys -> Prop) s : idle (sk i s) ->
    (forall y s1, sevs i (sk i s) y -> sk i s1 = set_regs y (puts (regs y) Sn_MR [u8 (protocol_u8 m)]) -> R (Done (Ok tt)) s1) ->
    wp e (set_mode (socket_new i) m) R s.
  Proof. intros I H. apply wp_plain_write; auto. reflexivity. Qed.
  Lemma wp_set_interrupt_mask m (R : outcome (res unit berr) -> sys -> Prop) s : idle (sk i s) ->
    (forall y s1, sevs i (sk i s) y -> sk i s1 = set_regs y (puts (regs y) Sn_IMR [u8 m]) -> R (Done (Ok tt)) s1) ->
    wp e (set_interrupt_mask (socket_new i) m) R s.
  Proof. intros I H. apply wp_plain_write; auto. reflexivity. Qed.
  Lemma wp_set_source_port v (R : outcome (res unit berr) -> sys -> Prop) s : idle (sk i s) ->
    (forall y s1, sevs i (sk i s) y -> sk i s1 = set_regs y (puts (regs y) Sn_PORT (to_be v)) -> R (Done (Ok tt)) s1) ->
    wp e (set_source_port (socket_new i) v) R s.
  Proof. intros I H. apply wp_plain_write; auto. reflexivity. Qed.
  Lemma wp_set_destination_ip v (R : outcome (res unit berr) -> sys -> Prop) s : idle (sk i s) ->
    (forall y s1, sevs i (sk i s) y -> sk i s1 = set_regs y (puts (regs y) Sn_DIPR (octets v)) -> R (Done (Ok tt)) s1) ->
    wp e (set_destination_ip (socket_new i) v) R s.
  Proof. intros I H. apply wp_plain_write; auto; destruct v; reflexivity. Qed.
  Lemma wp_set_destination_port v (R : outcome (res unit berr) -> sys -> Prop) s : idle (sk i s) ->
    (forall y s1, sevs i (sk i s) y -> sk i s1 = set_regs y (puts (regs y) Sn_DPORT (to_be v)) -> R (Done (Ok tt)) s1) ->
    wp e (set_destination_port (socket_new i) v) R s.
  Proof. intros I H. apply wp_plain_write; auto. reflexivity. Qed.
  Lemma wp_set_tx_write_pointer v (R : outcome (res unit berr) -> sys -> Prop) s : idle (sk i s) ->
    (forall y s1, sevs i (sk i s) y -> sk i s1 = set_regs y (puts (regs y) Sn_TX_WR (to_be v)) -> R (Done (Ok tt)) s1) ->
    wp e (set_tx_write_pointer (socket_new i) v) R s.
  Proof. intros I H. apply wp_plain_write; auto. reflexivity. Qed.
  Lemma wp_set_rx_read_pointer v (R : outcome (res unit berr) -> sys -> Prop) s : idle (sk i s) ->
    (forall y s1, sevs i (sk i s) y -> sk i s1 = set_regs y (puts (regs y) Sn_RX_RD (to_be v)) -> R (Done (Ok tt)) s1) ->
    wp e (set_rx_read_pointer (socket_new i) v) R s.
  Proof. intros I H. apply wp_plain_write; auto. reflexivity. Qed.

  Lemma wp_get_tx_write_pointer (R : outcome (res N berr) -> sys -> Prop) s :
    (forall s1, sevs i (sk i s) (sk i s1) -> R (Done (Ok (tx_wr (sk i s1)))) s1) ->
    wp e (get_tx_write_pointer (socket_new i)) R s.
  Proof.
    intros H. unfold get_tx_write_pointer, read_reg, try_. cbn [bind zeros repeat]. rewrite so_reg.
    apply wp_rd2; [exact NF|reflexivity|]. intros x s1 N1 N2. cbn [bind fst snd]. apply wp_ret.
    replace (from_be _) with (tx_wr (sk i s1)); [apply H; eapply sevs_trans; eauto|].
    rewrite from_be_2. unfold tx_wr, get16. rewrite (sevs_regs _ _ _ N2). change (sock_rd x s_TX_DATA_WRITE_POINTER) with (regs x Sn_TX_WR).
    change (sock_rd (sk i s1) (s_TX_DATA_WRITE_POINTER + 1)) with (regs (sk i s1) (Sn_TX_WR + 1)).
    now rewrite (sevs_regs _ _ _ N2).
  Qed.
  Lemma wp_get_rx_read_pointer (R : outcome (res N berr) -> sys -> Prop) s :
    (forall s1, sevs i (sk i s) (sk i s1) -> R (Done (Ok (rx_rd (sk i s1)))) s1) ->
    wp e (get_rx_read_pointer (socket_new i)) R s.
  Proof.
    intros H. unfold get_rx_read_pointer, read_reg, try_. cbn [bind zeros repeat]. rewrite so_reg.
    apply wp_rd2; [exact NF|reflexivity|]. intros x s1 N1 N2. cbn [bind fst snd]. apply wp_ret.
    replace (from_be _) with (rx_rd (sk i s1)); [apply H; eapply sevs_trans; eauto|].
    rewrite from_be_2. unfold rx_rd, get16. change (sock_rd x s_RX_DATA_READ_POINTER) with (regs x Sn_RX_RD).
    change (sock_rd (sk i s1) (s_RX_DATA_READ_POINTER + 1)) with (regs (sk i s1) (Sn_RX_RD + 1)).
    now rewrite (sevs_regs _ _ _ N2).
  Qed.
  (** the two bytes may belong to different moments *)
  Lemma wp_get_tx_read_pointer (R : outcome (res N berr) -> sys -> Prop) s :
    (forall x s1, sevs i (sk i s) x -> sevs i x (sk i s1) ->
       R (Done (Ok (b2n (hi (tx_rd x)) * 256 + b2n (lo (tx_rd (sk i s1)))))) s1) ->
    wp e (get_tx_read_pointer (socket_new i)) R s.
  Proof.
    intros H. unfold get_tx_read_pointer, read_reg, try_. cbn [bind zeros repeat]. rewrite so_reg.
    apply wp_rd2; [exact NF|reflexivity|]. intros x s1 N1 N2. cbn [bind fst snd]. apply wp_ret.
    rewrite from_be_2. exact (H x s1 N1 N2).
  Qed.
  Lemma wp_get_tx_free_size (R : outcome (res N berr) -> sys -> Prop) s : txv (sk i s) ->
    (forall x s1 v, sevs i (sk i s) x -> sevs i x (sk i s1) -> v <= tx_fsr (sk i s1) ->
       (tx_fsr x = tx_fsr (sk i s1) -> v = tx_fsr x) -> R (Done (Ok v)) s1) ->
    wp e (get_tx_free_size (socket_new i)) R s.
  Proof.
    intros V H. unfold get_tx_free_size, read_reg, try_. cbn [bind zeros repeat]. rewrite so_reg.
    apply wp_rd2; [exact NF|reflexivity|]. intros x s1 N1 N2. cbn [bind fst snd]. apply wp_ret.
    rewrite from_be_2.
    change (sock_rd x s_TX_FREE_SIZE) with (hi (tx_fsr x)).
    change (sock_rd (sk i s1) (s_TX_FREE_SIZE + 1)) with (lo (tx_fsr (sk i s1))).
    destruct (sevs_txv _ _ _ N1 V) as [Vx _]. pose proof (sevs_fsr _ _ _ N2 Vx) as L.
    assert (B : tx_fsr (sk i s1) < 65536).
    { destruct Vx as (Vz & _). destruct (sevs_wr _ _ _ N2) as (_ & E & _). unfold tx_fsr. rewrite E. pose proof (valid_le _ Vz). lia. }
    unfold hi, lo. rewrite !b2n_u8. apply (H x); auto; [|intros E; rewrite E]; lia.
  Qed.
  Lemma wp_get_receive_size fuel (R : outcome (res N berr) -> sys -> Prop) : forall s, rxv (sk i s) ->
    (forall x s1, sevs i (sk i s) x -> sevs i x (sk i s1) -> R (Done (Ok (rx_rsr x))) s1) ->
    (forall s1, sevs i (sk i s) (sk i s1) -> R Looping s1) ->
    wp e (get_receive_size fuel (socket_new i)) R s.
  Proof.
    induction fuel as [|fuel IH]; intros s V H HL; cbn [get_receive_size].
    { apply HL. apply sevs_refl. }
    unfold read_reg, try_. cbn [bind zeros repeat]. rewrite so_reg.
    apply wp_rd2; [exact NF|reflexivity|]. intros x1 s1 N1 N2. cbn [bind fst snd].
    apply wp_rd2; [exact NF|reflexivity|]. intros x2 s2 N3 N4. cbn [bind fst snd].
    assert (Hsz : forall y, sevs i (sk i s) y -> rxv y /\ rx_rsr y < 65536).
    { intros y Ny. destruct (sevs_rx _ _ _ Ny V) as (Vy & _). split; [exact Vy|]. apply sub16_lt. }
    assert (Mono : forall y y', sevs i (sk i s) y -> sevs i y y' -> rx_rsr y <= rx_rsr y').
    { intros y y' Ny Ny'. destruct (sevs_rx _ _ _ Ny' (proj1 (Hsz y Ny))) as (_ & ch & _ & _ & _ & E). lia. }
    assert (T1 : sevs i (sk i s) (sk i s1)) by (eapply sevs_trans; eauto).
    assert (T2 : sevs i (sk i s) x2) by (eapply sevs_trans; eauto).
    assert (T3 : sevs i (sk i s) (sk i s2)) by (eapply sevs_trans; eauto).
    destruct (bytes_eqb _ _) eqn:E.
    - apply bytes_eqb_eq in E. injection E as E1 E2.
      change (sock_rd x1 s_RECEIVED_SIZE) with (hi (rx_rsr x1)) in *.
      change (sock_rd x2 s_RECEIVED_SIZE) with (hi (rx_rsr x2)) in *.
      change (sock_rd (sk i s1) (s_RECEIVED_SIZE + 1)) with (lo (rx_rsr (sk i s1))) in *.
      change (sock_rd (sk i s2) (s_RECEIVED_SIZE + 1)) with (lo (rx_rsr (sk i s2))) in *.
      apply wp_ret. rewrite from_be_2.
      replace (b2n (hi (rx_rsr x1)) * 256 + b2n (lo (rx_rsr (sk i s1)))) with (rx_rsr (sk i s1)).
      { apply H; auto. eapply sevs_trans; eauto. }
      apply (f_equal b2n) in E1. unfold hi, lo in *. rewrite !b2n_u8 in *.
      pose proof (Hsz _ N1) as [_ B1]. pose proof (Hsz _ T1) as [_ B2]. pose proof (Hsz _ T2) as [_ B3].
      pose proof (Mono _ _ N1 N2). pose proof (Mono _ _ T1 N3). lia.
    - apply IH.
      + now destruct (Hsz _ T3).
      + intros x s3 M1 M2. apply H; [eapply sevs_trans; eauto|exact M2].
      + intros s3 M1. apply HL. eapply sevs_trans; eauto.
  Qed.
End Prims.
