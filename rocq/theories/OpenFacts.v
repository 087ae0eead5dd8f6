(** Opening and closing a socket, whatever state it was in. *)
From Verif Require Export SockSpecs.
From Verif Require Import Datasheet.

(** no network activity changes a closed (or merely opened TCP) socket, except that late
    acknowledgements may free space in the TX buffer *)
Definition quietst (x : sock) : Prop :=
  (sr x = SOCK_CLOSED \/ sr x = SOCK_INIT) /\ idle x /\ tx_okdue x = false.
Lemma quiet_step x ev : quietst x -> exists a, sock_step x ev = set_tx_ack x a.
Proof.
  unfold quietst, idle. intros (H1 & H2 & H3).
  assert (T : exists a, x = set_tx_ack x a) by (exists (tx_ack x); now destruct x).
  destruct ev; unfold sock_step, transmit; rewrite ?H2, ?H3; auto;
    try (destruct H1 as [-> | ->]; exact T).
  eexists. reflexivity.
Qed.
Lemma quiet_sevs i x y : quietst x -> sevs i x y -> exists a, y = set_tx_ack x a.
Proof.
  intros Q H. refine (sevs_inv i (fun y => exists a, y = set_tx_ack x a) _ x y H _).
  - intros z ev _ (a & ->). destruct (quiet_step (set_tx_ack x a) ev Q) as [b ->]. exists b. reflexivity.
  - exists (tx_ack x). now destruct x.
Qed.
Lemma quiet_sevs_exact i x y : quietst x -> tx_ack x = tx_rd x -> tx_rd x < 65536 -> sevs i x y -> y = x.
Proof.
  intros Q E L H. refine (sevs_inv i (fun y => y = x) _ x y H eq_refl).
  intros z ev _ ->. destruct Q as (H1 & H2 & H3). unfold idle in H2.
  destruct ev; unfold sock_step, transmit; rewrite ?H2, ?H3; auto; try (destruct H1 as [-> | ->]; reflexivity).
  rewrite E, sub16_self by assumption. rewrite N.min_0_r, N.add_0_r, N.mod_small by assumption.
  rewrite <- E. now destruct x.
Qed.

(** the socket after CLOSE, and after the OPEN sequence left registers [r] behind *)
Definition closed_of (x : sock) : sock := set_tx_okdue (set_tx_busy (set_sr x SOCK_CLOSED) false) false.
Definition opened (x : sock) (r : N -> byte) (m : N) : sock :=
  set_sr (init_pointers (set_regs (set_ir (closed_of x) (N.ldiff (ir x) 255)) r)) m.

Lemma quiet_closed x : quietst (closed_of x).
Proof. split; [now left|]. split; reflexivity. Qed.

Lemma put16_puts m a v : put16 m a v = puts m a (to_be v).
Proof. reflexivity. Qed.
Lemma opened_tx x r m : let y := opened x r m in
  tx_rd y = tx_wr y /\ tx_ack y = tx_wr y /\ tx_end y = tx_wr y /\ tx_wr y < 65536 /\
  rx_wr y = rx_rd y /\ rx_base y = rx_rd y /\ rx_rd y < 65536 /\
  tx_busy y = false /\ tx_okdue y = false /\ rxlog y = [] /\ sent y = sent x /\ dialled y = dialled x.
Proof.
  cbv zeta.
  assert (E1 : tx_wr (opened x r m) = seed_tx x mod 65536).
  { unfold tx_wr, opened, init_pointers, closed_of. sfields. rewrite !put16_puts, get16_puts_other by (left; reflexivity).
    apply puts_get16, N.mod_lt. discriminate. }
  assert (E2 : rx_rd (opened x r m) = seed_rx x mod 65536).
  { unfold rx_rd, opened, init_pointers, closed_of. sfields. rewrite !put16_puts.
    apply puts_get16, N.mod_lt. discriminate. }
  rewrite E1, E2. pose proof (N.mod_lt (seed_tx x) 65536 ltac:(discriminate)). pose proof (N.mod_lt (seed_rx x) 65536 ltac:(discriminate)).
  unfold opened, init_pointers, closed_of. sfields. auto 20.
Qed.
Lemma opened_regs x r m a : (a < 0x24 \/ 0x29 < a \/ a = 0x26 \/ a = 0x27) -> regs (opened x r m) a = r a.
Proof.
  intros H. unfold opened, init_pointers, closed_of. sfields. unfold put16, upd, Sn_TX_WR, Sn_RX_RD.
  repeat match goal with |- context [N.eqb ?u ?v] => destruct (N.eqb_spec u v) end; try lia; reflexivity.
Qed.
Lemma opened_ir x r m k : k < 8 -> N.testbit (ir (opened x r m)) k = false.
Proof.
  intros H. unfold opened, init_pointers, closed_of. sfields. rewrite N.ldiff_spec.
  change 255 with (N.ones 8). rewrite N.ones_spec_low by assumption. apply andb_false_r.
Qed.

Lemma do_close i x : do_command i x (command_u8 CmClose) = closed_of x.
Proof. reflexivity. Qed.
Lemma do_open i x p m :
  sr x = SOCK_CLOSED -> regs x Sn_MR = u8 p ->
  (p = MR_TCP /\ m = SOCK_INIT \/ p = MR_UDP /\ m = SOCK_UDP) ->
  do_command i x (command_u8 CmOpen) = set_sr (init_pointers x) m.
Proof.
  intros H1 H2 H3. unfold do_command. change (command_u8 CmOpen =? CR_OPEN) with true. cbv iota.
  rewrite H1, H2. destruct H3 as [[-> ->]|[-> ->]]; reflexivity.
Qed.

(** registers left behind by an opening sequence *)
Definition open_regs (port : option N) (p : N) (r : N -> byte) : N -> byte :=
  let r1 := match port with Some v => puts r Sn_PORT (to_be v) | None => r end in
  puts (puts r1 Sn_MR [u8 p]) Sn_IMR [u8 open_mask].

Section Open.
  Context (e : env) (i : N).
  Hypothesis NF : no_faults e.
  Hypothesis Hi : i < 8.

  (** the part every opening sequence ends with *)
  Lemma wp_open_tail {E} (h : berr -> res unit E) prot m (Q : outcome (res unit E) -> sys -> Prop) s :
    quietst (sk i s) -> sr (sk i s) = SOCK_CLOSED ->
    (protocol_u8 prot = MR_TCP /\ m = SOCK_INIT \/ protocol_u8 prot = MR_UDP /\ m = SOCK_UDP) ->
    (forall s1, sk i s1 = set_sr (init_pointers (set_regs (sk i s) (open_regs None (protocol_u8 prot) (regs (sk i s))))) m ->
       Q (Done (Ok tt)) s1) ->
    wp e (try c <- set_mode (socket_new i) prot else h ;;
          try d <- set_interrupt_mask (socket_new i) open_mask else h ;;
          try e <- command (socket_new i) CmOpen else h ;;
          Ret (Ok tt)) Q s.
  Proof.
    intros Qs HC Hm H.
    apply wp_try, wp_set_mode; auto; [apply Qs|]. intros y1 s1 N1 E1. cbv beta iota.
    destruct (quiet_sevs _ _ _ Qs N1) as (a1 & ->).
    assert (Q1 : quietst (sk i s1)) by (rewrite E1; exact Qs).
    apply wp_try, wp_set_interrupt_mask; auto; [apply Q1|]. intros y2 s2 N2 E2. cbv beta iota.
    destruct (quiet_sevs _ _ _ Q1 N2) as (a2 & ->).
    assert (Q2 : quietst (sk i s2)) by (rewrite E2; exact Q1).
    apply wp_try, wp_command; auto. intros y3 s3 N3 E3. cbv beta iota. apply wp_ret.
    destruct (quiet_sevs _ _ _ Q2 N3) as (a3 & ->). apply H. rewrite E3, (do_open i _ (protocol_u8 prot) m).
    - rewrite E2, E1. reflexivity.
    - rewrite E2, E1. exact HC.
    - rewrite E2, E1. sfields. reflexivity.
    - exact Hm.
  Qed.

  Lemma wp_tcp_reopen (Q : outcome (res unit terr) -> sys -> Prop) s :
    (forall x s1, sevs i (sk i s) x -> sk i s1 = opened x (open_regs None MR_TCP (regs x)) SOCK_INIT -> Q (Done (Ok tt)) s1) ->
    wp e (tcp_reopen (mkTcp (socket_new i))) Q s.
  Proof.
    intros H. unfold tcp_reopen. cbn [t_socket].
    apply wp_try, wp_command; auto. intros x s1 N1 E1. cbv beta iota. rewrite do_close in E1.
    assert (Q1 : quietst (sk i s1)) by (rewrite E1; apply quiet_closed).
    apply wp_try, wp_reset_interrupt; auto. intros y2 s2 N2 E2. cbv beta iota.
    destruct (quiet_sevs _ _ _ Q1 N2) as (a2 & ->).
    apply wp_open_tail with (m := SOCK_INIT).
    - rewrite E2, E1. apply quiet_closed.
    - rewrite E2, E1. reflexivity.
    - now left.
    - intros s3 E3. apply (H x); [exact N1|]. rewrite E3, E2, E1. reflexivity.
  Qed.
  Lemma wp_open_port {E} (h : berr -> res unit E) port prot m (Q : outcome (res unit E) -> sys -> Prop) s :
    (protocol_u8 prot = MR_TCP /\ m = SOCK_INIT \/ protocol_u8 prot = MR_UDP /\ m = SOCK_UDP) ->
    (forall x s1, sevs i (sk i s) x ->
      sk i s1 = opened x (open_regs (Some port) (protocol_u8 prot) (regs x)) m -> Q (Done (Ok tt)) s1) ->
    wp e (try a <- command (socket_new i) CmClose else h ;;
          try b <- reset_interrupt (socket_new i) InAll else h ;;
          try p <- set_source_port (socket_new i) port else h ;;
          try c <- set_mode (socket_new i) prot else h ;;
          try d <- set_interrupt_mask (socket_new i) open_mask else h ;;
          try e <- command (socket_new i) CmOpen else h ;;
          Ret (Ok tt)) Q s.
  Proof.
    intros Hm H.
    apply wp_try, wp_command; auto. intros x s1 N1 E1. cbv beta iota. rewrite do_close in E1.
    assert (Q1 : quietst (sk i s1)) by (rewrite E1; apply quiet_closed).
    apply wp_try, wp_reset_interrupt; auto. intros y2 s2 N2 E2. cbv beta iota.
    destruct (quiet_sevs _ _ _ Q1 N2) as (a2 & ->).
    assert (Q2 : quietst (sk i s2)) by (rewrite E2; exact Q1).
    apply wp_try, wp_set_source_port; auto; [apply Q2|]. intros y3 s3 N3 E3. cbv beta iota.
    destruct (quiet_sevs _ _ _ Q2 N3) as (a3 & ->).
    apply wp_open_tail with (m := m).
    - rewrite E3, E2, E1. apply quiet_closed.
    - rewrite E3, E2, E1. reflexivity.
    - exact Hm.
    - intros s4 E4. apply (H x); [exact N1|]. rewrite E4, E3, E2, E1. reflexivity.
  Qed.
  Lemma wp_tcp_open port (Q : outcome (res unit terr) -> sys -> Prop) s :
    (forall x s1, sevs i (sk i s) x ->
      sk i s1 = opened x (open_regs (Some port) MR_TCP (regs x)) SOCK_INIT -> Q (Done (Ok tt)) s1) ->
    wp e (tcp_open (mkTcp (socket_new i)) port) Q s.
  Proof. intros H. apply (wp_open_port tE port PrTcp SOCK_INIT); auto. Qed.
  Lemma wp_udp_open d port (Q : outcome (res unit berr) -> sys -> Prop) s :
    (forall x s1, sevs i (sk i s) x ->
      sk i s1 = opened x (open_regs (Some port) MR_UDP (regs x)) SOCK_UDP -> Q (Done (Ok tt)) s1) ->
    wp e (udp_open (mkUdp (socket_new i) d port)) Q s.
  Proof. intros H. apply (wp_open_port Err port PrUdp SOCK_UDP); auto. Qed.
End Open.
