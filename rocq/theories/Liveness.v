(** Calls that return, whatever the network does or if it does not stop for ever. *)
From Verif Require Export UdpCalls RawCalls Progress.
From Verif Require Import Datasheet TcpSession ErrorFacts.

Definition ended {A} (o : outcome A) (_ : sys) : Prop := o <> Looping.
Definition returned {A} (o : outcome A) (_ : sys) : Prop := exists r, o = Done r.

(** ** With bus errors, too: an error ends the call *)
Lemma ends_anyway {A} (E : A -> option berr) e (p : prog A) s : estop E p -> wp (nofail e) p ended s ->
  fst (run e p s) <> Looping.
Proof.
  intros Es W X. destruct (run e p s) as [o s'] eqn:R. cbn [fst] in X. subst o.
  apply (session_call E e p ended s Looping s' Es R); [discriminate|exact W|reflexivity].
Qed.
Lemma returns_anyway {A} (E : A -> option berr) e (p : prog A) s : estop E p -> wp (nofail e) p returned s ->
  exists r s', run e p s = (Done r, s').
Proof.
  intros Es W. destruct (run e p s) as [o s'] eqn:R.
  assert (X : (exists r, o = Done r) \/ forall r, o <> Done r) by (destruct o; eauto; right; discriminate).
  destruct X as [(r & ->)|N]; [eauto|].
  destruct (session_call E e p returned s o s' Es R) as (r & ->); [intros r Hr; now elim (N r)|exact W|]. eauto.
Qed.

(** ** Computations without a busy-wait *)
Fixpoint spinless {A} (p : prog A) : Prop :=
  match p with
  | Ret _ | Panic _ => True
  | Spin => False
  | BusRead _ _ _ k => forall r, spinless (k r)
  | BusWrite _ _ _ k => forall r, spinless (k r)
  end.
Lemma spinless_bind {A B} (p : prog A) (f : A -> prog B) : spinless p -> (forall a, spinless (f a)) -> spinless (bind p f).
Proof. intros H Hf. induction p as [a|w| |b a d k IH|b a d k IH]; cbn in *; auto. Qed.
Lemma spinless_try {A E R} (p : prog (res A E)) (h : E -> R) k : spinless p -> (forall a, spinless (k a)) -> spinless (try_ p h k).
Proof. intros H Hk. apply spinless_bind; [exact H|]. intros [a|x]; [apply Hk|exact I]. Qed.
Lemma spinless_slice_to {R} w n l (k : list byte -> prog R) : (forall x, spinless (k x)) -> spinless (slice_to w n l k).
Proof. intros H. unfold slice_to. destruct (_ <=? _); [apply H|exact I]. Qed.
Lemma spinless_wp {A} e (p : prog A) s : spinless p -> wp e p ended s.
Proof.
  unfold wp. revert s. induction p as [a|w| |b a d k IH|b a d k IH]; intros s H; cbn [run]; try (intros X; discriminate X).
  - destruct H.
  - destruct (bus_read e b a d s) as [r s']. apply IH, H.
  - destruct (bus_write e b a d s) as [r s']. apply IH, H.
Qed.
Lemma spinless_read_reg blk a n : spinless (read_reg blk a n).
Proof. cbn. intros [got [u|er]]; exact I. Qed.
Lemma spinless_read_into blk a l : spinless (read_into blk a l).
Proof. cbn. intros r. exact I. Qed.
Lemma spinless_write blk a l : spinless (write_frame blk a l).
Proof. cbn. intros r. exact I. Qed.
Ltac spinless := repeat first
  [ exact I
  | apply spinless_read_reg
  | apply spinless_read_into
  | apply spinless_write
  | progress intros
  | apply spinless_try
  | apply spinless_bind
  | apply spinless_slice_to
  | match goal with |- spinless (match ?x with _ => _ end) => destruct x end
  | match goal with |- spinless (if ?x then _ else _) => destruct x end
  | progress cbn [spinless] ].

(** ** Receiving: the buffer is finite, so the received size cannot change for ever *)
Definition rxfits (x : sock) : Prop := rx_base x < 65536 /\ rx_size x < 65536.
Lemma rxv_fits x : rxv x -> rxfits x.
Proof. intros (V & _ & B & _). apply valid_le in V. split; [exact B|lia]. Qed.
Definition rxmore (x y : sock) : Prop := rxfits y /\ rx_size y = rx_size x /\ (rx_rsr y = rx_rsr x \/ rx_rsr x < rx_rsr y <= rx_size x).
Lemma rxmore_refl x : rxfits x -> rxmore x x.
Proof. intros H. split; [exact H|]. auto. Qed.
Lemma rxmore_trans x y z : rxmore x y -> rxmore y z -> rxmore x z.
Proof. intros (_ & Z1 & H1) (F & Z2 & H2). split; [exact F|]. split; [congruence|]. rewrite Z1 in H2. lia. Qed.
Lemma rxmore_step x ev : rxfits x -> rxmore x (sock_step x ev).
Proof.
  intros F. assert (A : forall c, rxmore x (rx_append x c)).
  { intros c. unfold rx_append. destruct (N.leb_spec (len c) (rx_size x - rx_rsr x)) as [L|L]; [|now apply rxmore_refl].
    pose proof F as (B & Z). unfold rxmore, rxfits, rx_rsr, rx_size in *. sfields. split; [auto|]. split; [reflexivity|].
    unfold sub16 in *. lia. }
  assert (S : forall y, rx_base y = rx_base x -> rx_wr y = rx_wr x -> regs y = regs x -> rxmore x y).
  { intros y E1 E2 E3. unfold rxmore, rxfits, rx_rsr, rx_size in *. rewrite E1, E2, E3. auto. }
  destruct ev; cbn [sock_step]; unfold transmit; cbv zeta;
    repeat match goal with |- context [if ?b then _ else _] =>
             lazymatch b with context [if _ then _ else _] => fail | _ => destruct b end end; auto.
Qed.
Lemma rxmore_sevs i x y : sevs i x y -> rxfits x -> rxmore x y.
Proof.
  intros N F. refine (sevs_inv i (rxmore x) _ x y N (rxmore_refl x F)). intros z ev _ H.
  apply (rxmore_trans x z); [exact H|]. apply rxmore_step. apply H.
Qed.
Section Receive.
  Context (e : env) (i : N).
  Hypothesis NF : no_faults e.
  Hypothesis Hi : i < 8.

  Lemma wp_get_receive_size_ends (R : outcome (res N berr) -> sys -> Prop) : (forall v s1, R (Done (Ok v)) s1) -> forall fuel s, rxfits (sk i s) ->
    (N.to_nat (rx_size (sk i s) - rx_rsr (sk i s)) < fuel)%nat ->
    wp e (get_receive_size fuel (socket_new i)) R s.
  Proof.
    intros H. induction fuel as [|fuel IH]; intros s V Hf; [lia|]. cbn [get_receive_size].
    unfold read_reg, try_. cbn [bind zeros repeat]. rewrite so_reg by exact Hi.
    apply wp_rd2; [exact NF|reflexivity|]. intros x1 s1 N1 N2. cbn [bind fst snd].
    apply wp_rd2; [exact NF|reflexivity|]. intros x2 s2 N3 N4. cbn [bind fst snd].
    pose proof (rxmore_sevs _ _ _ N1 V) as M1. pose proof (rxmore_sevs _ _ _ N2 (proj1 M1)) as M2.
    pose proof (rxmore_sevs _ _ _ N3 (proj1 M2)) as M3. pose proof (rxmore_sevs _ _ _ N4 (proj1 M3)) as M4.
    destruct (bytes_eqb _ _) eqn:E; [apply wp_ret, H|]. apply IH; [apply M4|].
    destruct M1 as (_ & Z1 & M1). destruct M2 as (_ & Z2 & M2). destruct M3 as (_ & Z3 & M3). destruct M4 as (_ & Z4 & M4).
    destruct (N.eq_dec (rx_rsr (sk i s2)) (rx_rsr (sk i s))) as [Eq|Ne]; [|lia]. exfalso.
    assert (A : rx_rsr x1 = rx_rsr (sk i s) /\ rx_rsr (sk i s1) = rx_rsr (sk i s) /\ rx_rsr x2 = rx_rsr (sk i s)) by lia.
    destruct A as (A1 & A2 & A3).
    change (sock_rd x1 s_RECEIVED_SIZE) with (hi (rx_rsr x1)) in *.
    change (sock_rd x2 s_RECEIVED_SIZE) with (hi (rx_rsr x2)) in *.
    change (sock_rd (sk i s1) (s_RECEIVED_SIZE + 1)) with (lo (rx_rsr (sk i s1))) in *.
    change (sock_rd (sk i s2) (s_RECEIVED_SIZE + 1)) with (lo (rx_rsr (sk i s2))) in *.
    rewrite A1, A2, A3, Eq in E. assert (X : forall l, bytes_eqb l l = true) by (intros l; now apply bytes_eqb_eq).
    rewrite X in E. discriminate E.
  Qed.
  Lemma rx_room s x : sevs i (sk i s) x -> rxfits (sk i s) -> rxfits x /\ rx_size x = rx_size (sk i s).
  Proof. intros N V. destruct (rxmore_sevs _ _ _ N V) as (F & Z & _). auto. Qed.

  Lemma tcp_receive_ends fuel buf s : rxfits (sk i s) -> (N.to_nat (rx_size (sk i s)) < fuel)%nat ->
    wp e (tcp_receive fuel (mkTcp (socket_new i)) buf) ended s.
  Proof.
    intros V Hf. unfold tcp_receive, tcp_socket_receive, tcp_is_connected. cbn [t_socket].
    apply wp_bind, wp_try, wp_try, wp_get_status; auto. intros s1 N1. cbv beta iota. apply wp_ret.
    destruct (b2n _ =? _); cbn [negb]; [|apply wp_ret, wp_ret; discriminate].
    apply wp_try, (wp_has_interrupt e i NF Hi InReceive 2); [reflexivity|reflexivity|]. intros s2 N2. cbv beta iota.
    destruct (N.testbit _ _); cbn [negb]; [|apply wp_ret, wp_ret; discriminate].
    assert (N : sevs i (sk i s) (sk i s2)) by (eapply sevs_trans; eauto). destruct (rx_room s _ N V) as (V2 & Z2).
    apply wp_try, wp_get_receive_size_ends; [|exact V2|lia]. intros v s3. cbv beta iota.
    eapply wp_mono; [|apply spinless_wp].
    - intros o s' Ho. destruct o as [a| | |]; [apply wp_ret| |elim Ho; reflexivity|]; discriminate.
    - unfold tcp_receive_data. spinless.
  Qed.
  Lemma udp_receive_ends fuel dest port buf s : rxfits (sk i s) -> (N.to_nat (rx_size (sk i s)) < fuel)%nat ->
    wp e (udp_receive fuel (mkUdp (socket_new i) dest port) buf) ended s.
  Proof.
    intros V Hf. unfold udp_receive, udp_socket_receive. cbn [u_socket]. cbv zeta.
    apply wp_bind, wp_try, wp_get_status; auto. intros s1 N1. cbv beta iota.
    destruct (udp_status_gate _); [|apply wp_ret, wp_ret; discriminate].
    apply wp_try, (wp_has_interrupt e i NF Hi InReceive 2); [reflexivity|reflexivity|]. intros s2 N2. cbv beta iota.
    destruct (N.testbit _ _); cbn [negb]; [|apply wp_ret, wp_ret; discriminate].
    assert (N : sevs i (sk i s) (sk i s2)) by (eapply sevs_trans; eauto). destruct (rx_room s _ N V) as (V2 & Z2).
    apply wp_try, wp_get_receive_size_ends; [|exact V2|lia]. intros v s3. cbv beta iota.
    eapply wp_mono; [|apply spinless_wp].
    - intros o s' Ho. destruct o as [a0| | |]; [apply wp_ret| |elim Ho; reflexivity|]; discriminate.
    - spinless.
  Qed.
  Lemma raw_read_ends fuel buf s : rxfits (sk i s) -> (N.to_nat (rx_size (sk i s)) < fuel)%nat ->
    wp e (raw_read_frame fuel (mkRaw (socket_new i)) buf) ended s.
  Proof.
    intros V Hf. unfold raw_read_frame, rx_new. cbn [raw_socket]. cbv zeta.
    apply wp_try, wp_try, wp_get_receive_size_ends; [|exact V|lia]. intros v s3. cbv beta iota.
    apply wp_try, wp_get_rx_read_pointer; auto. intros s4 N4. cbv beta iota. apply wp_ret.
    apply spinless_wp. unfold raw_read_body, rx_commit, rx_read_upto, rx_read. spinless.
  Qed.
  Lemma receive_size_ends fuel s : rxfits (sk i s) -> (N.to_nat (rx_size (sk i s)) < fuel)%nat ->
    wp e (get_receive_size fuel (socket_new i)) ended s.
  Proof. intros V Hf. apply wp_get_receive_size_ends; [discriminate|exact V|lia]. Qed.
End Receive.

(** ** MACRAW write_frame, when the chip transmits and reports every SEND *)
Section RawWrite.
  Context (e : env).
  Hypothesis NF : no_faults e.
  Hypothesis Clean : forall t ev, In ev (happens e t) -> ~ gives_up 0 ev.
  Context (W : nat).
  Hypothesis FT : soon e W (EvTransmit 0 65535).
  Hypothesis FO : soon e W (EvSendOk 0).
  Let Hi : 0 < 8. Proof. reflexivity. Qed.

  Lemma raw_write_returns fuel frame s : sr (sk 0 s) = SOCK_MACRAW -> (2 * W <= fuel)%nat ->
    wp e (raw_write_frame fuel (mkRaw (socket_new 0)) frame) returned s.
  Proof.
    intros H Hf. pose proof (opn_ev e 0 Clean) as Ev.
    unfold raw_write_frame, tx_new. cbn [raw_socket]. cbv zeta.
    apply wp_try, wp_reset_interrupt; auto. intros z s1 N1 E1. cbv beta iota.
    assert (H1 : opn (sk 0 s1)).
    { rewrite E1. change (opn z). unfold opn, open_state. rewrite (sevs_sr_fixed 0 _ _ N1) by auto. auto. }
    apply wp_try, wp_try. unfold get_tx_free_size.
    apply (wp_read_reg_walk e 0 opn NF Ev); [exact H1|]. intros got s2 Lg H2. apply wp_ret. cbv beta iota.
    apply wp_try. unfold get_tx_write_pointer.
    apply (wp_read_reg_walk e 0 opn NF Ev); [exact H2|]. intros got' s3 _ H3. apply wp_ret. cbv beta iota.
    apply wp_ret.
    assert (K : forall (c : cursor) (n : N) s4, opn (sk 0 s4) ->
      wp e (try b <- tx_commit (socket_new 0) c else Err ;; try d <- wait_send_ok fuel (socket_new 0) else Err ;; Ret (@Ok N berr n)) returned s4).
    { intros c n s4 H4. apply wp_try. unfold tx_commit, set_tx_write_pointer. apply wp_try. unfold write_frame at 1. rewrite so_reg by exact Hi.
      apply (wp_write_reg_walk e 0 opn NF Ev opn_regs); [exact H4|reflexivity|now vm_compute|]. intros s5 H5. apply wp_ret. cbv beta iota.
      apply (wp_send_opn e 0 NF Hi Clean); [exact H5|]. intros s6 H6. apply wp_ret. cbv beta iota.
      apply wp_try, (wait_terminates e 0 NF Hi Clean W FT FO); [|exact H6|exact Hf]. intros s7. cbv beta iota. apply wp_ret. eexists. reflexivity. }
    unfold tx_write. destruct (_ || _) eqn:Sz; [apply wp_try, wp_ret; cbv beta iota; now apply K|].
    apply orb_false_iff in Sz as (Z1 & Z2). apply N.eqb_neq in Z1. apply N.ltb_ge in Z2. cbn [available size] in *.
    assert (Eu : as_u16 (len frame) = len frame) by (apply from_be_lt in Lg; unfold as_u16; apply N.mod_small; lia).
    apply wp_try, wp_slice_to; [|rewrite Eu; lia]. intros _. rewrite Eu. apply wp_try. unfold write_frame. rewrite so_tx by exact Hi.
    apply (wp_write_tx_walk e 0 opn NF Ev opn_txm); [exact H3|]. intros s4 H4. apply wp_ret. cbv beta iota.
    destruct (N.ltb_spec (from_be got) (len frame)); [lia|]. apply wp_ret. cbv beta iota. now apply K.
  Qed.
End RawWrite.

(** ** UDP send *)
Lemma within_step e b s n : within e b s (S n) -> In b (happens e (s_tick s)) \/ within e b (tick e s) n.
Proof.
  intros (t & Ht & Hb). destruct (Nat.eq_dec t (s_tick s)) as [->|Hn]; [now left|right].
  exists t. cbn [s_tick tick]. split; [lia|exact Hb].
Qed.
Section UdpSends.
  Context (e : env) (i : N).
  Hypothesis NF : no_faults e.
  Hypothesis Hi : i < 8.
  Hypothesis Clean : forall t, ~ In (EvSendTimeout i false) (happens e t).

  (** the SEND in progress, or over with the read pointer at the end *)
  Definition flying (x : sock) : Prop := all_handed x /\ tx_busy x = true.
  Definition arrived (x : sock) : Prop := all_handed x /\ tx_rd x = tx_wr x.
  Definition finishes (ev : nevent) : Prop := (exists k, ev = EvTransmit i k) \/ ev = EvSendTimeout i true.

  Lemma arrived_sevs x y : sevs i x y -> arrived x -> arrived y.
  Proof. intros N (H & E). destruct (handed_sevs i x y H N) as (Hy & Wy & _ & D). split; [exact Hy|]. rewrite Wy. auto. Qed.
  Lemma arrived_step x ev : ev_sock ev = Some i -> arrived x -> arrived (sock_step x ev).
  Proof. intros E. apply arrived_sevs. now apply sevs_one. Qed.
  Lemma flying_step x ev : ev <> EvSendTimeout i false -> ev_sock ev = Some i -> flying x -> flying (sock_step x ev) \/ arrived (sock_step x ev).
  Proof.
    intros G E (H & B). destruct (handed_sevs i x _ H (sevs_one i x ev E)) as (Hy & Wy & _).
    assert (Same : tx_busy (sock_step x ev) = true -> flying (sock_step x ev) \/ arrived (sock_step x ev)) by (left; split; auto).
    assert (Over : tx_rd (sock_step x ev) = tx_wr x -> flying (sock_step x ev) \/ arrived (sock_step x ev)) by (right; split; congruence).
    destruct H as (S & Hr & He).
    destruct ev as [n|n|n|n tm|n d|n ip port d|d|n k0|n|n advance|n k0|v]; cbn [ev_sock] in E; try discriminate E;
      try (apply Same; unfold sock_step, rx_append; rewrite ?S; cbv zeta;
        repeat match goal with |- context [if ?b then _ else _] =>
             lazymatch b with context [if _ then _ else _] => fail | _ => destruct b eqn:? end end; sfields; auto; discriminate).
    - apply Over. cbn [sock_step]. unfold transmit. rewrite B, S. cbn [N.eqb]. cbv zeta. change ((SOCK_UDP =? SOCK_UDP) || (SOCK_UDP =? SOCK_MACRAW)) with true. cbv iota.
      rewrite N.eqb_refl, (He B). destruct (sub16 (tx_wr x) (tx_rd x) =? 0); sfields; apply add_sub16; auto using tx_wr_lt.
    - apply Over. injection E as ->. destruct advance; [|now elim G]. cbn [sock_step]. rewrite B, S.
      change ((SOCK_UDP =? SOCK_UDP) || (SOCK_UDP =? SOCK_MACRAW)) with true. cbv iota zeta. sfields. auto.
  Qed.
  Lemma finish_step x ev : finishes ev -> flying x -> arrived (sock_step x ev).
  Proof.
    intros F (H & B). assert (E : ev_sock ev = Some i) by (destruct F as [(k & ->)| ->]; reflexivity).
    destruct (handed_sevs i x _ H (sevs_one i x ev E)) as (Hy & Wy & _). split; [exact Hy|]. rewrite Wy. destruct H as (S & Hr & He).
    destruct F as [(k & ->)| ->]; cbn [sock_step].
    - unfold transmit. rewrite B, S. change ((SOCK_UDP =? SOCK_UDP) || (SOCK_UDP =? SOCK_MACRAW)) with true. cbv iota zeta.
      rewrite N.eqb_refl, (He B). destruct (sub16 (tx_wr x) (tx_rd x) =? 0); sfields; apply add_sub16; auto using tx_wr_lt.
    - rewrite B, S. change ((SOCK_UDP =? SOCK_UDP) || (SOCK_UDP =? SOCK_MACRAW)) with true. cbv iota zeta. sfields. auto.
  Qed.

  Definition due (n : nat) (s : sys) : Prop := arrived (sk i s) \/ (flying (sk i s) /\ exists b, finishes b /\ within e b s n).
  Lemma due_0 s : due 0 s -> arrived (sk i s).
  Proof. intros [H|(_ & b & _ & t & Ht & _)]; [exact H|lia]. Qed.
  Lemma due_end n s : due n s -> due n (end_call s).
  Proof. exact (fun H => H). Qed.
  Lemma due_tick n s : due n s -> due (pred n) (tick e s).
  Proof.
    intros [H|(H & b & F & Hw)]; [left; exact (arrived_sevs _ _ (tick_sevs i e s) H)|].
    destruct n as [|n]; [destruct Hw as (t & Ht & _); lia|]. cbn [pred]. apply within_step in Hw.
    assert (HA : forall ev, In ev (happens e (s_tick s)) -> ev <> EvSendTimeout i false) by (intros ev Hin ->; exact (Clean _ Hin)).
    assert (Step : forall x ev, ev <> EvSendTimeout i false -> ev_sock ev = Some i -> flying x \/ arrived x -> flying (sock_step x ev) \/ arrived (sock_step x ev)).
    { intros x ev G E [X|X]; [now apply flying_step|right; now apply arrived_step]. }
    destruct Hw as [Hin|Hw].
    - left. refine (nsteps_reaches i (fun ev => ev <> EvSendTimeout i false) flying arrived b _ Step _ _ _ _ HA (or_introl H) Hin).
      + destruct F as [(k & ->)| ->]; reflexivity.
      + intros x ev _. apply arrived_step.
      + intros x. now apply finish_step.
    - assert (X : flying (sk i (tick e s)) \/ arrived (sk i (tick e s))).
      { refine (nsteps_keeps i (fun ev => ev <> EvSendTimeout i false) (fun x => flying x \/ arrived x) Step _ _ HA (or_introl H)). }
      destruct X as [X|X]; [right|now left]. split; [exact X|]. exists b. split; [exact F|exact Hw].
  Qed.

  (** a two-byte register, exactly *)
  Lemma wp_rd2_exact {A} a b b' (k : list byte * res unit berr -> prog A) Q s : a + 1 < 65536 ->
    wp e (k ([sock_rd (sk i (tick e s)) a; sock_rd (sk i (tick e (tick e s))) (a + 1)], Ok tt)) Q (end_call (tick e (tick e s))) ->
    wp e (BusRead (BSB_REG i) a [b; b'] k) Q s.
  Proof.
    intros Ha H. unfold wp. cbn [run]. unfold bus_read. rewrite NF. cbn [length read_bytes].
    rewrite !rbyte_reg. unfold next_addr. rewrite N.mod_small by assumption. exact H.
  Qed.
  Lemma flush_due d p n s : due n s ->
    wp e (udp_try_flush_tx (mkUdp (socket_new i) d p))
      (fun o s' => match o with Done (Err WouldBlock) => ~ arrived (sk i s) /\ due (n - 4) s' | Done _ => True | _ => False end) s.
  Proof.
    intros D. unfold udp_try_flush_tx. cbn [u_socket].
    apply wp_try. unfold get_tx_read_pointer at 1, read_reg, try_. cbn [bind zeros repeat]. rewrite so_reg by exact Hi.
    apply wp_rd2_exact; [reflexivity|]. cbn [bind fst snd]. apply wp_ret. cbv beta iota.
    apply wp_bind. unfold get_tx_write_pointer at 1, read_reg, try_. cbn [bind zeros repeat]. rewrite so_reg by exact Hi.
    apply wp_rd2_exact; [reflexivity|]. cbn [bind fst snd]. apply wp_ret. cbv beta iota.
    pose proof (due_tick _ _ D) as D1. pose proof (due_tick _ _ D1) as D2. pose proof (due_tick _ _ (due_end _ _ D2)) as D3. pose proof (due_tick _ _ D3) as D4.
    set (s1 := tick e s) in *. set (s2 := tick e s1) in *. set (s3 := tick e (end_call s2)) in *. set (s4 := tick e s3) in *.
    rewrite !from_be_2.
    match goal with |- context [?u =? ?v] => destruct (N.eqb_spec u v) as [Eq|Ne] end.
    - apply wp_try, (wp_has_interrupt e i NF Hi InSendOk 4); [reflexivity|reflexivity|]. intros s5 N5. cbv beta iota.
      destruct (N.testbit _ 4).
      + apply wp_try, wp_reset_interrupt; auto. intros z s6 _ _. cbv beta iota. now apply wp_ret.
      + apply wp_try, (wp_has_interrupt e i NF Hi InTimeout 3); [reflexivity|reflexivity|]. intros s6 N6. cbv beta iota.
        destruct (N.testbit _ 3); [|now apply wp_ret].
        apply wp_try, wp_reset_interrupt; auto. intros z s7 _ _. cbv beta iota. now apply wp_ret.
    - apply wp_ret. split; [|replace (n - 4)%nat with (pred (pred (pred (pred n)))) by lia; exact D4].
      intros X. apply Ne. clear Ne D D1 D2 D3 D4.
      assert (T1 : sevs i (sk i s) (sk i s1)) by apply tick_sevs. assert (T2 : sevs i (sk i s1) (sk i s2)) by apply tick_sevs.
      assert (T3 : sevs i (sk i s2) (sk i s3)) by (exact (tick_sevs i e (end_call s2))). assert (T4 : sevs i (sk i s3) (sk i s4)) by apply tick_sevs.
      destruct (handed_sevs i _ _ (proj1 X) T1) as (H1 & W1 & _ & E1). specialize (E1 (proj2 X)).
      assert (X1 : arrived (sk i s1)) by now apply (arrived_sevs _ _ T1).
      destruct (handed_sevs i _ _ H1 T2) as (H2 & W2 & _ & E2). specialize (E2 (proj2 X1)).
      change (sock_rd (sk i s1) s_TX_DATA_READ_POINTER) with (hi (tx_rd (sk i s1))).
      change (sock_rd (sk i s2) (s_TX_DATA_READ_POINTER + 1)) with (lo (tx_rd (sk i s2))).
      change (sock_rd (sk i s3) s_TX_DATA_WRITE_POINTER) with (regs (sk i s3) Sn_TX_WR).
      change (sock_rd (sk i s4) (s_TX_DATA_WRITE_POINTER + 1)) with (regs (sk i s4) (Sn_TX_WR + 1)).
      rewrite (sevs_regs _ _ _ T4), (sevs_regs _ _ _ T3), (sevs_regs _ _ _ T2), (sevs_regs _ _ _ T1).
      rewrite E2, W1, E1. change (b2n (regs (sk i s) Sn_TX_WR) * 256 + b2n (regs (sk i s) (Sn_TX_WR + 1))) with (tx_wr (sk i s)).
      pose proof (tx_wr_lt (sk i s)). unfold hi, lo. rewrite !b2n_u8. lia.
  Qed.
  Lemma flush_loop_returns d p : forall fuel n s, due n s -> (n < fuel)%nat ->
    wp e (udp_flush_loop fuel (mkUdp (socket_new i) d p)) returned s.
  Proof.
    induction fuel as [|fuel IH]; intros n s D Hf; [lia|]. cbn [udp_flush_loop]. apply wp_bind.
    eapply wp_mono; [|exact (flush_due d p n s D)]. intros o s' H. destruct o as [r| | |]; try destruct H.
    destruct r as [u|[|er]]; try (apply wp_ret; eexists; reflexivity). destruct H as (Na & D').
    apply (IH (n - 4)%nat); [exact D'|]. destruct n; [now apply due_0 in D|lia].
  Qed.

  Context (W : nat).
  Hypothesis Fair : forall t, exists t' b, (t <= t' < t + W)%nat /\ finishes b /\ In b (happens e t').
  Context (d : addr4) (p : N).
  Let so := mkUdp (socket_new i) (Some d) p.

  Lemma launched_due x w s : sr x = SOCK_UDP -> launched (sent_of x w) w -> sk i s = sent_of x w -> due W s.
  Proof.
    intros Su (_ & _ & B & _ & Lr & _ & E & _) Es. right. rewrite Es. split.
    - split; [|exact B]. split; [exact Su|]. split; [exact Lr|auto].
    - destruct (Fair (s_tick s)) as (t & b & Ht & F & Hb). exists b. split; [exact F|]. exists t. auto.
  Qed.
  Lemma udp_data_returns fuel w s : sr (sk i s) = SOCK_UDP -> rested (sk i s) -> 0 < len w -> len w <= tx_size (sk i s) -> (W < fuel)%nat ->
    wp e (udp_send_data fuel so w) returned s.
  Proof.
    intros Su R L0 L Hf. unfold udp_send_data, udp_block_send_command, so. cbn [u_socket].
    pose proof R as (_ & V & B & _). pose proof (valid_le _ V) as Hz.
    apply wp_stage; auto; [lia|]. intros y s3 N1 E3.
    apply wp_try, wp_try, (wp_send_cmd e i NF Hi w _ (sk i s) y); auto. intros u s4 N2 Ru E4 La. cbv beta iota.
    eapply wp_mono; [|apply (flush_loop_returns (Some d) p fuel W); [|exact Hf]].
    - intros o s' (r & ->). destruct r as [[]|er]; [apply wp_ret|]; eexists; reflexivity.
    - apply (launched_due u w); auto. rewrite (sevs_sr_fixed i _ _ N2); auto.
  Qed.
  Lemma udp_socket_send_returns fuel w s : sr (sk i s) = SOCK_UDP -> rested (sk i s) -> 0 < len w -> len w <= tx_size (sk i s) -> (W < fuel)%nat ->
    wp e (udp_socket_send fuel so w) returned s.
  Proof.
    intros Su R L0 L Hf. unfold udp_socket_send. cbn [u_socket u_dest so].
    apply wp_try, wp_get_status; auto. intros s1 N1. cbv beta iota.
    destruct (udp_status_gate _); [|apply wp_ret; eexists; reflexivity].
    apply wp_try, wp_get_tx_free_size; auto.
    { apply rested_txv. apply (rested_sevs i _ _ N1 R). }
    intros z s2 v N2 N3 _ _. cbv beta iota.
    destruct (v =? 0) eqn:V0; [apply wp_ret; eexists; reflexivity|].
    assert (N4 : sevs i (sk i s) (sk i s2)) by (eapply sevs_trans; [|eapply sevs_trans]; eauto).
    destruct (rested_sevs i _ _ N4 R) as (R2 & _ & G2 & _ & _ & S2).
    assert (Z2 : tx_size (sk i s2) = tx_size (sk i s)) by (unfold tx_size; now rewrite G2).
    destruct (N.ltb_spec (len w) v) as [_|G]; [apply udp_data_returns; auto; congruence|].
    apply N.eqb_neq in V0. apply wp_slice_to; [|lia]. intros _. apply udp_data_returns; auto; rewrite ?len_take; try congruence; lia.
  Qed.
  Lemma udp_send_loop_returns fuel buf : (W < fuel)%nat -> forall outer s don rem,
    sr (sk i s) = SOCK_UDP -> rested (sk i s) -> buf = don ++ rem -> (length rem <= outer)%nat ->
    wp e (udp_send_loop outer fuel so buf (tx_size (sk i s)) (len don)) returned s.
  Proof.
    intros Hf. induction outer as [|outer IH]; intros s don rem Su R EB Ho; cbn [udp_send_loop];
      (destruct (N.eqb_spec (len don) (len buf)) as [El|Nl]; [apply wp_ret; eexists; reflexivity|]).
    - exfalso. destruct rem; [|cbn [length] in Ho; lia]. rewrite app_nil_r in EB. congruence.
    - assert (Lr : 0 < len rem) by (rewrite EB, len_app in Nl; lia). pose proof R as (_ & V & _). pose proof (valid_pos _ V) as Hp.
      apply wp_slice_from; [|rewrite EB, len_app; lia]. intros _. assert (drop (len don) buf = rem) as -> by (rewrite EB; apply drop_app_exact).
      apply wp_slice_to; [|lia]. intros _.
      set (w := take (N.min (tx_size (sk i s)) (len rem)) rem). set (rem' := drop (N.min (tx_size (sk i s)) (len rem)) rem).
      assert (Ew : rem = w ++ rem') by (symmetry; apply take_drop).
      assert (Lw : len w = N.min (tx_size (sk i s)) (len rem)) by (unfold w; rewrite len_take; lia).
      apply wp_try.
      eapply wp_mono; [|apply wp_and;
        [apply (udp_socket_send_returns fuel w s); auto; lia
        |apply (wp_udp_socket_send e i NF Hi d p fuel w (fun o s' => o = Looping \/ o = Done (Err (NbOther UWriteTimeout)) \/ (o = Done (Ok (len w)) /\ chunk_ok (sk i s) w (sk i s')))); auto; lia]].
      intros o s1 ((r & Er) & [E|[E|(E & C)]]); rewrite E in *; [discriminate| |]; cbv beta iota; [eexists; reflexivity|]. clear r Er E o.
      pose proof C as (R1 & K1 & T1 & C1). pose proof (kept_size _ _ K1) as Z1.
      apply wp_try, wp_get_tx_free_size; auto; [now apply rested_txv|]. intros z s2 v N2 N3 _ Hv. cbv beta iota.
      destruct (rested_sevs i _ _ N2 R1) as (Rz & _ & Gz & _). destruct (rested_sevs i _ _ N3 Rz) as (R2 & _ & G2 & _).
      assert (N4 : sevs i (sk i s1) (sk i s2)) by (eapply sevs_trans; eauto).
      destruct (rested_sevs i _ _ N4 R1) as (_ & P1 & P2 & P3 & P4 & P5).
      assert (Ev : v = tx_size (sk i s2)).
      { rewrite Hv; rewrite ?(rested_fsr _ Rz), ?(rested_fsr _ R2); unfold tx_size; now rewrite ?G2, ?Gz. }
      rewrite Ev, <- len_app. apply (IH s2 (don ++ w) rem').
      + rewrite P5. destruct K1 as (_ & _ & _ & K1 & _). congruence.
      + exact R2.
      + now rewrite <- app_assoc, <- Ew.
      + assert (X : length rem = (length w + length rem')%nat) by (rewrite Ew at 1; apply app_length). unfold len in *. lia.
  Qed.
  Lemma udp_send_returns fuel buf s : sr (sk i s) = SOCK_UDP -> rested (sk i s) -> (W < fuel)%nat -> (length buf <= fuel)%nat ->
    wp e (udp_send fuel so buf) returned s.
  Proof.
    intros Su R Hf Hb. unfold udp_send, udp_send_all. cbn [u_socket u_dest so].
    apply wp_try, wp_get_status; auto. intros s1 N1. cbv beta iota.
    destruct (rested_sevs i _ _ N1 R) as (R1 & _ & G1 & _ & _ & S1).
    destruct (udp_status_gate _); [|apply wp_ret; eexists; reflexivity].
    apply wp_try, wp_get_tx_free_size; auto; [now apply rested_txv|]. intros z s2 v N2 N3 _ Hv. cbv beta iota.
    destruct (rested_sevs i _ _ N2 R1) as (Rz & _ & Gz & _). destruct (rested_sevs i _ _ N3 Rz) as (R2 & _ & G2 & _).
    assert (Ev : v = tx_size (sk i s2)).
    { rewrite Hv; rewrite ?(rested_fsr _ Rz), ?(rested_fsr _ R2); unfold tx_size; now rewrite ?G2, ?Gz. }
    destruct (v =? 0); [apply wp_ret; eexists; reflexivity|]. rewrite Ev.
    apply (udp_send_loop_returns fuel buf Hf fuel s2 [] buf); auto.
    assert (N4 : sevs i (sk i s) (sk i s2)) by (eapply sevs_trans; [|eapply sevs_trans]; eauto).
    rewrite (sevs_sr_fixed i _ _ N4); auto.
  Qed.
  Lemma udp_send_to_returns fuel dest buf s : a_port d < 65536 -> uinv dest p (sk i s) -> (W < fuel)%nat -> (length buf <= fuel)%nat ->
    wp e (udp_send_to fuel (mkUdp (socket_new i) dest p) (V4 d) buf) returned s.
  Proof.
    intros Hr U Hf Hb. unfold udp_send_to, udp_send_to_v4. pose proof U as (_ & (_ & _ & B & _) & _).
    apply wp_bind, wp_udp_set_destination; auto. intros y s1 N1 E1. cbn [fst snd].
    destruct (aimed_facts i dest p d (sk i s) (sk i s1) Hr U (ex_intro _ y (conj N1 E1))) as (U1 & _).
    apply wp_bind. fold (udp_send fuel (mkUdp (socket_new i) (Some d) p) buf).
    eapply wp_mono; [|apply udp_send_returns; auto; apply U1]. intros o s' (r & ->). apply wp_ret. eexists. reflexivity.
  Qed.
End UdpSends.

(** ** A UDP send that never ends: nothing moves the read pointer any more *)
Section UdpHangs.
  Context (e : env) (i : N).
  Hypothesis NF : no_faults e.
  Hypothesis Hi : i < 8.
  Context (t0 : nat).
  Hypothesis Stuck : forall t ev, (t0 <= t)%nat -> In ev (happens e t) -> (forall k, ev <> EvTransmit i k) /\ ev <> EvSendTimeout i true.

  Definition halted (x : sock) : Prop := all_handed x /\ tx_rd x <> tx_wr x.
  Lemma halted_step x ev : (forall k, ev <> EvTransmit i k) -> ev <> EvSendTimeout i true -> ev_sock ev = Some i -> halted x -> halted (sock_step x ev).
  Proof.
    intros G1 G2 E (H & D). destruct (handed_sevs i x _ H (sevs_one i x ev E)) as (Hy & Wy & _). split; [exact Hy|]. rewrite Wy.
    destruct H as (S & Hr & He).
    destruct ev as [n|n|n|n tm|n d|n ip port d|d|n k0|n|n advance|n k0|v]; cbn [ev_sock] in E; try discriminate E;
      try (injection E as ->); unfold sock_step, rx_append; rewrite ?S; cbv zeta;
        repeat match goal with |- context [if ?b then _ else _] =>
             lazymatch b with context [if _ then _ else _] => fail | _ => destruct b eqn:? end end; sfields; auto.
    all: try (now elim (G1 k0)). all: now elim G2.
  Qed.
  Lemma halted_tick s : (t0 <= s_tick s)%nat -> halted (sk i s) -> halted (sk i (tick e s)).
  Proof.
    intros Ht H. refine (nsteps_keeps i (fun ev => (forall k, ev <> EvTransmit i k) /\ ev <> EvSendTimeout i true) halted _ _ _ _ H).
    - intros x ev (G1 & G2). now apply halted_step.
    - intros ev. now apply Stuck.
  Qed.
  Lemma flush_halted d p s (Q : outcome (res unit (nberr uerr)) -> sys -> Prop) : (t0 <= s_tick s)%nat -> halted (sk i s) ->
    (forall s', (t0 <= s_tick s')%nat -> halted (sk i s') -> Q (Done (Err WouldBlock)) s') ->
    wp e (udp_try_flush_tx (mkUdp (socket_new i) d p)) Q s.
  Proof.
    intros Ht H HQ. unfold udp_try_flush_tx. cbn [u_socket].
    apply wp_try. unfold get_tx_read_pointer at 1, read_reg, try_. cbn [bind zeros repeat]. rewrite so_reg by exact Hi.
    apply wp_rd2_exact; [exact NF|reflexivity|]. cbn [bind fst snd]. apply wp_ret. cbv beta iota.
    apply wp_bind. unfold get_tx_write_pointer at 1, read_reg, try_. cbn [bind zeros repeat]. rewrite so_reg by exact Hi.
    apply wp_rd2_exact; [exact NF|reflexivity|]. cbn [bind fst snd]. apply wp_ret. cbv beta iota.
    assert (H1 : halted (sk i (tick e s))) by (now apply halted_tick).
    assert (H2 : halted (sk i (tick e (tick e s)))) by (apply halted_tick; [cbn [s_tick tick]; lia|exact H1]).
    assert (H3 : halted (sk i (tick e (end_call (tick e (tick e s)))))) by (apply halted_tick; [cbn [s_tick tick end_call]; lia|exact H2]).
    assert (H4 : halted (sk i (tick e (tick e (end_call (tick e (tick e s))))))) by (apply halted_tick; [cbn [s_tick tick end_call]; lia|exact H3]).
    set (s1 := tick e s) in *. set (s2 := tick e s1) in *. set (s3 := tick e (end_call s2)) in *. set (s4 := tick e s3) in *.
    assert (T2 : sevs i (sk i s1) (sk i s2)) by apply tick_sevs.
    assert (T3 : sevs i (sk i s2) (sk i s3)) by (exact (tick_sevs i e (end_call s2))). assert (T4 : sevs i (sk i s3) (sk i s4)) by apply tick_sevs.
    destruct (handed_sevs i _ _ (proj1 H1) T2) as (_ & W2 & C2 & _).
    destruct C2 as [C2|C2]; [|destruct H2 as (_ & H2); congruence].
    rewrite !from_be_2.
    change (sock_rd (sk i s1) s_TX_DATA_READ_POINTER) with (hi (tx_rd (sk i s1))).
    change (sock_rd (sk i s2) (s_TX_DATA_READ_POINTER + 1)) with (lo (tx_rd (sk i s2))).
    change (sock_rd (sk i s3) s_TX_DATA_WRITE_POINTER) with (regs (sk i s3) Sn_TX_WR).
    change (sock_rd (sk i s4) (s_TX_DATA_WRITE_POINTER + 1)) with (regs (sk i s4) (Sn_TX_WR + 1)).
    rewrite (sevs_regs _ _ _ T4), (sevs_regs _ _ _ T3), (sevs_regs _ _ _ T2), C2.
    change (b2n (regs (sk i s1) Sn_TX_WR) * 256 + b2n (regs (sk i s1) (Sn_TX_WR + 1))) with (tx_wr (sk i s1)).
    match goal with |- context [?u =? ?v] => destruct (N.eqb_spec u v) as [Eq|Ne] end.
    - exfalso. destruct H1 as ((_ & Hr & _) & D). apply D. unfold hi, lo in Eq. rewrite !b2n_u8 in Eq. lia.
    - apply wp_ret, HQ; [|exact H4]. cbn [s_tick tick end_call s4 s3 s2 s1]. lia.
  Qed.
  Lemma flush_loop_hangs d p : forall fuel s, (t0 <= s_tick s)%nat -> halted (sk i s) ->
    wp e (udp_flush_loop fuel (mkUdp (socket_new i) d p)) (fun o _ => o = Looping) s.
  Proof.
    induction fuel as [|fuel IH]; intros s Ht H; [reflexivity|]. cbn [udp_flush_loop].
    apply wp_bind, flush_halted; auto.
  Qed.

  Context (d : addr4) (p : N).
  Let so := mkUdp (socket_new i) (Some d) p.
  Hypothesis T0 : t0 = 0%nat.

  Lemma launched_halted x w : sr x = SOCK_UDP -> launched (sent_of x w) w -> halted (sent_of x w).
  Proof.
    intros Su (_ & _ & B & _ & Lr & _ & E & D & L & _). split; [split; [exact Su|auto]|]. intros X. rewrite X in D.
    pose proof (tx_wr_lt (sent_of x w)). unfold sub16 in D. lia.
  Qed.
  Lemma udp_socket_send_hangs fuel w s : sr (sk i s) = SOCK_UDP -> rested (sk i s) -> 0 < len w -> len w <= tx_size (sk i s) ->
    wp e (udp_socket_send fuel so w) (fun o _ => o = Looping) s.
  Proof.
    intros Su R L0 L. unfold udp_socket_send. cbn [u_socket u_dest so].
    apply wp_try, wp_get_status; auto. intros s1 N1. cbv beta iota.
    destruct (rested_sevs i _ _ N1 R) as (R1 & _ & G1 & _ & _ & S1).
    rewrite S1, Su. change (udp_status_gate (u8 SOCK_UDP)) with (@Ok unit (nberr uerr) tt). cbv iota.
    apply wp_try, wp_get_tx_free_size; auto.
    { now apply rested_txv. }
    intros z s2 v N2 N3 _ Hv. cbv beta iota.
    destruct (rested_sevs i _ _ N2 R1) as (Rz & _ & Gz & _). destruct (rested_sevs i _ _ N3 Rz) as (R2 & _ & G2 & _).
    assert (Ev : v = tx_size (sk i s)).
    { rewrite Hv; rewrite ?(rested_fsr _ Rz), ?(rested_fsr _ R2); unfold tx_size; now rewrite ?G2, ?Gz, ?G1. }
    assert (N4 : sevs i (sk i s) (sk i s2)) by (eapply sevs_trans; [|eapply sevs_trans]; eauto).
    assert (Z2 : tx_size (sk i s2) = tx_size (sk i s)) by (unfold tx_size; now rewrite G2, Gz, G1).
    assert (S2 : sr (sk i s2) = SOCK_UDP) by (rewrite (sevs_sr_fixed i _ _ N4); auto).
    assert (Data : wp e (udp_send_data fuel so w) (fun o _ => o = Looping) s2).
    { unfold udp_send_data, udp_block_send_command, so. cbn [u_socket].
      pose proof R2 as (_ & V & B & _). pose proof (valid_le _ V) as Hz.
      apply wp_stage; auto; [lia|]. intros y s3 N5 E3.
      apply wp_try, wp_try, (wp_send_cmd e i NF Hi w _ (sk i s2) y); auto; [lia|]. intros u s4 N6 Ru E4 La. cbv beta iota.
      eapply wp_mono; [|apply (flush_loop_hangs (Some d) p fuel s4)].
      - intros o s' ->. reflexivity.
      - lia.
      - rewrite E4. apply launched_halted; auto. rewrite (sevs_sr_fixed i _ _ N6); auto. }
    destruct (N.eqb_spec v 0) as [V0|V0]; [lia|].
    destruct (N.ltb_spec (len w) v) as [_|G]; [exact Data|].
    apply wp_slice_to; [|lia]. intros _. replace (take v w) with w; [exact Data|].
    symmetry. apply take_all. lia.
  Qed.
  Lemma udp_send_hangs fuel buf s : sr (sk i s) = SOCK_UDP -> rested (sk i s) -> buf <> [] ->
    wp e (udp_send fuel so buf) (fun o _ => o = Looping) s.
  Proof.
    intros Su R Hb. unfold udp_send, udp_send_all. cbn [u_socket u_dest so].
    apply wp_try, wp_get_status; auto. intros s1 N1. cbv beta iota.
    destruct (rested_sevs i _ _ N1 R) as (R1 & _ & G1 & _ & _ & S1).
    rewrite S1, Su. change (udp_status_gate (u8 SOCK_UDP)) with (@Ok unit (nberr uerr) tt). cbv iota.
    apply wp_try, wp_get_tx_free_size; auto; [now apply rested_txv|]. intros z s2 v N2 N3 _ Hv. cbv beta iota.
    destruct (rested_sevs i _ _ N2 R1) as (Rz & _ & Gz & _). destruct (rested_sevs i _ _ N3 Rz) as (R2 & _ & G2 & _).
    assert (Ev : v = tx_size (sk i s2)).
    { rewrite Hv; rewrite ?(rested_fsr _ Rz), ?(rested_fsr _ R2); unfold tx_size; now rewrite ?G2, ?Gz. }
    assert (N4 : sevs i (sk i s) (sk i s2)) by (eapply sevs_trans; [|eapply sevs_trans]; eauto).
    assert (S2 : sr (sk i s2) = SOCK_UDP) by (rewrite (sevs_sr_fixed i _ _ N4); auto).
    pose proof R2 as (_ & V & _). pose proof (valid_pos _ V) as Hp.
    destruct (N.eqb_spec v 0) as [V0|V0]; [lia|]. rewrite Ev.
    assert (Lb : 0 < len buf) by (destruct buf; [now elim Hb|unfold len; cbn [length]; lia]).
    destruct fuel as [|fuel]; cbn [udp_send_loop]; (destruct (N.eqb_spec 0 (len buf)) as [El|Nl]; [lia|]); [reflexivity|].
    apply wp_slice_from; [|lia]. intros _. rewrite drop_0. apply wp_slice_to; [|lia]. intros _.
    apply wp_try. eapply wp_mono; [|apply udp_socket_send_hangs; auto; rewrite len_take; lia].
    intros o s' ->. reflexivity.
  Qed.
  Lemma udp_send_to_hangs fuel dest buf s : a_port d < 65536 -> uinv dest p (sk i s) -> buf <> [] ->
    wp e (udp_send_to fuel (mkUdp (socket_new i) dest p) (V4 d) buf) (fun o _ => o = Looping) s.
  Proof.
    intros Hr U Hb. unfold udp_send_to, udp_send_to_v4. pose proof U as (_ & (_ & _ & B & _) & _).
    apply wp_bind, wp_udp_set_destination; auto. intros y s1 N1 E1. cbn [fst snd].
    destruct (aimed_facts i dest p d (sk i s) (sk i s1) Hr U (ex_intro _ y (conj N1 E1))) as (U1 & _).
    apply wp_bind. fold (udp_send fuel (mkUdp (socket_new i) (Some d) p) buf).
    eapply wp_mono; [|apply udp_send_hangs; auto; apply U1]. intros o s' ->. reflexivity.
  Qed.
End UdpHangs.

(** ** A run does not look back *)
Section Later.
  Context (e e' : env) (t0 c0 : nat).
  Hypothesis Hh : forall t, (t0 <= t)%nat -> happens e' t = happens e t.
  Hypothesis Hf : forall j, (c0 <= j)%nat -> fails e' j = fails e j.
  Definition after (s : sys) : Prop := (t0 <= s_tick s)%nat /\ (c0 <= s_call s)%nat.
  Lemma tick_later s : after s -> tick e' s = tick e s /\ after (tick e s).
  Proof. intros (H1 & H2). unfold tick. rewrite Hh by exact H1. split; [reflexivity|]. split; cbn [s_tick s_call]; lia. Qed.
  Lemma read_bytes_later blk : forall n a s, after s -> read_bytes e' blk a n s = read_bytes e blk a n s /\ after (snd (read_bytes e blk a n s)).
  Proof.
    induction n as [|n IH]; intros a s H; cbn [read_bytes]; [auto|]. destruct (tick_later s H) as (-> & H1). cbv zeta.
    destruct (IH (next_addr a) _ H1) as (-> & H2). split; [reflexivity|]. destruct (read_bytes e blk (next_addr a) n (tick e s)). exact H2.
  Qed.
  Lemma write_bytes_later blk : forall d a s, after s -> write_bytes e' blk a d s = write_bytes e blk a d s /\ after (write_bytes e blk a d s).
  Proof.
    induction d as [|b d IH]; intros a s H; cbn [write_bytes]; [auto|]. destruct (tick_later s H) as (-> & H1). cbv zeta. apply IH. exact H1.
  Qed.
  Lemma after_end s : after s -> after (end_call s).
  Proof. intros (H1 & H2). split; cbn [s_tick s_call end_call]; lia. Qed.
  Lemma run_later {A} (p : prog A) : forall s, after s -> run e' p s = run e p s.
  Proof.
    induction p as [a|w| |b a d k IH|b a d k IH]; intros s H; try reflexivity; cbn [run].
    - assert (X : bus_read e' b a d s = bus_read e b a d s /\ after (snd (bus_read e b a d s))).
      { unfold bus_read. rewrite Hf by apply H. destruct (fails e (s_call s)) as [[n er]|];
          (match goal with |- context [read_bytes e b a ?m s] => destruct (read_bytes_later b m a s H) as (-> & H1); destruct (read_bytes e b a m s); split; [reflexivity|now apply after_end] end). }
      destruct X as (-> & H1). destruct (bus_read e b a d s) as [r s']. now apply IH.
    - assert (X : bus_write e' b a d s = bus_write e b a d s /\ after (snd (bus_write e b a d s))).
      { unfold bus_write. destruct H as (Ht & Hc). rewrite Hf by exact Hc. destruct (fails e (s_call s)) as [[n er]|];
          (match goal with |- context [write_bytes e b a ?m s] => destruct (write_bytes_later b m a s (conj Ht Hc)) as (-> & H1); split; [reflexivity|now apply after_end] end). }
      destruct X as (-> & H1). destruct (bus_write e b a d s) as [r s']. now apply IH.
  Qed.
End Later.
(** the same future, [l] all the time before *)
Definition from_now (e : env) (s : sys) (l : list nevent) : env :=
  mkEnv (fun t => if (s_tick s <=? t)%nat then happens e t else l) (fun j => if (s_call s <=? j)%nat then fails e j else None).
Lemma run_from_now {A} e (p : prog A) s l : run (from_now e s l) p s = run e p s.
Proof.
  apply (run_later e (from_now e s l) (s_tick s) (s_call s)).
  - intros t H. cbn. now rewrite (proj2 (Nat.leb_le _ _) H).
  - intros t H. cbn. now rewrite (proj2 (Nat.leb_le _ _) H).
  - split; lia.
Qed.

Lemma from_now_happens e s l t : happens (nofail (from_now e s l)) t = if (s_tick s <=? t)%nat then happens e t else l.
Proof. reflexivity. Qed.
Lemma from_now_soon e s l W b : In b l -> (forall t, (s_tick s <= t)%nat -> exists t', (t <= t' < t + W)%nat /\ In b (happens e t')) ->
  soon (nofail (from_now e s l)) W b.
Proof.
  intros Hb Fb t. destruct (Nat.leb_spec (s_tick s) t) as [G|G].
  - destruct (Fb t G) as (t' & Ht & Hin). exists t'. split; [exact Ht|]. rewrite from_now_happens. now rewrite (proj2 (Nat.leb_le _ _)) by lia.
  - destruct (Fb _ (Nat.le_refl _)) as (t' & Ht & _). exists t. split; [lia|]. rewrite from_now_happens. now rewrite (proj2 (Nat.leb_gt _ _)) by lia.
Qed.
Lemma from_now_none e s l (P : nevent -> Prop) : (forall t ev, (s_tick s <= t)%nat -> In ev (happens e t) -> P ev) -> (forall ev, In ev l -> P ev) ->
  forall t ev, In ev (happens (nofail (from_now e s l)) t) -> P ev.
Proof. intros H Hl t ev. rewrite from_now_happens. destruct (Nat.leb_spec (s_tick s) t) as [G|G]; [now apply H|apply Hl]. Qed.
Lemma from_now_clean e s l i : (forall t b, (s_tick s <= t)%nat -> ~ In (EvDropped i b) (happens e t) /\ ~ In (EvSendTimeout i b) (happens e t)) ->
  (forall b, ~ In (EvDropped i b) l /\ ~ In (EvSendTimeout i b) l) ->
  forall t ev, In ev (happens (nofail (from_now e s l)) t) -> ~ gives_up i ev.
Proof.
  intros H Hl. apply from_now_none.
  - intros t ev Ht Hin [(b & ->)|(b & ->)]; destruct (H t b Ht); contradiction.
  - intros ev Hin [(b & ->)|(b & ->)]; destruct (Hl b); contradiction.
Qed.

(** ** Calls that do not wait for anybody *)
Definition waits (o : op) : Prop :=
  match o with OpTcpConnect _ _ | OpTcpSend _ _ | OpUdpSend _ _ | OpUdpSendTo _ _ _ => True | _ => False end.
Lemma wp_ended_bind {A B} e (p : prog A) (f : A -> prog B) s : wp e p ended s -> (forall a, spinless (f a)) -> wp e (bind p f) ended s.
Proof.
  intros H Hf. apply wp_bind. eapply wp_mono; [|exact H]. intros o s' Ho.
  destruct o as [a| | |]; [apply spinless_wp, Hf| |elim Ho; reflexivity|]; discriminate.
Qed.
Lemma step_ends_k e fuel a o s : (forall h x, lookup h (handles a) = Some x -> exists i, i < 8 /\ handle_socket x = socket_new i) -> ~ waits o ->
  (forall i, i < 8 -> rx_base (sk i s) < 65536 /\ rx_size (sk i s) <= 16384) -> (N.to_nat 16384 < fuel)%nat ->
  fst (run e (step fuel a o) s) <> Looping.
Proof.
  intros I Nw V Hf. apply (ends_anyway (fun r => out_berr (snd r))); [apply es_step|].
  assert (Sl : forall i, i < 8 -> rxfits (sk i s) /\ (N.to_nat (rx_size (sk i s)) < fuel)%nat).
  { intros i Hi. destruct (V i Hi) as (V1 & V2). split; [split; [exact V1|lia]|lia]. }
  assert (E : spinless (step fuel a o) \/ exists A (p : prog A) f i, i < 8 /\ step fuel a o = bind p f /\ (forall x, spinless (f x)) /\
    (rxfits (sk i s) -> (N.to_nat (rx_size (sk i s)) < fuel)%nat -> wp (nofail e) p ended s)).
  { pose proof (nofail_no_faults e) as NF.
    destruct o as [|h| |h r|h d|h b|h| |h r|h pt|h d|h r d|h b|h|h| |q|h pt|h q]; cbn [waits] in Nw; try (now elim Nw); cbn [step];
      try (destruct (lookup h (handles a)) as [[so|t|u]|] eqn:L; try (left; exact I0));
      try (pose proof (I _ _ L) as (i & Hi & Ei); cbn [handle_socket] in Ei).
    all: try (left; spinless; fail).
    all: try (left; destruct r; unfold udp_connect, udp_set_destination, udp_open; spinless; fail).
    - right. eexists _, _, _, i. split; [exact Hi|]. split; [reflexivity|]. split; [intros; exact Logic.I|].
      destruct t as [k]. cbn [t_socket] in Ei. subst k. intros F1 F2. now apply tcp_receive_ends.
    - right. eexists _, _, _, i. split; [exact Hi|]. split; [reflexivity|]. split; [intros; exact Logic.I|].
      destruct u as [k dst prt]. cbn [u_socket] in Ei. subst k. intros F1 F2. now apply udp_receive_ends.
    - left. apply spinless_bind; [|intros; exact Logic.I]. destruct q; cbn; try exact (fun _ => Logic.I); first [intros [got [?|?]]; exact Logic.I|intros [?|?]; exact Logic.I].
    - subst so. destruct q;
        try (left; apply spinless_bind; [|intros; exact Logic.I]; cbn; first [exact (fun _ => Logic.I)|intros [got [?|?]]; exact Logic.I|intros [?|?]; exact Logic.I]).
      right. exists sockout, (run_sockop fuel (socket_new i) KReceiveSize), (fun r => Ret (a, RSockop r)), i. split; [exact Hi|]. split; [reflexivity|].
      split; [intros; exact Logic.I|]. intros F1 F2. apply wp_ended_bind; [now apply receive_size_ends|]. intros; exact Logic.I. }
  destruct E as [E|(A & p & f & i & Hi & -> & Hfs & Hp)]; [now apply spinless_wp|]. apply wp_ended_bind; [|exact Hfs]. now apply Hp; apply Sl.
Qed.
Lemma step_ends e fuel a o s : pool_inv a -> ~ waits o ->
  (forall i, i < 8 -> rx_base (sk i s) < 65536 /\ rx_size (sk i s) <= 16384) -> (N.to_nat 16384 < fuel)%nat ->
  fst (run e (step fuel a o) s) <> Looping.
Proof.
  intros I. apply step_ends_k. intros h x L. destruct (pi_lookup _ _ _ I L) as (i & Hi & Ei & _). eauto.
Qed.
