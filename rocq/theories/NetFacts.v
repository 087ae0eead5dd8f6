(** What network activity can and cannot do to one socket. *)
From Verif Require Export RingFacts.
From Verif Require Import Datasheet.

(** the socket after some network activity *)
Definition sevs (i : N) (x x' : sock) : Prop :=
  exists l, Forall (fun ev => ev_sock ev = Some i) l /\ x' = fold_left sock_step l x.

Lemma sevs_refl i x : sevs i x x.
Proof. exists []. split; [constructor|reflexivity]. Qed.
Lemma sevs_trans i a b c : sevs i a b -> sevs i b c -> sevs i a c.
Proof.
  intros (l & H1 & ->) (l' & H2 & ->). exists (l ++ l'). split; [now apply Forall_app|].
  now rewrite fold_left_app.
Qed.
Lemma sevs_one i x ev : ev_sock ev = Some i -> sevs i x (sock_step x ev).
Proof. intros H. exists [ev]. split; [auto|reflexivity]. Qed.

(** anything every event preserves is preserved *)
Lemma sevs_inv i (P : sock -> Prop) :
  (forall x ev, ev_sock ev = Some i -> P x -> P (sock_step x ev)) ->
  forall x x', sevs i x x' -> P x -> P x'.
Proof.
  intros H x x' (l & Hl & ->). revert x. induction Hl as [|ev l He Hl IH]; intros x Hx; [exact Hx|].
  cbn [fold_left]. apply IH. now apply H.
Qed.

Ltac sfields := cbn [regs sr ir tx_rd tx_ack tx_end tx_busy tx_okdue rx_wr rx_base txm rxm seed_tx
  seed_rx sent rxlog dialled set_regs set_sr set_ir set_tx_rd set_tx_ack set_tx_end set_tx_busy
  set_tx_okdue set_rx_wr set_rx_base set_txm set_rxm set_seed_tx set_seed_rx set_sent set_rxlog
  set_dialled] in *.

(** case analysis of one event *)
Ltac ev_cases ev :=
  destruct ev; unfold sock_step, transmit, rx_append; cbv zeta;
  repeat match goal with
         | |- context [if ?b then _ else _] =>
             lazymatch b with
             | context [if _ then _ else _] => fail
             | _ => destruct b eqn:?
             end
         end; sfields.

Lemma sevs_fixed i x x' : sevs i x x' ->
  regs x' = regs x /\ txm x' = txm x /\ seed_tx x' = seed_tx x /\ seed_rx x' = seed_rx x /\
  dialled x' = dialled x /\ rx_base x' = rx_base x.
Proof.
  intros H. pattern x'. revert H. refine (fun H => sevs_inv i _ _ x x' H _).
  - intros y ev _ Hy. ev_cases ev; exact Hy.
  - auto 10.
Qed.
Lemma sevs_regs i x x' : sevs i x x' -> regs x' = regs x.
Proof. intros H. now destruct (sevs_fixed i x x' H). Qed.
Lemma sevs_txm i x x' : sevs i x x' -> txm x' = txm x.
Proof. intros H. now destruct (sevs_fixed i x x' H). Qed.
Lemma sevs_dialled i x x' : sevs i x x' -> dialled x' = dialled x.
Proof. intros H. now destruct (sevs_fixed i x x' H). Qed.
Lemma sevs_rx_base i x x' : sevs i x x' -> rx_base x' = rx_base x.
Proof. intros H. now destruct (sevs_fixed i x x' H). Qed.

(** when no SEND is in progress *)
Definition idle (s : sock) : Prop := tx_busy s = false.
Lemma sevs_idle i x x' : sevs i x x' -> idle x ->
  idle x' /\ tx_rd x' = tx_rd x /\ tx_end x' = tx_end x /\ sent x' = sent x.
Proof.
  unfold idle. intros H I. revert H.
  refine (fun H => sevs_inv i (fun y => tx_busy y = false /\ tx_rd y = tx_rd x /\ tx_end y = tx_end x /\ sent y = sent x) _ x x' H _).
  - intros y ev _ (H1 & H2). ev_cases ev; try congruence; auto.
  - auto.
Qed.

(** states the network does not change by itself *)
Lemma sevs_sr_fixed i x x' : sevs i x x' ->
  sr x = SOCK_CLOSED \/ sr x = SOCK_UDP \/ sr x = SOCK_MACRAW -> sr x' = sr x.
Proof.
  intros H Hs. revert H.
  refine (fun H => sevs_inv i (fun y => sr y = sr x) _ x x' H eq_refl).
  intros y ev _ Hy. unfold SOCK_CLOSED, SOCK_UDP, SOCK_MACRAW in Hs.
  ev_cases ev; auto;
    repeat match goal with H : _ || _ = true |- _ => apply orb_true_iff in H as [H|H] end;
    repeat match goal with H : _ || _ = false |- _ => apply orb_false_iff in H as [? H] end;
    repeat match goal with H : (_ =? _) = true |- _ => apply N.eqb_eq in H | H : (_ =? _) = false |- _ => apply N.eqb_neq in H end;
    try (rewrite Hy in *; unfold SOCK_SYNSENT, SOCK_LISTEN, SOCK_ESTABLISHED, SOCK_CLOSE_WAIT, SOCK_FIN_WAIT, SOCK_LAST_ACK, SOCK_UDP, SOCK_MACRAW, SOCK_CLOSED in *; intuition congruence).
Qed.
Lemma sevs_sr_init i x x' : sevs i x x' -> idle x -> sr x = SOCK_INIT -> sr x' = SOCK_INIT.
Proof.
  unfold idle. intros H I Hs. revert H.
  refine (fun H => proj1 (sevs_inv i (fun y => sr y = SOCK_INIT /\ tx_busy y = false) _ x x' H (conj Hs I))).
  intros y ev _ (Hy & Hb).
  ev_cases ev; try congruence; auto;
    repeat match goal with H : _ || _ = true |- _ => apply orb_true_iff in H as [H|H] end;
    repeat match goal with H : (_ =? _) = true |- _ => apply N.eqb_eq in H end;
    exfalso; rewrite Hy in *; discriminate.
Qed.
(** a TCP connection's states, once dialled *)
Definition tcp_states (x : N) : Prop :=
  x = SOCK_CLOSED \/ x = SOCK_SYNSENT \/ x = SOCK_ESTABLISHED \/ x = SOCK_CLOSE_WAIT.
Ltac bsplit :=
  repeat match goal with
  | H : _ || _ = true |- _ => apply orb_true_iff in H as [H|H]
  | H : _ || _ = false |- _ => apply orb_false_iff in H as [? H]
  | H : _ && _ = true |- _ => apply andb_true_iff in H as [? H]
  | H : (_ =? _) = true |- _ => apply N.eqb_eq in H
  | H : (_ =? _) = false |- _ => apply N.eqb_neq in H
  | H : (_ <=? _) = true |- _ => apply N.leb_le in H
  | H : (_ <=? _) = false |- _ => apply N.leb_gt in H
  | H : (_ <? _) = true |- _ => apply N.ltb_lt in H
  | H : (_ <? _) = false |- _ => apply N.ltb_ge in H
  end.
Lemma sevs_tcp i x x' : sevs i x x' -> tcp_states (sr x) -> tcp_states (sr x').
Proof.
  refine (sevs_inv i (fun y => tcp_states (sr y)) _ x x'). unfold tcp_states.
  intros y ev _ Hy. ev_cases ev; auto 6.
Qed.

(** interrupt flags are only ever raised by the network *)
Lemma sevs_ir i x x' k : sevs i x x' -> N.testbit (ir x) k = true -> N.testbit (ir x') k = true.
Proof.
  refine (sevs_inv i (fun y => N.testbit (ir y) k = true) _ x x').
  intros y ev _ Hy. ev_cases ev; auto; rewrite N.lor_spec, Hy; reflexivity.
Qed.

(** ** Receiving *)
Definition rxv (s : sock) : Prop :=
  valid_size (rx_size s) /\ rx_wr s < 65536 /\ rx_base s < 65536 /\ rx_rsr s <= rx_size s.
(** the received bytes not yet given back, oldest first *)
Definition pending (s : sock) : list byte :=
  ring_read (rxm s) (rx_size s) (rx_base s) (N.to_nat (rx_rsr s)).
Definition recvf (s : sock) : bool := N.testbit (ir s) 2.

Lemma len_pending s : len (pending s) = rx_rsr s.
Proof. unfold pending, len. rewrite ring_read_length. lia. Qed.

Lemma rx_append_spec s ch : rxv s ->
  let s' := rx_append s ch in
  rxv s' /\
  ((len ch <= rx_size s - rx_rsr s /\ pending s' = pending s ++ ch /\ rxlog s' = rxlog s ++ ch /\ recvf s' = true)
   \/ (rx_size s - rx_rsr s < len ch /\ s' = s)).
Proof.
  intros (V & H1 & H2 & H3). unfold rx_append.
  destruct (N.leb_spec (len ch) (rx_size s - rx_rsr s)) as [L|L]; cbv zeta; [|split; [split; auto|auto]].
  pose proof (valid_le _ V). pose proof (valid_pos _ V).
  assert (E : rx_rsr (set_rxlog (set_ir (set_rx_wr (set_rxm s (ring_write (rxm s) (rx_size s) (rx_wr s) ch))
     ((rx_wr s + len ch) mod 65536)) (N.lor (ir s) IR_RECV)) (rxlog s ++ ch)) = rx_rsr s + len ch).
  { unfold rx_rsr in *. sfields. apply sub16_advance; auto. lia. }
  assert (Sz : rx_size (set_rxlog (set_ir (set_rx_wr (set_rxm s (ring_write (rxm s) (rx_size s) (rx_wr s) ch))
     ((rx_wr s + len ch) mod 65536)) (N.lor (ir s) IR_RECV)) (rxlog s ++ ch)) = rx_size s) by reflexivity.
  split.
  - unfold rxv. rewrite E, Sz. sfields. split; [exact V|]. split; [apply N.mod_lt; discriminate|]. split; [exact H2|lia].
  - left. split; [exact L|]. split; [|split; [reflexivity|]].
    + unfold pending. rewrite E, Sz. sfields.
      replace (N.to_nat (rx_rsr s + len ch)) with (N.to_nat (rx_rsr s) + length ch)%nat by (unfold len; lia).
      assert (W : ring_write (rxm s) (rx_size s) (rx_wr s) ch = ring_write (rxm s) (rx_size s) (rx_base s + rx_rsr s) ch).
      { rewrite <- (ring_write_wrap (rxm s) (rx_size s) (rx_base s + rx_rsr s)) by assumption.
        unfold rx_rsr. now rewrite add_sub16. }
      rewrite ring_read_app, W, N2Nat.id. f_equal.
      * apply ring_read_write_before; lia.
      * apply ring_read_write_same; lia.
    + unfold recvf. sfields. rewrite N.lor_spec. change (N.testbit IR_RECV 2) with true. apply orb_true_r.
Qed.

Lemma rx_untouched s ev : (forall ip p d n, ev <> EvDatagram n ip p d) -> (forall n d, ev <> EvTcpData n d) ->
  (forall d, ev <> EvFrame d) ->
  rx_wr (sock_step s ev) = rx_wr s /\ rxm (sock_step s ev) = rxm s /\ rxlog (sock_step s ev) = rxlog s.
Proof.
  intros H1 H2 H3. destruct ev; try (exfalso; eapply H1; reflexivity); try (exfalso; eapply H2; reflexivity);
    try (exfalso; eapply H3; reflexivity); unfold sock_step, transmit; cbv zeta;
  repeat match goal with |- context [if ?b then _ else _] =>
           lazymatch b with context [if _ then _ else _] => fail | _ => destruct b end end; sfields; auto.
Qed.

(** what an event can add to the received bytes *)
Inductive arrival (s : sock) : nevent -> list byte -> Prop :=
| ar_tcp n d : sr s = SOCK_ESTABLISHED -> arrival s (EvTcpData n d) d
| ar_udp n ip p d : sr s = SOCK_UDP -> len ip = 4 -> p < 65536 -> len d < 65536 ->
    arrival s (EvDatagram n ip p d) (udp_record ip p d)
| ar_raw d : sr s = SOCK_MACRAW -> len d < 65534 -> arrival s (EvFrame d) (raw_record d).

Lemma rx_step s ev : rxv s ->
  rxv (sock_step s ev) /\
  ((exists ch, arrival s ev ch /\ pending (sock_step s ev) = pending s ++ ch /\
      rxlog (sock_step s ev) = rxlog s ++ ch /\ recvf (sock_step s ev) = true)
   \/ (pending (sock_step s ev) = pending s /\ rxlog (sock_step s ev) = rxlog s)).
Proof.
  intros V.
  assert (D : (exists n d, ev = EvTcpData n d) \/ (exists n ip p d, ev = EvDatagram n ip p d) \/
    (exists d, ev = EvFrame d) \/ ((forall ip p d n, ev <> EvDatagram n ip p d) /\ (forall n d, ev <> EvTcpData n d) /\
  (forall d, ev <> EvFrame d))).
  { destruct ev; eauto 10; right; right; right; split; [|split| | split | |split| |split| |split| |split| |split| |split| |split]; intros; try discriminate; split; intros; discriminate. }
  destruct D as [(n & d & ->)|[(n & ip & p & d & ->)|[(d & ->)|(N1 & N2 & N3)]]].
  - cbn [sock_step]. destruct (N.eqb_spec (sr s) SOCK_ESTABLISHED) as [E|_]; [|auto].
    destruct (rx_append_spec s d V) as (V' & [(_ & H1 & H2 & H3)|(_ & ->)]); [|auto].
    split; [exact V'|]. left. exists d. split; [now constructor|]. auto.
  - cbn [sock_step]. destruct ((sr s =? SOCK_UDP) && (len ip =? 4) && (p <? 65536) && (len d <? 65536)) eqn:E; [|auto].
    rewrite !andb_true_iff, !N.ltb_lt, !N.eqb_eq in E. destruct E as (((E1 & E2) & E3) & E4).
    destruct (rx_append_spec s (udp_record ip p d) V) as (V' & [(_ & H1 & H2 & H3)|(_ & ->)]); [|auto].
    split; [exact V'|]. left. eexists. split; [now constructor|auto].
  - cbn [sock_step]. destruct ((sr s =? SOCK_MACRAW) && (len d <? 65534)) eqn:E; [|auto].
    apply andb_true_iff in E as [E1 E2]. apply N.eqb_eq in E1. apply N.ltb_lt in E2.
    destruct (rx_append_spec s (raw_record d) V) as (V' & [(_ & H1 & H2 & H3)|(_ & ->)]); [|auto].
    split; [exact V'|]. left. eexists. split; [constructor; auto|auto].
  - destruct (rx_untouched s ev N1 N2 N3) as (W1 & W2 & W3).
    assert (W4 : regs (sock_step s ev) = regs s /\ rx_base (sock_step s ev) = rx_base s)
      by (ev_cases ev; auto).
    destruct W4 as [W4 W5].
    assert (W6 : rx_size (sock_step s ev) = rx_size s) by (unfold rx_size; now rewrite W4).
    assert (W7 : rx_rsr (sock_step s ev) = rx_rsr s) by (unfold rx_rsr; now rewrite W1, W5).
    split; [unfold rxv; rewrite W1, W5, W6, W7; exact V|]. right. unfold pending. now rewrite W2, W5, W6, W7, W3.
Qed.

(** network activity only appends to what is waiting *)
Lemma sevs_rx i x x' : sevs i x x' -> rxv x ->
  rxv x' /\ exists ch, pending x' = pending x ++ ch /\ rxlog x' = rxlog x ++ ch /\
    (ch <> [] -> recvf x' = true) /\ rx_rsr x' = rx_rsr x + len ch.
Proof.
  intros H V.
  assert (G : rxv x' /\ exists ch, pending x' = pending x ++ ch /\ rxlog x' = rxlog x ++ ch /\
    (ch <> [] -> recvf x' = true)).
  { revert H. refine (fun H => sevs_inv i (fun y => rxv y /\ exists ch, pending y = pending x ++ ch /\
       rxlog y = rxlog x ++ ch /\ (ch <> [] -> recvf y = true)) _ x x' H _).
    - intros y ev He (Vy & ch & P1 & P2 & P3). destruct (rx_step y ev Vy) as (Vy' & [(ch' & _ & Q1 & Q2 & Q3)|(Q1 & Q2)]).
      + split; [exact Vy'|]. exists (ch ++ ch'). rewrite Q1, Q2, P1, P2, !app_assoc. auto.
      + split; [exact Vy'|]. exists ch. rewrite Q1, Q2. split; [exact P1|]. split; [exact P2|].
        intros Hc. apply (sevs_ir i y (sock_step y ev) 2); [now apply sevs_one|]. now apply P3.
    - split; [exact V|]. exists []. rewrite !app_nil_r. split; [reflexivity|]. split; [reflexivity|]. congruence. }
  destruct G as (V' & ch & P1 & P2 & P3). split; [exact V'|]. exists ch. split; [exact P1|]. split; [exact P2|].
  split; [exact P3|]. rewrite <- !len_pending, P1. apply len_app.
Qed.
