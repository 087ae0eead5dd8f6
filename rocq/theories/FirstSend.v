(** UDP sockets on which nothing was sent since they were opened: no flag of an earlier send is left. *)
From Verif Require Export UdpSession.
From Verif Require Import PipeSession PipeCalls ProgFacts HistoryFacts FrameFacts Commands AccessFacts OpenFacts PacketSend TcpSession ErrorFacts Origin Stays.

(** ** Nothing given to the chip to send, no SENDOK, no TIMEOUT *)
Definition unspent (x : sock) : Prop :=
  N.testbit (ir x) 3 = false /\ N.testbit (ir x) 4 = false /\ tx_okdue x = false /\ tx_busy x = false /\
  (sr x = SOCK_CLOSED \/ sr x = SOCK_INIT \/ sr x = SOCK_UDP \/ sr x = SOCK_MACRAW).
Lemma unspent_ir x v : N.testbit v 3 = false -> N.testbit v 4 = false -> unspent x -> unspent (set_ir x v).
Proof. intros H1 H2 (_ & _ & H). unfold unspent. sfields. auto. Qed.
Lemma unspent_same x y : ir y = ir x -> tx_okdue y = tx_okdue x -> tx_busy y = tx_busy x -> sr y = sr x -> unspent x -> unspent y.
Proof. unfold unspent. intros -> -> -> ->. auto. Qed.
Lemma unspent_append x ch : unspent x -> unspent (rx_append x ch).
Proof.
  intros H. unfold rx_append. destruct (_ <=? _); [|exact H]. destruct H as (H1 & H2 & H). unfold unspent. sfields.
  rewrite !N.lor_spec, H1, H2. auto.
Qed.
Lemma unspent_ev i x ev : ev_sock ev = Some i -> unspent x -> unspent (sock_step x ev).
Proof.
  intros _ H. pose proof H as (_ & _ & O & B & S).
  assert (D : (sr x =? SOCK_SYNSENT) = false /\ (sr x =? SOCK_LISTEN) = false /\ (sr x =? SOCK_ESTABLISHED) = false /\ (sr x =? SOCK_CLOSE_WAIT) = false /\
    (sr x =? SOCK_FIN_WAIT) = false /\ (sr x =? SOCK_LAST_ACK) = false) by (destruct S as [->|[->|[->| ->]]]; repeat split; reflexivity).
  destruct D as (D1 & D2 & D3 & D4 & D5 & D6).
  destruct ev; cbn [sock_step]; unfold transmit; rewrite ?D1, ?D2, ?D3, ?D4, ?D5, ?D6, ?O, ?B; cbn [orb]; try exact H.
  - destruct (_ && _); [now apply unspent_append|exact H].
  - destruct (_ && _); [now apply unspent_append|exact H].
Qed.

(** ** Writes *)
Definition nosend (i : N) (blk a : N) (v : byte) : Prop := blk = BSB_REG i -> a = Sn_CR -> In (b2n v) [CR_OPEN; CR_CLOSE; CR_RECV].
Lemma unspent_command n x c : In c [CR_OPEN; CR_CLOSE; CR_RECV] -> unspent x -> unspent (do_command n x c).
Proof.
  intros Hc H. pose proof H as (H1 & H2 & O & B & S). destruct Hc as [<-|[<-|[<-|[]]]].
  - change (do_command n x CR_OPEN) with (if sr x =? SOCK_CLOSED then
      let p := N.land (b2n (regs x Sn_MR)) 15 in
      if p =? MR_TCP then set_sr (init_pointers x) SOCK_INIT
      else if p =? MR_UDP then set_sr (init_pointers x) SOCK_UDP
      else if (p =? MR_MACRAW) && (n =? 0) then set_sr (init_pointers x) SOCK_MACRAW else x else x). cbv zeta.
    repeat match goal with |- context [if ?b then _ else _] => destruct b end; try exact H; unfold unspent, init_pointers; cbv zeta; sfields; auto 10.
  - change (do_command n x CR_CLOSE) with (set_tx_okdue (set_tx_busy (set_sr x SOCK_CLOSED) false) false). unfold unspent. sfields. auto 10.
  - change (do_command n x CR_RECV) with (set_rx_base x (rx_rd x)). exact H.
Qed.
Lemma unspent_wr i c blk a v : i < 8 -> nosend i blk a v -> unspent (socks c i) -> unspent (socks (wbyte c blk a v) i).
Proof.
  intros Hi W H. apply wbyte_cases; auto.
  - intros _ _ _. repeat split; auto.
  - intros E. unfold sock_wr. destruct (N.eqb_spec a Sn_CR) as [Ea|]; [apply unspent_command; [now apply W|exact H]|].
    destruct (a =? Sn_IR); [|destruct (read_only a); exact H].
    destruct H as (H1 & H2 & H3). unfold unspent. sfields. rewrite !N.ldiff_spec, H1, H2. auto.
Qed.
Lemma nosend_spares {A} i (p : prog A) : spares i p -> mild (nosend i) p.
Proof.
  induction p as [a|w| |b a d k IH|b a d k IH]; cbn [spares mild]; intros H; auto. destruct H as [Hw H]. split; [|auto].
  apply each_all. intros a' v X. exfalso. subst b.
  destruct Hw as [(_ & H2)|(X & _)]; [apply H2; now destruct (blk_reg i) as (_ & -> & _)|unfold BSB_REG in X; lia].
Qed.
Lemma nosend_cmdw {A} i l (p : prog A) : (forall c, In c l -> In c [CR_OPEN; CR_CLOSE; CR_RECV]) -> writes (cmdw i l) p -> mild (nosend i) p.
Proof.
  intros Fl. induction p as [a|w| |b a d k IH|b a d k IH]; cbn [writes mild]; intros H; auto. destruct H as [Hw H]. split; [|auto].
  destruct (N.eq_dec b (BSB_REG i)) as [->|Nb]; [|apply each_all; intros a' v X; contradiction].
  destruct (Hw i eq_refl) as (_ & [L|[(L & L')|(-> & c & Hc & ->)]]).
  - apply Origin.each_range; [unfold Sn_CR in L; lia|]. intros a' v _ X _ E. lia.
  - apply Origin.each_range; [exact L'|]. intros a' v X _ _ E. lia.
  - cbn [each]. split; [|exact I]. intros _ _. specialize (Fl c Hc). replace (b2n (u8 c)) with c; [exact Fl|].
    rewrite b2n_u8. destruct Fl as [<-|[<-|[<-|[]]]]; reflexivity.
Qed.

(** [o] sends nothing through handle [h] *)
Definition unsent_by (h : nat) (o : op) : Prop :=
  match o with OpUdpSend h' _ | OpUdpSendTo h' _ _ => h' <> h | _ => True end.
Lemma nosend_step fuel a o h i dest port : i < 8 -> pool_inv a -> lookup h (handles a) = Some (udp_handle i dest port) -> keeps_udp h o -> unsent_by h o ->
  mild (nosend i) (step fuel a o).
Proof.
  intros Hi P L K U. assert (Dec : op_handle o = Some h \/ op_handle o <> Some h).
  { destruct (op_handle o) as [h'|]; [|right; discriminate]. destruct (Nat.eq_dec h' h) as [->|]; [left; reflexivity|right; congruence]. }
  destruct Dec as [E|E].
  2:{ apply nosend_spares. eapply FrameFacts.spares_step; eauto. intros ->. exact K. }
  assert (G : good (handles a)) by (intros h' z Hz; destruct (pi_socket _ P h' z Hz) as (j & Hj & -> & _); exists j; split; [exact Hj|reflexivity]).
  assert (W : writes (cmdw i (op_commands o)) (step fuel a o)).
  { apply cw_step_at; [exact G|]. intros h' z E' L'. rewrite E in E'. injection E' as <-. rewrite L in L'. now injection L' as <-. }
  destruct o; cbn [op_handle] in E; try discriminate E; injection E as ->; cbn [keeps_udp unsent_by op_commands] in *;
    try (now elim U); try (now elim K).
  all: first [solve [cbn [step]; rewrite L; exact I] | (eapply nosend_cmdw; [|exact W]; intros c Hc; cbn [In] in *; decompose [or] Hc; subst; auto; contradiction)].
Qed.

(** ** From the call that opened the socket on *)
Lemma opened_unspent e fuel a o s a' s' h i dest port : i < 8 -> lookup h (handles a) = Some (udp_handle i dest port) ->
  (exists r, o = OpUdpConnect h (V4 r)) \/ (exists p, o = OpUdpBind h p) ->
  run e (step fuel a o) s = (Done (a', RUdpUnit (Ok tt)), s') -> unspent (sk i s').
Proof.
  intros Hi L Ho R. apply run_step_nofail in R; [|reflexivity]. pose proof (nofail_no_faults e) as NF.
  assert (O : forall x p, unspent (udp_opened x p)).
  { intros x p. unfold udp_opened. destruct (opened_tx x (open_regs (Some p) MR_UDP (regs x)) SOCK_UDP) as (_ & _ & _ & _ & _ & _ & _ & T1 & T2 & _).
    unfold unspent. rewrite T1, T2. unfold opened, init_pointers, closed_of. sfields. rewrite !N.ldiff_spec.
    repeat split; auto; try (apply andb_false_intro2; reflexivity). }
  destruct Ho as [(r & ->)|(p & ->)]; cbn [step] in R; rewrite L in R; unfold udp_handle in R;
    apply run_bind_done in R as (res & s1 & R1 & R); cbn [run] in R; injection R as _ _ <-.
  - refine (wp_run (nofail e) _ (fun _ s' => unspent (sk i s')) s (Done res) s1 R1 _).
    apply wp_udp_connect; auto. intros x y s2 _ N E.
    assert (U : unspent y) by (exact (sevs_inv i unspent (unspent_ev i) _ _ N (O x port))).
    destruct E as [->|(-> & _)]; [|exact U]. exact U.
  - refine (wp_run (nofail e) _ (fun _ s' => unspent (sk i s')) s (Done res) s1 R1 _).
    apply wp_udp_bind; auto. intros x s2 _ _ ->. apply O.
Qed.
Lemma run_ops_unspent e fuel h i : i < 8 -> forall ops a s a' outs s' dest port,
  port < 65536 -> pool_inv a -> lookup h (handles a) = Some (udp_handle i dest port) ->
  Forall (keeps_udp h) ops -> Forall (unsent_by h) ops -> uinv dest port (sk i s) -> unspent (sk i s) ->
  run e (run_ops fuel a ops) s = (Done (a', outs), s') -> no_bus_error h ops outs -> unspent (sk i s').
Proof.
  intros Hi. induction ops as [|o ops IH]; intros a s a' outs s' dest port Hp Pi L K U S J R NB; cbn [run_ops] in R.
  - injection R as <- <- <-. auto.
  - apply run_bind_done in R as ([a1 o1] & s1 & R1 & R). apply run_bind_done in R as ([a2 o2] & s2 & R2 & R).
    cbn [run fst snd] in *. injection R as <- <- <-. inversion K as [|? ? K1 K2]; subst. inversion U as [|? ? U1 U2]; subst.
    cbn [no_bus_error] in NB. destruct NB as [NB1 NB2].
    destruct (step_udp e fuel a o s a1 o1 s1 h i dest port Hi Hp Pi L K1 S R1 NB1) as (P1 & I1 & L1 & S1).
    pose proof (run_mild (nosend i) e i unspent (unspent_ev i) (fun c blk ad v => unspent_wr i c blk ad v Hi) _ (nosend_step fuel a o h i dest port Hi Pi L K1 U1) s J) as J1.
    rewrite R1 in J1. exact (IH a1 s1 a2 o2 s2 _ _ P1 I1 L1 K2 U2 S1 J1 R2 NB2).
Qed.
(** As [udp_session], but nothing was sent through [h] since the socket was opened. *)
Definition udp_opened_only (e : env) (fuel h : nat) (i : N) (dest : option addr4) (port : N) (a : History.app) (s : sys) : Prop :=
  exists ho s00 ops0 a0 outs0 s0 u o1 a1 s1 ops outs,
    run e (run_ops fuel (app_new ho) ops0) s00 = (Done (a0, outs0), s0) /\
    lookup h (handles a0) = Some (HUdp u) /\ index (u_socket u) = i /\ u_port u < 65536 /\
    (coherent (u_dest u) (regs (socks (s_chip s0) i)) \/ (exists r, o1 = OpUdpConnect h (V4 r) /\ u_dest u <> Some r)) /\
    valid_size (tx_size (socks (s_chip s0) i)) /\ valid_size (rx_size (socks (s_chip s0) i)) /\
    ((exists r, o1 = OpUdpConnect h (V4 r)) \/ (exists p, o1 = OpUdpBind h p)) /\
    run e (step fuel a0 o1) s0 = (Done (a1, RUdpUnit (Ok tt)), s1) /\
    run e (run_ops fuel a1 ops) s1 = (Done (a, outs), s) /\
    Forall (keeps_udp h) (o1 :: ops) /\ no_bus_error h ops outs /\
    dest = named h (u_dest u) (o1 :: ops) /\ port = bound h (u_port u) (o1 :: ops) /\
    Forall (unsent_by h) ops.
Lemma opened_only_session e fuel h i dest port a s : udp_opened_only e fuel h i dest port a s -> udp_session e fuel h i dest port a s.
Proof.
  intros (ho & s00 & ops0 & a0 & outs0 & s0 & u & o1 & a1 & s1 & ops & outs & H).
  exists ho, s00, ops0, a0, outs0, s0, u, o1, a1, s1, ops, outs. intuition.
Qed.
Lemma opened_only_unspent e fuel h i dest port a s : udp_opened_only e fuel h i dest port a s -> unspent (sk i s).
Proof.
  intros (ho & s00 & ops0 & a0 & outs0 & s0 & u & o1 & a1 & s1 & ops & outs & R0 & L & Ei & Hp & C & Vt & Vr & Ho & R1 & R2 & K & NB & -> & -> & U).
  pose proof (run_ops_inv e fuel ops0 _ _ _ _ _ (pool_inv_new ho) R0) as Pi.
  destruct (pi_lookup _ _ _ Pi L) as (j & Hj & Ej & _). cbn [handle_socket] in Ej. rewrite Ej in Ei. cbn [index socket_new] in Ei. subst j.
  destruct u as [so dest port]. cbn [u_socket u_dest u_port] in *. subst so. inversion K as [|? ? K1 K2]; subst.
  destruct (udp_starts e fuel a0 o1 s0 a1 s1 h i dest port Hj Hp Pi L C Vt Vr Ho K1 R1) as (P1 & I1 & L1 & U1 & _).
  pose proof (opened_unspent e fuel a0 o1 s0 a1 s1 h i dest port Hj L Ho R1) as J.
  exact (run_ops_unspent e fuel h i Hj ops a1 s1 a outs s _ _ P1 I1 L1 K2 U U1 J R2 NB).
Qed.

(** ** An idle socket is closed: nothing more leaves *)
Definition still (l : list packet) (x : sock) : Prop := idle x /\ sent x = l.
Lemma still_ev l i x ev : ev_sock ev = Some i -> still l x -> still l (sock_step x ev).
Proof. intros E (H1 & H2). destruct (sevs_idle i x (sock_step x ev) (sevs_one i x ev E) H1) as (I1 & _ & _ & I2). split; [exact I1|congruence]. Qed.
Lemma still_wr l i c blk a v : i < 8 -> nosend i blk a v -> still l (socks c i) -> still l (socks (wbyte c blk a v) i).
Proof.
  intros Hi W H. apply wbyte_cases; auto.
  - intros _ _ _. split; [reflexivity|]. apply H.
  - intros E. unfold sock_wr. destruct (N.eqb_spec a Sn_CR) as [Ea|]; [|destruct (a =? Sn_IR); [exact H|]; destruct (read_only a); exact H].
    destruct (W E Ea) as [X|[X|[X|[]]]]; rewrite <- X.
    + unfold do_command. cbv zeta. change (CR_OPEN =? CR_OPEN) with true. cbv iota. repeat match goal with |- context [if ?b then _ else _] => destruct b end; (split; [first [reflexivity|apply H]|apply H]).
    + change (do_command i (socks c i) CR_CLOSE) with (set_tx_okdue (set_tx_busy (set_sr (socks c i) SOCK_CLOSED) false) false). split; [reflexivity|apply H].
    + exact H.
Qed.
Lemma sent_close e fuel a h i dest port s a' out s' : i < 8 -> pool_inv a -> lookup h (handles a) = Some (udp_handle i dest port) -> idle (sk i s) ->
  run e (step fuel a (OpUdpClose h)) s = (Done (a', out), s') -> sent (sk i s') = sent (sk i s).
Proof.
  intros Hi P L Id R. assert (G : good (handles a)) by (intros h' z Hz; destruct (pi_socket _ P h' z Hz) as (j & Hj & -> & _); exists j; split; [exact Hj|reflexivity]).
  assert (W : mild (nosend i) (step fuel a (OpUdpClose h))).
  { eapply nosend_cmdw; [|apply (cw_step_at fuel a (OpUdpClose h) i G)].
    - intros c [<-|[]]. cbn [In]. auto.
    - intros h' z E' L'. injection E' as <-. rewrite L in L'. now injection L' as <-. }
  pose proof (run_mild (nosend i) e i (still (sent (sk i s))) (still_ev _ i) (fun c blk ad v => still_wr _ i c blk ad v Hi) _ W s (conj Id eq_refl)) as K.
  rewrite R in K. apply K.
Qed.
