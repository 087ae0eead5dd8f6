(** What is in a socket's receive buffer during the calls that take nothing out of it. *)
From Verif Require Export Origin Life.
From Verif Require Import InitFacts PipeSession PipeCalls ProgFacts Datasheet HistoryFacts AccessFacts SizeFacts FrameFacts Commands PinFacts RawStays RawSession.

(** ** Well-formed receive pointers, whatever the program *)
Definition rxw (x : sock) : Prop := valid_size (rx_size x) /\ rx_wr x < 65536 /\ rx_base x < 65536.
Definition grows (p : list byte) (x : sock) : Prop := exists more, NetFacts.pending x = p ++ more.
Definition queued (p : list byte) (x : sock) : Prop := rxw x /\ grows p x.
Lemma rxw_valid x : rxw x -> valid_size (rx_size x).
Proof. now intros (E & _). Qed.
Lemma grows_self x : grows (NetFacts.pending x) x.
Proof. exists []. now rewrite app_nil_r. Qed.
Lemma grows_same p x y : grows p x -> regs y Sn_RXBUF_SIZE = regs x Sn_RXBUF_SIZE -> rx_wr y = rx_wr x -> rx_base y = rx_base x -> rxm y = rxm x -> grows p y.
Proof. intros (m & H) E1 E2 E3 E4. exists m. rewrite <- H. unfold NetFacts.pending, rx_rsr, rx_size. now rewrite E1, E2, E3, E4. Qed.
Lemma queued_same p x y : queued p x -> regs y Sn_RXBUF_SIZE = regs x Sn_RXBUF_SIZE -> rx_wr y = rx_wr x -> rx_base y = rx_base x -> rxm y = rxm x -> queued p y.
Proof. intros [(H1 & H2 & H3) H4] E1 E2 E3 E4. split; [unfold rxw, rx_size in *; now rewrite E1, E2, E3|eapply grows_same; eauto]. Qed.
Lemma rxw_append x ch : rxw x -> rxw (rx_append x ch).
Proof.
  intros (H1 & H2 & H3). unfold rx_append. destruct (_ <=? _); [|now repeat split].
  unfold rxw. sfields. split; [exact H1|]. split; [apply N.mod_lt; discriminate|exact H3].
Qed.
Lemma queued_append p x ch : queued p x -> queued p (rx_append x ch).
Proof.
  intros [W (m & E)]. split; [now apply rxw_append|].
  destruct (N.le_gt_cases (rx_rsr x) (rx_size x)) as [L|L].
  - destruct W as (W1 & W2 & W3). assert (V : rxv x) by (repeat split; auto; apply rxw_valid; repeat split; auto).
    destruct (rx_append_spec x ch V) as (_ & [(_ & P & _)|(_ & ->)]); [|now exists m].
    exists (m ++ ch). now rewrite P, E, app_assoc.
  - unfold rx_append. destruct (N.leb_spec (len ch) (rx_size x - rx_rsr x)) as [Lc|]; [|now exists m].
    assert (ch = []) as -> by (destruct ch; [reflexivity|rewrite len_cons in Lc; lia]).
    eapply grows_same; [exists m; exact E|reflexivity| |reflexivity|reflexivity]. sfields. change (len []) with 0. rewrite N.add_0_r. apply N.mod_small, W.
Qed.
Lemma queued_ev p i x ev : ev_sock ev = Some i -> queued p x -> queued p (sock_step x ev).
Proof.
  intros _ H. destruct ev; cbn [sock_step]; unfold transmit;
    repeat match goal with |- context [if ?b then _ else _] => destruct b end; try exact H; try (now apply queued_append);
    apply (queued_same p x); auto; reflexivity.
Qed.
Lemma rxw_ev i x ev : ev_sock ev = Some i -> rxw x -> rxw (sock_step x ev).
Proof. intros E H. exact (proj1 (queued_ev _ i x ev E (conj H (grows_self x)))). Qed.

(** ** Writes *)
Lemma rxw_command n x v : rxw x -> rxw (do_command n x v).
Proof.
  intros H. assert (I0 : rxw (init_pointers x)).
  { destruct H as (H & _). split; [exact H|]. split; apply N.mod_lt; discriminate. }
  assert (R : rxw (set_rx_base x (rx_rd x))).
  { destruct H as (H1 & H2 & _). split; [exact H1|]. split; [exact H2|]. apply get16_lt. }
  assert (Z : forall y v, rxw y -> rxw (set_sr y v)) by (intros y w Hy; exact Hy).
  assert (Z1 : forall y v, rxw y -> rxw (set_dialled y v)) by (intros y w Hy; exact Hy).
  assert (Z2 : forall y v, rxw y -> rxw (set_tx_okdue y v)) by (intros y w Hy; exact Hy).
  assert (Z3 : forall y v, rxw y -> rxw (set_tx_busy y v)) by (intros y w Hy; exact Hy).
  assert (Z4 : forall y v, rxw y -> rxw (set_tx_end y v)) by (intros y w Hy; exact Hy).
  clear -H I0 R Z Z1 Z2 Z3 Z4. unfold do_command. cbv zeta.
  repeat match goal with |- context [if ?b then _ else _] => destruct b end;
    repeat match goal with
    | |- rxw (set_sr _ _) => apply Z | |- rxw (set_dialled _ _) => apply Z1 | |- rxw (set_tx_okdue _ _) => apply Z2
    | |- rxw (set_tx_busy _ _) => apply Z3 | |- rxw (set_tx_end _ _) => apply Z4
    | |- rxw x => exact H | |- rxw (init_pointers _) => exact I0 | |- rxw (set_rx_base _ _) => exact R
    end.
Qed.
Lemma socks_set_same c i y : socks (set_sock c i y) i = y.
Proof. unfold set_sock. cbn [socks]. now rewrite N.eqb_refl. Qed.
(** a byte written to the chip, as it concerns socket [i] *)
Lemma wbyte_cases (K : sock -> Prop) c blk a v i : i < 8 -> K (socks c i) ->
  (blk = 0 -> a = MR -> N.testbit (b2n v) 7 = true -> K (sock_reset (socks c i))) ->
  (blk = BSB_REG i -> K (sock_wr i (socks c i) a v)) ->
  (blk = BSB_TX i -> forall m, K (set_txm (socks c i) m)) ->
  (blk = BSB_RX i -> forall m, K (set_rxm (socks c i) m)) ->
  K (socks (wbyte c blk a v) i).
Proof.
  intros Hi T H0 H1 H2 H3. unfold wbyte. destruct (N.eqb_spec blk 0) as [->|N0].
  { destruct (N.eqb_spec a MR) as [->|].
    - destruct (N.testbit _ 7) eqn:E; [now apply H0|exact T].
    - destruct (_ =? VERSIONR); exact T. }
  destruct (N.eq_dec (blk / 4) i) as [En|En].
  2:{ assert (Z : forall y, socks (set_sock c (blk / 4) y) i = socks c i).
      { intros y. unfold set_sock. cbn [socks]. destruct (N.eqb_spec i (blk / 4)); [congruence|reflexivity]. }
      destruct (blk mod 4) as [|[[]|[]|]]; try exact T; cbv zeta;
        repeat match goal with |- context [if ?b then _ else _] => destruct b end; rewrite ?Z; exact T. }
  pose proof (N.div_mod blk 4 ltac:(discriminate)) as DM. rewrite En in *.
  destruct (blk mod 4) as [|[[]|[]|]] eqn:Em; try exact T; cbv zeta;
    repeat match goal with |- context [if ?b then _ else _] => destruct b end; rewrite ?socks_set_same; try exact T.
  - apply H3. unfold BSB_RX. lia.
  - apply H2. unfold BSB_TX. lia.
  - apply H1. unfold BSB_REG. lia.
Qed.
Lemma rxw_wr i c blk a v : i < 8 -> size_safe i blk a v -> rxw (socks c i) -> rxw (socks (wbyte c blk a v) i).
Proof.
  intros Hi H T. apply wbyte_cases; auto.
  - intros _ _ _. split; [right; left; reflexivity|]. split; reflexivity.
  - intros E. destruct (H E) as [H1 H2]. unfold sock_wr. destruct (a =? Sn_CR); [now apply rxw_command|].
    destruct (a =? Sn_IR); [exact T|]. destruct (read_only a); [exact T|].
    destruct T as (T1 & T2 & T3). split; [|split; assumption]. unfold rx_size in *. cbn [set_regs regs]. unfold upd. destruct (N.eqb_spec Sn_RXBUF_SIZE a); [congruence|exact T1].
Qed.

Lemma ops_rxw e i fuel ops a s : i < 8 -> pool_inv a -> rxw (sk i s) -> rxw (sk i (snd (run e (run_ops fuel a ops) s))).
Proof.
  intros Hi Ha T. apply (run_mild (size_safe i) e i rxw); auto.
  - intros x ev. apply rxw_ev.
  - intros c blk ad v. now apply rxw_wr.
  - eapply mild_sizes; [exact Hi|]. apply at_run_ops; [exact Ha|].
    apply Forall_forall. intros o _ _ b' a' d' H'. exact H'.
Qed.
Lemma setup_rxw e chk k m s00 d s0 i : run e (run_setup chk k m) s00 = (Done (Ok d), s0) -> pool_inv (mkApp d [] 0) /\ rxw (sk i s0).
Proof.
  intros R. assert (X : exists h, run e (initialize_with_host chk h m) s00 = (Done (Ok d), s0)) by (destruct k; cbn [run_setup] in R; eauto).
  clear R. destruct X as (h & R). split; [exact (proj1 (init_start e chk h m s00 d s0 i R))|].
  apply run_init in R as (s1 & c & h' & _ & _ & _ & Hs & R & ->).
  pose proof (run_spares e i _ (spares_refresh i h) s1) as N1. rewrite R in N1. cbn [snd] in N1.
  apply (sevs_inv i rxw (rxw_ev i) _ _ N1). unfold sk. rewrite Hs. split; [right; left; reflexivity|]. split; reflexivity.
Qed.

(** ** Calls that leave the queue alone *)
Definition takers : list N := [CR_OPEN; CR_CONNECT; CR_RECV].
Definition rx_safe (i : N) (blk a : N) (v : byte) : Prop :=
  (blk = BSB_REG i -> a <> Sn_RXBUF_SIZE /\ (a = Sn_CR -> ~ In (b2n v) takers)) /\ blk <> BSB_RX i /\
  (blk = 0 -> a = MR -> N.testbit (b2n v) 7 = false).
Lemma queued_wr p i c blk a v : i < 8 -> rx_safe i blk a v -> queued p (socks c i) -> queued p (socks (wbyte c blk a v) i).
Proof.
  intros Hi (S1 & S2 & S3) H. apply wbyte_cases; auto.
  - intros E1 E2 E3. rewrite (S3 E1 E2) in E3. discriminate.
  - intros E. destruct (S1 E) as [H1 H2]. unfold sock_wr. destruct (N.eqb_spec a Sn_CR) as [->|].
    + specialize (H2 eq_refl). unfold takers in H2. cbn [In] in H2. unfold do_command.
      destruct (N.eqb_spec (b2n v) CR_OPEN); [exfalso; auto|]. destruct (N.eqb_spec (b2n v) CR_CONNECT); [exfalso; auto|].
      destruct (N.eqb_spec (b2n v) CR_RECV); [exfalso; auto 6|].
      repeat match goal with |- context [if ?b then _ else _] => destruct b end; exact H.
    + destruct (a =? Sn_IR); [exact H|]. destruct (read_only a); [exact H|].
      apply (queued_same p _ _ H); try reflexivity. cbn [set_regs regs]. unfold upd. destruct (N.eqb_spec Sn_RXBUF_SIZE a); [congruence|reflexivity].
  - intros E. contradiction.
Qed.
Lemma safe_spares {A} i (p : prog A) : spares i p -> mild (rx_safe i) p.
Proof.
  induction p as [a|w| |b a d k IH|b a d k IH]; cbn [spares mild]; intros H; auto. destruct H as [Hw H]. split; [|auto].
  destruct Hw as [(H1 & H2)|(-> & [(-> & v & -> & E)|(H1 & H2)])].
  - apply each_all. intros a' v. split; [|split]; intros X; [| |contradiction]; exfalso; apply H2; subst b; [now destruct (blk_reg i) as (_ & -> & _)|].
    unfold BSB_RX. symmetry. apply (N.div_unique _ 4 _ 3); lia.
  - cbn [each]. split; [|exact I]. split; [unfold BSB_REG; lia|]. split; [unfold BSB_RX; lia|]. auto.
  - apply Origin.each_range; [exact H2|]. intros a' v L1 L2. split; [unfold BSB_REG; lia|]. split; [unfold BSB_RX; lia|]. intros _ ->. unfold MR in *. lia.
Qed.
Lemma safe_own {A} i l (B : N -> N -> Prop) W G G' (p : prog A) : i < 8 -> (forall c, In c l -> c < 256 /\ ~ In c takers) -> (forall blk a, B blk a -> own_block i blk) ->
  ptree B W G p -> writes (cmdw i l) p -> atree read_ok (fun b a d => plain_write b a d \/ tx_read_write b a d) G' p -> mild (rx_safe i) p.
Proof.
  intros Hi Fl HB. induction p as [a|w| |b a d k IH|b a d k IH]; cbn [ptree writes atree mild]; intros H1 H2 H3; auto.
  - destruct H1 as [_ H1], H3 as [_ H3]. auto.
  - destruct H1 as [Hb H1], H2 as [Hq H2], H3 as [Hw H3]. split; [|auto]. destruct (own_block_div i b (HB _ _ Hb)) as [E0 _]. apply N.eqb_neq in E0.
    assert (NR : b <> BSB_RX i).
    { destruct Hw as [[[[-> _]|(j & Hj & [[-> _]|[-> _]])] _]|(j & Hj & -> & _)]; unfold BSB_COMMON, BSB_REG, BSB_TX, BSB_RX in *; lia. }
    destruct (N.eq_dec b (BSB_REG i)) as [->|Nb].
    2:{ apply each_all. intros a' v. split; [intros X; contradiction|]. split; [exact NR|intros X; contradiction]. }
    pose proof (plain_each i _ _ _ Hi Hw) as Z.
    assert (Q : each (fun blk a v => a = Sn_CR -> ~ In (b2n v) takers) (BSB_REG i) a d).
    { destruct (Hq i eq_refl) as (_ & [L|[(L & L')|(-> & c & Hc & ->)]]).
      * apply Origin.each_range; [unfold Sn_CR in L; lia|]. intros a' v _ X E. lia.
      * apply Origin.each_range; [exact L'|]. intros a' v X _ E. lia.
      * cbn [each]. split; [|exact I]. intros _. destruct (Fl c Hc) as [F1 F2]. rewrite b2n_u8, N.mod_small by exact F1. exact F2. }
    clear - Z Q NR E0. revert a Z Q. induction d as [|v d IHd]; intros a Z Q; cbn [each] in *; [exact I|]. destruct Z as [Z1 Z2], Q as [Q1 Q2].
    split; [|now apply IHd]. split; [intros E; split; [now apply Z1|exact Q1]|]. split; [exact NR|]. intros X. contradiction.
Qed.

(** [o] takes nothing out of the socket behind [h]: it is no receive, connect, bind or close of it,
    does not give it up, issues no such command to it directly, and is not reset_device *)
Definition keeps (h : nat) (o : op) : Prop :=
  match o with
  | OpReleaseSocket h' | OpForget h' | OpTcpConnect h' _ | OpTcpReceive h' _ | OpTcpClose h'
  | OpUdpConnect h' _ | OpUdpBind h' _ | OpUdpReceive h' _ | OpUdpClose h' => h' <> h
  | OpSocket h' (KCommand c) => h' <> h \/ In c [CmListen; CmSend]
  | OpDevice QResetDevice => False
  | _ => True
  end.
Lemma safe_step fuel a o h y i : i < 8 -> pool_inv a -> lookup h (handles a) = Some y -> handle_socket y = socket_new i -> keeps h o -> mild (rx_safe i) (step fuel a o).
Proof.
  intros Hi P L Ey K. assert (Dec : op_handle o = Some h \/ op_handle o <> Some h).
  { destruct (op_handle o) as [h'|]; [|right; discriminate]. destruct (Nat.eq_dec h' h) as [->|]; [left; reflexivity|right; congruence]. }
  destruct Dec as [E|E].
  2:{ apply safe_spares. eapply FrameFacts.spares_step; eauto. intros ->. exact K. }
  assert (G : good (handles a)) by (intros h' z Hz; destruct (pi_socket _ P h' z Hz) as (j & Hj & -> & _); exists j; split; [exact Hj|reflexivity]).
  refine (safe_own i (op_commands o) (step_blk a o) (step_panics o) (step_post a o) any _ Hi _ _ (pt_step fuel a o P) (cw_step_at fuel a o i G _) (at_step _ fuel a o P _)).
  - intros c Hc. destruct o; cbn [op_handle] in E; try discriminate E; injection E as ->; cbn [keeps op_commands] in *; try (now elim K); try contradiction.
    1,2,3: destruct Hc as [<-|[]]; (split; [reflexivity|]); cbn; intros X; decompose [or] X; try discriminate; assumption.
    destruct q; try contradiction. destruct Hc as [<-|[]]. destruct K as [K|K]; [now elim K|].
    destruct K as [<-|[<-|[]]]; (split; [reflexivity|]); cbn; intros X; decompose [or] X; try discriminate; assumption.
  - intros blk ad. unfold step_blk. rewrite E. intros (x' & L' & Hb). rewrite L in L'. injection L' as <-. rewrite Ey in Hb. now apply (sblk_own i _ ad).
  - intros h' z E' L'. rewrite E in E'. injection E' as <-. rewrite L in L'. injection L' as <-. now rewrite Ey.
  - intros _ b' a' d' H'. exact H'.
Qed.
Lemma keeps_lookup e fuel a o s a' out s' h y i : lookup h (handles a) = Some y -> handle_socket y = socket_new i -> pool_inv a -> keeps h o ->
  run e (step fuel a o) s = (Done (a', out), s') -> exists y', lookup h (handles a') = Some y' /\ handle_socket y' = socket_new i.
Proof.
  intros L Ey P K R. assert (Dec : op_handle o = Some h \/ op_handle o <> Some h).
  { destruct (op_handle o) as [h'|]; [|right; discriminate]. destruct (Nat.eq_dec h' h) as [->|]; [left; reflexivity|right; congruence]. }
  destruct Dec as [E|E]; [|exists y; split; [now apply (step_lookup e fuel a o s a' out s')|exact Ey]].
  destruct o; cbn [op_handle] in E; try discriminate E; injection E as ->; cbn [step keeps] in *; try (now elim K); rewrite L in R; destruct y as [so|t|u];
    try (cbn [run] in R; injection R as <- <- <-; eauto; fail);
    apply run_bind_done in R as (res & s1 & R1 & R); cbn [run] in R; injection R as <- _ _; eauto.
  - exists (HUdp (fst res)). cbn [handles put]. split; [now apply (lookup_update_same _ _ _ (HUdp u))|]. pose proof (run_ptree e _ _ _ _ (pt_udp_send_to u (fun _ => True) fuel remote d) s) as T. rewrite R1 in T. cbn [fst] in T.
    destruct T as [T _]. unfold keeps_socket in T. cbn [handle_socket] in *. congruence.
  - exists (HUdp (fst res)). cbn [handles put]. split; [now apply (lookup_update_same _ _ _ (HUdp u))|]. pose proof (run_ptree e _ _ _ _ (pt_udp_set_port u (fun _ => True) port) s) as T. rewrite R1 in T. cbn [fst] in T.
    unfold keeps_socket in T. cbn [handle_socket] in *. congruence.
Qed.
Lemma keeps_ops e fuel h i p : i < 8 -> forall ops a y s oc s', pool_inv a -> lookup h (handles a) = Some y -> handle_socket y = socket_new i -> Forall (keeps h) ops ->
  run e (run_ops fuel a ops) s = (oc, s') -> queued p (sk i s) -> queued p (sk i s').
Proof.
  intros Hi. induction ops as [|o ops IH]; intros a y s oc s' P L Ey F R Q; cbn [run_ops] in R; [now injection R as _ <-|].
  inversion F as [|? ? F1 F2]; subst. rewrite run_bind in R.
  pose proof (run_mild (rx_safe i) e i (queued p) (queued_ev p i) (fun c blk ad v => queued_wr p i c blk ad v Hi) _ (safe_step fuel a o h y i Hi P L Ey F1) s Q) as Q1.
  destruct (run e (step fuel a o) s) as [[[a1 o1]|w| |] s1] eqn:R1; cbn [fst snd cast] in *; try (injection R as _ <-; exact Q1).
  rewrite run_bind in R. destruct (run e (run_ops fuel a1 ops) s1) as [x s2] eqn:R2. cbn [fst snd] in R.
  assert (s' = s2) as -> by (destruct x; cbn [cast run] in R; congruence).
  destruct (keeps_lookup e fuel a o s a1 o1 s1 h y i L Ey P F1 R1) as (y' & L' & Ey').
  exact (IH a1 y' s1 x s2 (run_step_inv e fuel a o s a1 o1 s1 P R1) L' Ey' F2 R2 Q1).
Qed.
Lemma setup_queued e chk k m s00 d s0 fuel ops0 a outs0 s i : i < 8 -> run e (run_setup chk k m) s00 = (Done (Ok d), s0) ->
  run e (run_ops fuel (mkApp d [] 0) ops0) s0 = (Done (a, outs0), s) -> pool_inv a /\ queued (NetFacts.pending (sk i s)) (sk i s).
Proof.
  intros Hi R0 R. destruct (setup_rxw e chk k m s00 d s0 i R0) as (P & W).
  split; [exact (run_ops_inv e fuel ops0 _ _ _ _ _ P R)|]. split; [|apply grows_self].
  pose proof (ops_rxw e i fuel ops0 _ s0 Hi P W) as W'. now rewrite R in W'.
Qed.

(** ** The raw device *)
Lemma mild_and {A} (P Q : N -> N -> byte -> Prop) (p : prog A) : mild P p -> mild Q p -> mild (fun b a v => P b a v /\ Q b a v) p.
Proof.
  assert (E : forall b d a, each P b a d -> each Q b a d -> each (fun b a v => P b a v /\ Q b a v) b a d).
  { intros b. induction d as [|v d IH]; intros a H1 H2; cbn [each] in *; [exact I|]. destruct H1, H2. auto. }
  induction p as [a|w| |b a d k IH|b a d k IH]; cbn [mild]; auto. intros [H1 H2] [H3 H4]. auto.
Qed.
Lemma size_raw fuel o : mild (size_safe 0) (raw_step fuel raw0 o).
Proof. eapply mild_sizes; [reflexivity|]. apply at_raw_step. Qed.
Lemma safe_raw fuel o : (forall f, o <> RwRead f) -> mild (rx_safe 0) (raw_step fuel raw0 o).
Proof.
  intros N. assert (Z : forall a v b, (b = BSB_REG 0 /\ a <> Sn_RXBUF_SIZE /\ a <> Sn_CR) \/ (b = 0 /\ a <> MR) -> rx_safe 0 b a v).
  { intros a v b [(-> & H1 & H2)|(-> & H)]; (split; [|split]); try discriminate; intros; try contradiction. split; [exact H1|intros; contradiction]. }
  destruct o as [w| | |f|f]; [| | |now elim (N f)|].
  1,2,3: cbn [raw_step]; (apply mild_bind; [|intros; exact I]);
    unfold raw_enable_interrupts, raw_clear_interrupts, raw_disable_interrupts, set_interrupt_mask, reset_interrupt, write_frame; cbn [try_ bind mild each];
    repeat match goal with
    | |- rx_safe _ _ _ _ => apply Z; first [left; split; [reflexivity|split; discriminate] | right; split; [reflexivity|discriminate]]
    | |- _ /\ _ => split | |- True => exact I | |- forall _, _ => intros [|]; cbn [mild each] end.
  apply (mild_mono (fun b a v => size_safe 0 b a v /\ w_safe b a v)); [|apply mild_and; [apply size_raw|]].
  - intros b a v [S [->|(-> & _ & C & _)]]; (split; [|split]); try discriminate. intros _. split; [now apply S|]. intros E. rewrite (C E). cbn. intros X; decompose [or] X; try discriminate; assumption.
  - cbn [raw_step]. apply mild_bind; [apply w_write|intros; exact I].
Qed.
Lemma raw_queued e mc s d s0 fuel pre outs s1 : run e (initialize_macraw mc) s = (Done (Ok d), s0) -> run e (run_raw fuel d pre) s0 = (Done outs, s1) ->
  d = raw0 /\ queued (NetFacts.pending (sk 0 s1)) (sk 0 s1).
Proof.
  intros R0 R1. destruct (initialize_macraw_up e mc s d s0 R0) as (-> & (x & E0) & _). split; [reflexivity|]. split; [|apply grows_self].
  assert (W : rxw (sk 0 s0)).
  { unfold sk. rewrite E0. split; [right; right; right; right; reflexivity|]. split; apply N.mod_lt; discriminate. }
  pose proof (run_mild (size_safe 0) e 0 rxw (rxw_ev 0) (fun c blk ad v => rxw_wr 0 c blk ad v eq_refl) (run_raw fuel raw0 pre)
    (mild_run_raw _ fuel pre (proj2 (Forall_forall _ _) (fun o _ => size_raw fuel o))) s0 W) as W'. now rewrite R1 in W'.
Qed.
Lemma raw_keeps e fuel ops s oc s' p : Forall (fun o => forall f, o <> RwRead f) ops -> run e (run_raw fuel raw0 ops) s = (oc, s') -> queued p (sk 0 s) -> queued p (sk 0 s').
Proof.
  intros F R Q. pose proof (run_mild (rx_safe 0) e 0 (queued p) (queued_ev p 0) (fun c blk ad v => queued_wr p 0 c blk ad v eq_refl) (run_raw fuel raw0 ops)) as K.
  specialize (K (mild_run_raw _ fuel ops (Forall_impl _ (fun o H => safe_raw fuel o H) F)) s Q). now rewrite R in K.
Qed.
