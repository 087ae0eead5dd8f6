(** Where the bytes that leave a socket come from, for whole programs; bus errors included. *)
From Verif Require Export PipeSend.
From Verif Require Import TcpSession FrameFacts ErrorFacts ProgFacts Datasheet HistoryFacts InitFacts RawSession RawHistory.

(** [w]: the bytes a call added to what socket [i] may send.  A sending call on a handle of that
    socket adds a prefix of its argument: the prefix it reports if it succeeds, all of it for the
    calls that report no number; every other call adds nothing. *)
Definition on_socket (i : N) (a : History.app) (h : nat) : Prop :=
  exists x, lookup h (handles a) = Some x /\ index (handle_socket x) = i.
Definition prefix (w d : list byte) : Prop := exists t, d = w ++ t.
Definition gives (i : N) (a : History.app) (o : op) (oc : outcome (History.app * out)) (w : list byte) : Prop :=
  match o with
  | OpTcpSend h d =>
      (on_socket i a h /\ prefix w d \/ w = []) /\
      forall a' n, oc = Done (a', RTcpSend (Ok n)) -> on_socket i a h -> w = take n d /\ len w = n
  | OpUdpSend h d | OpUdpSendTo h _ d =>
      (on_socket i a h /\ prefix w d \/ w = []) /\
      forall a', oc = Done (a', RUdpSend (Ok tt)) -> on_socket i a h -> w = d
  | _ => w = []
  end.
Lemma prefix_take n (d : list byte) : prefix (take n d) d.
Proof. exists (drop n d). symmetry. apply take_drop. Qed.

Lemma on_socket_dec i a o : (exists h, op_handle o = Some h /\ on_socket i a h) \/ (forall h, op_handle o = Some h -> ~ on_socket i a h).
Proof.
  destruct (op_handle o) as [h|]; [|right; discriminate].
  destruct (lookup h (handles a)) as [x|] eqn:L.
  - destruct (N.eq_dec (index (handle_socket x)) i) as [E|E].
    + left. exists h. split; [reflexivity|]. exists x. auto.
    + right. intros h' [= <-] (y & Ly & Ey). congruence.
  - right. intros h' [= <-] (y & Ly & _). congruence.
Qed.

(** a call on another socket, or on none, writes nothing that matters to socket [i] *)
Lemma step_other lossy i fuel a o : i < 8 -> pool_inv a -> (forall h, op_handle o = Some h -> ~ on_socket i a h) ->
  mild (harmless lossy i) (step fuel a o).
Proof.
  intros Hi I Ho. destruct (op_handle o) as [h|] eqn:E.
  - apply mild_spares. destruct (lookup h (handles a)) as [y|] eqn:L.
    + destruct (pi_lookup _ _ _ I L) as (j & Hj & Ej & _).
      assert (Hij : i <> j).
      { intros ->. apply (Ho h eq_refl). exists y. split; [exact L|]. rewrite Ej. reflexivity. }
      eapply spares_ptree; [exact Hij| |exact (pt_step fuel a o I)].
      intros blk ad. unfold step_blk. rewrite E. intros (z & Lz & S). rewrite L in Lz. injection Lz as <-.
      rewrite Ej in S. now apply (sblk_own j blk ad).
    + destruct o; cbn [op_handle] in E; try discriminate E; injection E as ->; cbn [step]; rewrite ?L; exact Logic.I.
  - destruct o; cbn [op_handle] in E; try discriminate E; cbn [step];
      repeat match goal with |- mild _ (match ?q with _ => _ end) => destruct q end; try exact Logic.I.
    apply mild_bind; [|intros; exact Logic.I]. now apply (mild_devop lossy i i).
Qed.
Lemma gives_none i a o oc : (forall h, op_handle o = Some h -> ~ on_socket i a h) -> gives i a o oc [].
Proof.
  intros H. destruct o; cbn [gives op_handle] in *; try reflexivity;
    (split; [now right|]; intros; exfalso; eapply H; [reflexivity|eassumption]).
Qed.

(** programs that leave the write pointer of raw handles alone *)
Definition no_raw_pointer (o : op) : Prop := forall h p, o <> OpSocket h (KSetTxWrite p).

  (** a call that sends nothing and may do anything else to the socket *)
  Lemma mild_step i fuel a o h : pool_inv a -> op_handle o = Some h -> on_socket i a h -> no_raw_pointer o ->
    (forall d, o <> OpTcpSend h d) -> (forall d, o <> OpUdpSend h d) -> (forall r d, o <> OpUdpSendTo h r d) ->
    mild (harmless true i) (step fuel a o).
  Proof.
    intros I E (x & L & Ex) NR N1 N2 N3. destruct (pi_lookup _ _ _ I L) as (j & Hj & Ej & _).
    rewrite Ej in Ex. cbn [index socket_new] in Ex. subst j.
    destruct o as [|h'| |h' r|h' d|h' b|h'| |h' r|h' pt|h' d|h' r d|h' b|h'|h'| |q|h' pt|h' q]; cbn [op_handle] in E; try discriminate E; injection E as ->;
      try (now contradiction (N1 d)); try (now contradiction (N2 d)); try (now contradiction (N3 r d));
      cbn [step]; rewrite ?L; try exact Logic.I;
      destruct x as [sx|[sx]|[sx dst prt]]; cbn [handle_socket t_socket u_socket] in Ej; try exact Logic.I; rewrite Ej.
    - destruct (release_socket (dev a) (socket_new i)); exact Logic.I.
    - apply mild_bind; [|intros; exact Logic.I]. now apply mild_tcp_connect.
    - apply mild_bind; [|intros; exact Logic.I]. now apply mild_tcp_receive.
    - apply mild_bind; [|intros; exact Logic.I]. now apply mild_tcp_close.
    - apply mild_bind; [|intros; exact Logic.I]. now apply mild_udp_connect.
    - apply mild_bind; [|intros; exact Logic.I]. now apply mild_udp_bind.
    - apply mild_bind; [|intros; exact Logic.I]. now apply mild_udp_receive.
    - apply mild_bind; [|intros; exact Logic.I]. now apply mild_udp_close.
    - apply mild_bind; [|intros; exact Logic.I]. now apply mild_udp_set_port.
    - apply mild_bind; [|intros; exact Logic.I]. apply mild_sockop; auto. intros p ->. now apply (NR h p).
  Qed.

(** a sending call on the socket *)
Definition sends (o : op) (h : nat) : Prop :=
  (exists d, o = OpTcpSend h d) \/ (exists d, o = OpUdpSend h d) \/ (exists r d, o = OpUdpSendTo h r d).
Lemma sends_dec o h : sends o h \/ (forall d, o <> OpTcpSend h d) /\ (forall d, o <> OpUdpSend h d) /\ (forall r d, o <> OpUdpSendTo h r d).
Proof.
  unfold sends. destruct o as [|h'| |h' r|h' d|h' b|h'| |h' r|h' pt|h' d|h' r d|h' b|h'|h'| |q|h' pt|h' q]; try (right; repeat split; discriminate);
    (destruct (Nat.eq_dec h' h) as [->|N]; [left; eauto 6|right; repeat split; congruence]).
Qed.
Definition grew lossy S0 i C a o (oc : outcome (History.app * out)) (s' : sys) : Prop :=
  exists w, gives i a o oc w /\ pipe lossy S0 (C ++ w) (sk i s').
Lemma grew_none lossy S0 i C a o oc s' : gives i a o oc [] -> pipe lossy S0 C (sk i s') -> grew lossy S0 i C a o oc s'.
Proof. intros G P. exists []. rewrite app_nil_r. auto. Qed.

Section Grow.
  Context (lossy : bool) (S0 : list packet) (e : env) (i : N) (Hi : i < 8) (WP : whole_pairs e).
  Notation s_ := (socket_new i).
  Notation gr := (grew lossy S0 i).

  Lemma step_sends C fuel a o h s : pool_inv a -> sends o h -> on_socket i a h -> pipe lossy S0 C (sk i s) ->
    wp e (step fuel a o) (gr C a o) s.
  Proof.
    intros I Ho OS P. pose proof OS as (x & L & Ex). destruct (pi_lookup _ _ _ I L) as (j & Hj & Ej & _).
    rewrite Ej in Ex. cbn [index socket_new] in Ex. subst j.
    assert (Z : forall d, (on_socket i a h /\ prefix [] d \/ (@nil byte) = [])) by (intros; now right).
    destruct Ho as [(d & ->)|[(d & ->)|(r & d & ->)]]; cbn [step]; rewrite L;
      destruct x as [sx|[sx]|[sx dst prt]]; cbn [handle_socket t_socket u_socket] in Ej;
      try (apply wp_ret, grew_none; [split; [now right|discriminate]|exact P]); rewrite Ej.
    - apply wp_bind. apply (wp_mono e _ (added lossy S0 i C d)); [|now apply PipeSend.wp_tcp_send].
      intros oc s1 (n & Ln & P1 & H). destruct oc as [r|z| |]; cbn [cast]; try apply wp_ret; exists (take n d);
        (split; [|exact P1]); (split; [left; split; [exact OS|apply prefix_take]|]); try discriminate.
      intros a' m [= <- ->] _. rewrite (H m eq_refl). split; [reflexivity|]. rewrite len_take. lia.
    - apply wp_bind. apply (wp_mono e _ (added_unit lossy S0 i C d)); [|now apply PipeSend.wp_udp_send].
      intros oc s1 (n & Ln & P1 & H). destruct oc as [r|z| |]; cbn [cast]; try apply wp_ret; exists (take n d);
        (split; [|exact P1]); (split; [left; split; [exact OS|apply prefix_take]|]); try discriminate.
      intros a' [= <- ->] _. now apply H.
    - apply wp_bind. eapply wp_mono; [|now apply (PipeSend.wp_udp_send_to lossy S0 e i Hi WP C)].
      intros oc s1 (n & Ln & P1 & H). destruct oc as [[u r']|z| |]; cbn [cast]; try apply wp_ret; exists (take n d);
        (split; [|exact P1]); (split; [left; split; [exact OS|apply prefix_take]|]); try discriminate.
      cbn [fst snd]. intros a' [= <- ->] _. now apply (H u).
  Qed.
  Lemma step_mild C fuel a o s : gives i a o (fst (run e (step fuel a o) s)) [] ->
    mild (harmless lossy i) (step fuel a o) -> pipe lossy S0 C (sk i s) -> wp e (step fuel a o) (gr C a o) s.
  Proof. intros G M P. unfold wp. apply grew_none; [exact G|]. now apply run_pipe. Qed.
End Grow.

(** every call, losses allowed *)
Lemma step_grow S0 e i C fuel a o s : i < 8 -> whole_pairs e -> pool_inv a -> no_raw_pointer o -> pipe true S0 C (sk i s) ->
  wp e (step fuel a o) (grew true S0 i C a o) s.
Proof.
  intros Hi WP I NR P. destruct (on_socket_dec i a o) as [(h & E & OS)|No].
  - destruct (sends_dec o h) as [Se|(N1 & N2 & N3)]; [now apply (step_sends true S0 e i Hi WP C fuel a o h)|].
    apply step_mild; [|now apply (mild_step i fuel a o h)|exact P].
    destruct o; cbn [gives]; try reflexivity; cbn [op_handle] in E; injection E as ->;
      exfalso; [eapply N1|eapply N2|eapply N3]; reflexivity.
  - apply step_mild; [now apply gives_none|now apply step_other|exact P].
Qed.
(** calls that do not open the socket again: nothing is lost *)
Lemma step_grow_tcp S0 e i C fuel a o s h : i < 8 -> whole_pairs e -> pool_inv a ->
  lookup h (handles a) = Some (HTcp (mkTcp (socket_new i))) -> (forall r, o <> OpTcpConnect h r) -> pipe false S0 C (sk i s) ->
  wp e (step fuel a o) (grew false S0 i C a o) s.
Proof.
  intros Hi WP I L NC P. assert (OS : on_socket i a h) by (eexists; split; [exact L|reflexivity]).
  destruct (on_socket_dec i a o) as [(h' & E & (y & Ly & Ey))|No].
  2: { apply step_mild; [now apply gives_none|now apply step_other|exact P]. }
  assert (h' = h).
  { destruct (Nat.eq_dec h h') as [|N]; [congruence|]. exfalso. apply (handle_index a h h' _ _ I L Ly N). now rewrite Ey. }
  subst h'. rewrite L in Ly. injection Ly as <-. clear Ey.
  destruct (sends_dec o h) as [Se|(N1 & N2 & N3)]; [now apply (step_sends false S0 e i Hi WP C fuel a o h)|].
  destruct o as [|h'| |h' r|h' d|h' b|h'| |h' r|h' pt|h' d|h' r d|h' b|h'|h'| |q|h' pt|h' q]; cbn [op_handle] in E; try discriminate E; injection E as ->;
    try (now contradiction (N1 d)); try (now contradiction (N2 d)); try (now contradiction (N3 r d)); try (now contradiction (NC r));
    (apply step_mild; [reflexivity| |exact P]); cbn [step]; rewrite ?L; try exact Logic.I;
    (apply mild_bind; [|intros; exact Logic.I]); [now apply mild_tcp_receive|now apply mild_tcp_close].
Qed.

(** ** Programs *)
(** a program from [a], [s]: each call with the application state it started in and its result *)
Inductive trace (e : env) (fuel : nat) : History.app -> sys -> list (History.app * op * out) -> History.app -> sys -> Prop :=
| tr_nil a s : trace e fuel a s [] a s
| tr_call a s o a1 r s1 tr a' s' : run e (step fuel a o) s = (Done (a1, r), s1) -> trace e fuel a1 s1 tr a' s' ->
    trace e fuel a s ((a, o, r) :: tr) a' s'.
(** the calls of a [run_ops] that ends, as such a list, and back *)
Lemma trace_of_run e fuel : forall ops a s a' outs s', run e (run_ops fuel a ops) s = (Done (a', outs), s') ->
  exists tr, trace e fuel a s tr a' s' /\ map (fun c => snd (fst c)) tr = ops /\ map snd tr = outs.
Proof.
  induction ops as [|o ops IH]; intros a s a' outs s' R; cbn [run_ops] in R.
  - injection R as <- <- <-. exists []. repeat split. constructor.
  - apply run_bind_done in R as ([a1 o1] & s1 & R1 & R). apply run_bind_done in R as ([a2 o2] & s2 & R2 & R).
    cbn [run fst snd] in *. injection R as <- <- <-. destruct (IH _ _ _ _ _ R2) as (tr & T & E1 & E2).
    exists ((a, o, o1) :: tr). cbn [map fst snd]. rewrite E1, E2. repeat split. econstructor; eassumption.
Qed.
Lemma run_of_trace e fuel tr a s a' s' : trace e fuel a s tr a' s' ->
  run e (run_ops fuel a (map (fun c => snd (fst c)) tr)) s = (Done (a', map snd tr), s').
Proof.
  induction 1 as [|a s o a1 r s1 tr a' s' R T IH]; [reflexivity|]. cbn [map fst snd run_ops].
  rewrite run_bind, R. cbn [fst snd]. rewrite run_bind, IH. reflexivity.
Qed.
Lemma trace_pool e fuel tr a s a' s' : trace e fuel a s tr a' s' -> pool_inv a -> pool_inv a'.
Proof. induction 1 as [|a s o a1 r s1 tr a' s' R T IH]; intros I; [exact I|]. apply IH. now apply (run_step_inv e fuel a o s a1 r s1). Qed.

Definition gave (i : N) (c : History.app * op * out) (w : list byte) : Prop :=
  exists a', gives i (fst (fst c)) (snd (fst c)) (Done (a', snd c)) w.
Lemma trace_grow S0 e i fuel : i < 8 -> whole_pairs e -> forall tr a s a' s', trace e fuel a s tr a' s' ->
  pool_inv a -> Forall (fun c => no_raw_pointer (snd (fst c))) tr -> forall C, pipe true S0 C (sk i s) ->
  exists ws, Forall2 (gave i) tr ws /\ pipe true S0 (C ++ concat ws) (sk i s').
Proof.
  intros Hi WP tr a s a' s' T. induction T as [|a s o a1 r s1 tr a' s' R T IH]; intros I NR C P.
  - exists []. rewrite app_nil_r. auto.
  - inversion NR as [|? ? NR1 NR2]; subst. cbn [fst snd] in NR1.
    pose proof (wp_run e _ _ s _ _ R (step_grow S0 e i C fuel a o s Hi WP I NR1 P)) as (w & G & P1).
    destruct (IH (run_step_inv e fuel a o s a1 r s1 I R) NR2 _ P1) as (ws & F & P2).
    exists (w :: ws). split; [constructor; [exists a1; exact G|exact F]|]. cbn [concat]. now rewrite app_assoc.
Qed.
Lemma trace_grow_tcp S0 e i fuel h : i < 8 -> whole_pairs e -> forall tr a s a' s', trace e fuel a s tr a' s' ->
  pool_inv a -> lookup h (handles a) = Some (HTcp (mkTcp (socket_new i))) ->
  Forall (fun c => op_handle (snd (fst c)) = Some h -> (exists d, snd (fst c) = OpTcpSend h d) \/ (exists b, snd (fst c) = OpTcpReceive h b)) tr ->
  forall C, pipe false S0 C (sk i s) ->
  lookup h (handles a') = Some (HTcp (mkTcp (socket_new i))) /\
  exists ws, Forall2 (gave i) tr ws /\ pipe false S0 (C ++ concat ws) (sk i s').
Proof.
  intros Hi WP tr a s a' s' T. induction T as [|a s o a1 r s1 tr a' s' R T IH]; intros I L K C P.
  - split; [exact L|]. exists []. rewrite app_nil_r. auto.
  - inversion K as [|? ? K1 K2]; subst. cbn [fst snd] in K1.
    assert (NC : forall rr, o <> OpTcpConnect h rr).
    { intros rr ->. destruct (K1 eq_refl) as [(d & [=])|(b & [=])]. }
    pose proof (wp_run e _ _ s _ _ R (step_grow_tcp S0 e i C fuel a o s h Hi WP I L NC P)) as (w & G & P1).
    assert (L1 : lookup h (handles a1) = Some (HTcp (mkTcp (socket_new i)))).
    { assert (Dec : op_handle o = Some h \/ op_handle o <> Some h).
      { destruct (op_handle o) as [h'|]; [|right; discriminate]. destruct (Nat.eq_dec h' h) as [->|]; [left; reflexivity|right; congruence]. }
      destruct Dec as [E|E]; [|now apply (step_lookup e fuel a o s a1 r s1)].
      destruct (K1 E) as [(d & ->)|(b & ->)]; cbn [step] in R; rewrite L in R; apply run_bind_done in R as (res & s2 & R1 & R);
        cbn [run] in R; injection R as <- <- <-; exact L. }
    destruct (IH (run_step_inv e fuel a o s a1 r s1 I R) L1 K2 _ P1) as (L2 & ws & F & P2).
    split; [exact L2|]. exists (w :: ws). split; [constructor; [exists a1; exact G|exact F]|]. cbn [concat]. now rewrite app_assoc.
Qed.

(** ** Where a program starts *)
Lemma pipe_start lossy y : shut y -> valid_size (tx_size y) -> (lossy = true \/ (sr y <> SOCK_UDP /\ sr y <> SOCK_MACRAW)) ->
  pipe lossy (sent y) [] y.
Proof.
  intros Sh V T. split; [exact V|]. split; [exact T|]. exists [], [], []. rewrite app_nil_r.
  split; [reflexivity|]. split; [constructor|]. split; [reflexivity|]. now left.
Qed.
Lemma pipe_empty lossy y : txv y -> tx_rd y = tx_wr y ->
  (lossy = true \/ (sr y <> SOCK_UDP /\ sr y <> SOCK_MACRAW)) -> pipe lossy (sent y) [] y.
Proof.
  intros (V & B1 & B2 & B3 & B4 & B5) E T. split; [exact V|]. split; [exact T|]. exists [], [], []. rewrite app_nil_r.
  split; [reflexivity|]. split; [constructor|]. split; [reflexivity|]. right. pose proof (tx_wr_lt y) as L.
  split; [repeat split; assumption|]. split; [lia|]. unfold rem. rewrite E, sub16_self by exact L. reflexivity.
Qed.
Lemma spares_write_if i b ad d c c' k : 0 < ad -> ad + len d <= 65536 -> (forall c, spares i (k c)) -> spares i (write_if b ad d c c' k).
Proof.
  intros H1 H2 Hk. unfold write_if. destruct b; [|apply Hk]. apply spares_bind; [|intros [u|x]; [apply Hk|exact I]].
  cbn. split; [|intros []; exact I]. right. split; [reflexivity|]. now right.
Qed.
Lemma spares_refresh i h : spares i (refresh h).
Proof.
  destruct h as [[] st c|]; cbn [refresh]; try exact I. apply spares_bind; [|intros; exact I]. unfold write_settings.
  repeat (apply spares_write_if; [reflexivity|rewrite ?(proj1 (octets_len _)), ?(proj1 (mac_octets_len _)); now vm_compute|intros]). exact I.
Qed.
Lemma init_start e assertion ho m s00 d s0 i : run e (initialize_with_host assertion ho m) s00 = (Done (Ok d), s0) ->
  pool_inv (mkApp d [] 0) /\ shut (sk i s0) /\ valid_size (tx_size (sk i s0)).
Proof.
  intros R. apply run_init in R as (s1 & c & h' & _ & _ & _ & Hs & R & ->). split; [apply pool_inv_new|].
  pose proof (run_spares e i _ (spares_refresh i ho) s1) as N1. rewrite R in N1. cbn [snd] in N1.
  assert (E : sk i s0 = sock_reset (socks c i)).
  { refine (sevs_inv i (fun x => x = sock_reset (socks c i)) _ _ _ N1 (Hs i)). intros x ev _ ->. apply reset_still. }
  rewrite E. split; [split; reflexivity|]. right. left. reflexivity.
Qed.

(** a successful connect leaves an empty buffer, in a TCP state, aimed at the peer *)
Lemma connect_pipe e fuel h i r a0 s0 s1 : i < 8 -> lookup h (handles a0) = Some (HTcp (mkTcp (socket_new i))) ->
  valid_size (tx_size (sk i s0)) -> valid_size (rx_size (sk i s0)) -> a_port r < 65536 ->
  run e (step fuel a0 (OpTcpConnect h (V4 r))) s0 = (Done (a0, RTcpConnect (Ok tt)), s1) ->
  pipe false (sent (sk i s1)) [] (sk i s1) /\ toward i r (regs (sk i s1)).
Proof.
  intros Hi L Vt Vr Hr R. pose proof (connect_starts e fuel h i r a0 s0 s1 Hi L Vt Vr Hr R) as (Rd & _ & U & T & _).
  split; [|exact T].
  apply run_step_nofail in R; [|reflexivity]. pose proof (nofail_no_faults e) as NF.
  cbn [step] in R. rewrite L in R. apply run_bind_done in R as (res & s2 & R1 & R). cbn [run] in R. injection R as _ <-.
  assert (F : fresh_sock (sk i s2) /\ (sr (sk i s2) = SOCK_ESTABLISHED \/ sr (sk i s2) = SOCK_INIT)).
  { refine (wp_run (nofail e) _ (fun o s' => forall v, o = Done v -> fresh_sock (sk i s') /\ (sr (sk i s') = SOCK_ESTABLISHED \/ sr (sk i s') = SOCK_INIT)) s0 (Done res) s2 R1 _ res eq_refl).
    apply wp_tcp_connect; auto. intros x s' N1. cbv zeta.
    destruct (sevs_wr _ _ _ N1) as (_ & Z1 & _ & Z2).
    pose proof (fresh_dialled i r x ltac:(now rewrite Z1) ltac:(now rewrite Z2)) as F.
    assert (Zd : valid_size (tx_size (dial_state i r x)) /\ valid_size (rx_size (dial_state i r x))) by (split; apply F).
    generalize dependent (dial_state i r x). intros y F [Zy1 Zy2]. split; [|split].
    - intros N2 Es v _. split; [now apply (fresh_sevs i y)|now left].
    - intros z _ _ Rz v _. split; [now apply (fresh_reopened y)|right]. destruct Rz as (u & -> & _). reflexivity.
    - intros _ v. discriminate. }
  destruct F as (((V & _) & _ & _ & E2 & _) & Sr).
  apply pipe_empty; [exact V|congruence|]. right. destruct Sr as [-> | ->]; split; discriminate.
Qed.

(** ** To whom it is sent *)
(** everything sent since [S0] went to the peer, and so will what follows *)
Definition aimed (S0 : list packet) (i : N) (r : addr4) (x : sock) : Prop :=
  exists l, sent x = S0 ++ l /\ Forall (to_peer i r) l /\ (shut x \/ toward i r (regs x)).
Definition aim_safe (i blk a : N) (v : byte) : Prop :=
  blk = BSB_REG i -> (a < Sn_PORT \/ 0x12 <= a) /\ (a = Sn_CR -> b2n v <> CR_OPEN /\ b2n v <> CR_CONNECT).

Lemma aimed_step S0 i r x ev : aimed S0 i r x -> aimed S0 i r (sock_step x ev).
Proof.
  intros (l & E & F & T).
  assert (R : regs (sock_step x ev) = regs x) by (ev_cases ev; auto).
  assert (Sh : shut x \/ toward i r (regs x) -> shut (sock_step x ev) \/ toward i r (regs (sock_step x ev))).
  { intros [Sh|A]; [left; now apply shut_step|right; now rewrite R]. }
  assert (Se : sent (sock_step x ev) = sent x \/ (tx_busy x = true /\ exists p, sent (sock_step x ev) = sent x ++ [p] /\ addressed (regs x) p)).
  { destruct (tx_busy x) eqn:B; ev_cases ev; auto; try congruence; right; (split; [reflexivity|]); eexists; (split; [reflexivity|]); repeat split. }
  destruct Se as [Se|(B & p & Se & A)].
  - exists l. rewrite Se. auto.
  - exists (l ++ [p]). rewrite Se, E, app_assoc. split; [reflexivity|]. split; [|auto]. apply Forall_app. split; [exact F|].
    constructor; [|constructor]. destruct T as [(_ & Sh0)|T]; [congruence|]. now apply (toward_addressed i r (regs x)).
Qed.
Lemma aimed_same S0 i r x x' : sent x' = sent x -> (shut x -> shut x') -> (toward i r (regs x) -> toward i r (regs x')) ->
  aimed S0 i r x -> aimed S0 i r x'.
Proof. intros E H1 H2 (l & El & F & T). exists l. rewrite E. split; [exact El|]. split; [exact F|]. destruct T; auto. Qed.
Lemma aimed_command S0 i r j x c : c <> CR_OPEN -> c <> CR_CONNECT -> aimed S0 i r x -> aimed S0 i r (do_command j x c).
Proof.
  intros N1 N2. apply N.eqb_neq in N1, N2. unfold do_command. rewrite N1, N2.
  destruct (c =? CR_LISTEN); [destruct (sr x =? SOCK_INIT) eqn:Ei; [|auto]; apply aimed_same; auto; intros (Sc & _); rewrite Sc in Ei; discriminate Ei|].
  destruct (c =? CR_DISCON).
  { destruct (sr x =? SOCK_ESTABLISHED) eqn:Ei; [|destruct (sr x =? SOCK_CLOSE_WAIT) eqn:Ej; [|auto]]; apply aimed_same; auto;
      intros (Sc & _); rewrite Sc in *; discriminate. }
  destruct (c =? CR_CLOSE); [apply aimed_same; auto; intros _; split; reflexivity|].
  destruct (c =? CR_SEND); [destruct (is_sending_state (sr x)) eqn:Is; [|auto]; apply aimed_same; auto; intros (Sc & _); rewrite Sc in Is; discriminate Is|].
  destruct (c =? CR_RECV); [|auto]. apply aimed_same; auto.
Qed.
Lemma aimed_wbyte S0 i r c blk a v : aim_safe i blk a v -> aimed S0 i r (socks c i) -> aimed S0 i r (socks (wbyte c blk a v) i).
Proof.
  intros H A. unfold wbyte. destruct (N.eqb_spec blk 0) as [-> |Hb].
  { destruct (a =? MR); [|now destruct (a =? VERSIONR)]. destruct (N.testbit (b2n v) 7); [|exact A].
    cbn [chip_reset socks]. destruct A as (l & E & F & _). exists l. split; [exact E|]. split; [exact F|]. left. split; reflexivity. }
  cbv zeta. destruct (N.eq_dec (blk / 4) i) as [Ei|Ei].
  2: { assert (S : forall x, socks (set_sock c (blk / 4) x) i = socks c i).
       { intros x. unfold set_sock. cbn [socks]. destruct (N.eqb_spec i (blk / 4)); [congruence|reflexivity]. }
       destruct (blk mod 4) as [|[[[]|[]|]|[[]|[]|]|]]; rewrite ?S; try exact A;
         match goal with |- context [if ?b then _ else _] => destruct b end; rewrite ?S; exact A. }
  rewrite Ei. assert (S : forall x, socks (set_sock c i x) i = x).
  { intros x. unfold set_sock. cbn [socks]. now rewrite N.eqb_refl. }
  destruct (blk_cases i blk Hb Ei) as [(Em & Eb)|[(Em & _)|[(Em & _)|Em]]]; rewrite Em; rewrite ?S; [| | |exact A].
  - destruct (H Eb) as (Ha & Hc). unfold sock_wr. destruct (N.eqb_spec a Sn_CR) as [Ea|_]; [destruct (Hc Ea); now apply aimed_command|].
    destruct (a =? Sn_IR); [revert A; apply aimed_same; auto|]. destruct (read_only a); [exact A|].
    revert A. apply aimed_same; auto. apply toward_ext. intros a' Ha'. unfold upd. sfields. destruct (N.eqb_spec a' a); [|reflexivity].
    unfold Sn_PORT in *. lia.
  - destruct (tx_size (socks c i) =? 0); rewrite ?S; [exact A|]. revert A. apply aimed_same; auto.
  - destruct (rx_size (socks c i) =? 0); rewrite ?S; [exact A|]. revert A. apply aimed_same; auto.
Qed.
Lemma run_aimed {A} S0 e i r (p : prog A) s : mild (aim_safe i) p -> aimed S0 i r (sk i s) -> aimed S0 i r (sk i (snd (run e p s))).
Proof.
  intros H. apply (run_mild (aim_safe i) e i (aimed S0 i r)); [| |exact H].
  - intros x ev _. apply aimed_step.
  - intros c blk a v. apply aimed_wbyte.
Qed.
Lemma aim_spares {A} i (p : prog A) : spares i p -> mild (aim_safe i) p.
Proof.
  induction p as [a|w| |b a d k IH|b a d k IH]; cbn; intros H; auto. destruct H as [Hw H]. split; [|auto].
  apply each_all. intros a' v E. exfalso. destruct Hw as [(H1 & H2)|(-> & _)].
  - apply H2. rewrite E. now destruct (blk_reg i) as (_ & -> & _).
  - unfold BSB_REG in E. lia.
Qed.

Section Aim.
  Context (i : N) (Hi : i < 8).
  Notation M := (mild (aim_safe i)).
  Notation s := (socket_new i).
  Lemma aim_reg a v : (a < Sn_PORT \/ 0x12 <= a) -> a <> Sn_CR -> aim_safe i (BSB_REG i) a v.
  Proof. intros H1 H2 _. split; [exact H1|]. intros E. contradiction. Qed.
  Lemma aim_read blk a n : M (read_reg blk a n).
  Proof. cbn. intros got [u|er] _; exact I. Qed.
  Lemma aim_read_into blk a buf : M (read_into blk a buf).
  Proof. cbn. intros got [u|er] _; exact I. Qed.
  Lemma aim_read_then {R} blk a n (f : list byte -> R) : M (try d <- read_reg blk a n else Err ;; Ret (Ok (f d))).
  Proof. apply mild_try; [apply aim_read|]. intros d. exact I. Qed.
  Lemma aim_tx a d : M (write_frame (tx_buffer s) a d).
  Proof.
    unfold write_frame. cbn [mild]. rewrite so_tx by exact Hi. split; [|intros []; exact I]. apply each_all. intros a' v E.
    unfold BSB_TX, BSB_REG in E. lia.
  Qed.
  Lemma aim_command c : c <> CmOpen -> c <> CmConnect -> M (command s c).
  Proof.
    intros H1 H2. unfold command, write_frame. cbn [mild each]. rewrite so_reg by exact Hi. split; [|intros []; exact I]. split; [|exact I].
    intros _. split; [left; reflexivity|]. intros _. destruct c; try contradiction; split; discriminate.
  Qed.
  Lemma aim_wr1 a v : (a < Sn_PORT \/ 0x12 <= a) -> a <> Sn_CR -> M (write_frame (register s) a [v]).
  Proof.
    intros H1 H2. unfold write_frame. cbn [mild each]. rewrite so_reg by exact Hi. split; [|intros []; exact I]. split; [|exact I]. now apply aim_reg.
  Qed.
  Lemma aim_wr2 a v : 0x12 <= a -> a < 65535 -> M (write_frame (register s) a (to_be v)).
  Proof.
    intros H1 H2. unfold write_frame, to_be. cbn [mild each]. rewrite so_reg by exact Hi. split; [|intros []; exact I].
    assert (E : next_addr a = a + 1) by (unfold next_addr; rewrite N.mod_small by lia; reflexivity).
    split; [|split; [|exact I]]; apply aim_reg; unfold Sn_CR; rewrite ?E; try lia.
  Qed.
  Lemma aim_wait_send_ok fuel : M (wait_send_ok fuel s).
  Proof.
    induction fuel as [|fuel IH]; cbn [wait_send_ok]; [exact I|]. apply mild_try; [apply aim_read_then|]. intros [|]; [exact I|exact IH].
  Qed.
  Lemma aim_get_receive_size fuel : M (get_receive_size fuel s).
  Proof.
    induction fuel as [|fuel IH]; cbn [get_receive_size]; [exact I|]. apply mild_try; [apply aim_read|]. intros a.
    apply mild_try; [apply aim_read|]. intros b. destruct (bytes_eqb a b); [exact I|exact IH].
  Qed.
  Ltac m1 := first
    [ exact I | apply mild_ret | apply aim_read_then | apply aim_read | apply aim_read_into | apply aim_tx
    | apply aim_get_receive_size | apply aim_wait_send_ok
    | (apply aim_command; discriminate)
    | (apply aim_wr1; [first [left; reflexivity|right; discriminate]|discriminate])
    | (apply aim_wr2; [discriminate|reflexivity])
    | (apply mild_try; [|intros ?]) | (apply mild_bind; [|intros ?]) | (apply mild_slice_to; intros ?) | (apply mild_slice_from; intros ?)
    | match goal with
      | |- M (if ?b then _ else _) => destruct b
      | |- M (match ?b with _ => _ end) => destruct b
      end ].
  Ltac ms := repeat (cbv zeta; m1).
  Lemma aim_tcp_send fuel d : M (tcp_send fuel (mkTcp s) d).
  Proof. unfold tcp_send, tcp_socket_send, tcp_is_connected, tcp_send_data, t_socket. ms. Qed.
  Lemma aim_tcp_receive fuel d : M (tcp_receive fuel (mkTcp s) d).
  Proof. unfold tcp_receive, tcp_socket_receive, tcp_is_connected, tcp_receive_data, t_socket. ms. Qed.
  Lemma aim_tcp_close d : M (tcp_close d (mkTcp s)).
  Proof. unfold tcp_close, tcp_socket_close, t_socket. ms. Qed.
End Aim.
Lemma step_aim i fuel a o h : i < 8 -> pool_inv a -> lookup h (handles a) = Some (HTcp (mkTcp (socket_new i))) ->
  (forall r, o <> OpTcpConnect h r) -> mild (aim_safe i) (step fuel a o).
Proof.
  intros Hi I L NC.
  assert (Dec : op_handle o = Some h \/ op_handle o <> Some h).
  { destruct (op_handle o) as [h'|]; [|right; discriminate]. destruct (Nat.eq_dec h' h) as [->|]; [left; reflexivity|right; congruence]. }
  destruct Dec as [E|E].
  - destruct o as [|h'| |h' r|h' d|h' b|h'| |h' r|h' pt|h' d|h' r d|h' b|h'|h'| |q|h' pt|h' q]; cbn [op_handle] in E; try discriminate E; injection E as ->;
      try (now contradiction (NC r)); cbn [step]; rewrite ?L; try exact Logic.I; (apply mild_bind; [|intros; exact Logic.I]);
      [now apply aim_tcp_send|now apply aim_tcp_receive|now apply aim_tcp_close].
  - assert (D : o = OpDevice QResetDevice \/ o <> OpDevice QResetDevice).
    { destruct o; try (right; discriminate). destruct q; try (right; discriminate). now left. }
    destruct D as [-> |D]; [|eapply aim_spares, spares_step; eauto].
    cbn [step run_devop bind]. split; [|intros []; exact Logic.I]. apply each_all. intros a' v E'. unfold BSB_REG in E'. change COMMON with 0 in E'. lia.
Qed.
Lemma trace_aim S0 e i r fuel h : i < 8 -> forall tr a s a' s', trace e fuel a s tr a' s' ->
  pool_inv a -> lookup h (handles a) = Some (HTcp (mkTcp (socket_new i))) ->
  Forall (fun c => op_handle (snd (fst c)) = Some h -> (exists d, snd (fst c) = OpTcpSend h d) \/ (exists b, snd (fst c) = OpTcpReceive h b)) tr ->
  aimed S0 i r (sk i s) -> aimed S0 i r (sk i s').
Proof.
  intros Hi tr a s a' s' T. induction T as [|a s o a1 r1 s1 tr a' s' R T IH]; intros I L K A; [exact A|].
  inversion K as [|? ? K1 K2]; subst. cbn [fst snd] in K1.
  assert (NC : forall rr, o <> OpTcpConnect h rr).
  { intros rr ->. destruct (K1 eq_refl) as [(d & [=])|(b & [=])]. }
  assert (L1 : lookup h (handles a1) = Some (HTcp (mkTcp (socket_new i)))).
  { assert (Dec : op_handle o = Some h \/ op_handle o <> Some h).
    { destruct (op_handle o) as [h'|]; [|right; discriminate]. destruct (Nat.eq_dec h' h) as [->|]; [left; reflexivity|right; congruence]. }
    destruct Dec as [E|E]; [|now apply (step_lookup e fuel a o s a1 r1 s1)].
    destruct (K1 E) as [(d & ->)|(b & ->)]; cbn [step] in R; rewrite L in R; apply run_bind_done in R as (res & s2 & R1 & R);
      cbn [run] in R; injection R as <- <- <-; exact L. }
  apply IH; [now apply (run_step_inv e fuel a o s a1 r1 s1)|exact L1|exact K2|].
  pose proof (run_aimed S0 e i r _ s (step_aim i fuel a o h Hi I L NC) A) as A1. rewrite R in A1. exact A1.
Qed.

(** ** MACRAW *)
Definition raw_gives (o : rawop) (oc : outcome rawout) (w : list byte) : Prop :=
  match o with
  | RwWrite f => (w = [] \/ w = f) /\ forall n, oc = Done (RwSent (Ok n)) -> len w = n
  | _ => w = []
  end.
Section Raw.
  Context (S0 : list packet) (e : env) (WP : whole_pairs e).
  Notation pp := (pipe true S0).
  Notation s_ := (socket_new 0).
  Notation M := (mild (harmless true 0)).
  Let Hi : 0 < 8. Proof. reflexivity. Qed.

  Lemma wp_free_u16 C (Q : outcome (res N berr) -> sys -> Prop) s : pp C (sk 0 s) ->
    (forall v s1, v < 65536 -> flow true S0 C (tx_wr (sk 0 s1)) v (sk 0 s1) -> Q (Done (Ok v)) s1) ->
    (forall o s1, (forall v, o <> Done (Ok v)) -> pp C (sk 0 s1) -> Q o s1) ->
    wp e (get_tx_free_size s_) Q s.
  Proof.
    intros P K1 K2.
    assert (Lt : wp e (get_tx_free_size s_) (fun o _ => forall v, o = Done (Ok v) -> v < 65536) s).
    { unfold get_tx_free_size. apply wp_try. unfold read_reg, wp. cbn [run].
      pose proof (bus_read_length e (register s_) s_TX_FREE_SIZE (zeros 2) s) as L.
      destruct (bus_read e (register s_) s_TX_FREE_SIZE (zeros 2) s) as [[g []] s1]; cbn [fst snd run] in *; [|discriminate].
      intros v [= <-]. now apply from_be_lt. }
    assert (Fl : wp e (get_tx_free_size s_) (fun o s' => (exists v, o = Done (Ok v) /\ flow true S0 C (tx_wr (sk 0 s')) v (sk 0 s')) \/ (forall v, o <> Done (Ok v)) /\ pp C (sk 0 s')) s).
    { apply (wp_free true S0 e 0 Hi C); [exact P| |]; [intros; left; eauto|intros; right; auto]. }
    eapply wp_mono; [|exact (wp_and e _ _ _ s Lt Fl)].
    cbv beta. intros o s' (H1 & [(v & -> & F)|(Ho & P')]); auto.
  Qed.
  Lemma wp_raw_added C fuel f s : pp C (sk 0 s) ->
    wp e (raw_write_frame fuel raw0 f) (fun oc s' => exists w, raw_gives (RwWrite f) (match oc with Done r => Done (RwSent r) | oc => cast oc end) w /\ pp (C ++ w) (sk 0 s')) s.
  Proof.
    intros P. unfold raw_write_frame. cbn [raw_socket raw0].
    set (Q := fun oc s' => exists w, raw_gives (RwWrite f) (match oc with Done r => Done (RwSent r) | oc => cast oc end) w /\ pp (C ++ w) (sk 0 s')).
    assert (None : forall o s', (forall n, o <> Done (Ok n)) -> pp C (sk 0 s') -> Q o s').
    { intros o s' Ho P'. exists []. split; [|now rewrite app_nil_r]. split; [now left|]. intros n E. exfalso. destruct o; try discriminate E. now apply (Ho n); injection E as ->. }
    assert (Gave : forall o s' w, (w = [] \/ w = f) -> (forall n, o = Done (Ok n) -> len w = n) -> pp (C ++ w) (sk 0 s') -> Q o s').
    { intros o s' w Hw Ho P'. exists w. split; [|exact P']. split; [exact Hw|]. intros n E. destruct o; try discriminate E. apply Ho; injection E as ->; reflexivity. }
    apply (wp_try_pipe true S0 e 0 C); [now apply mild_reset_interrupt|exact P| |].
    { intros o s1 Ho P1. apply None; [|exact P1]. intros n E. destruct (Ho _ E) as (x & [=]). }
    intros u s1 P1. apply wp_try. unfold tx_new.
    apply wp_try, (wp_free_u16 C); [exact P1| |].
    2: { intros [[v|x]|z| |] s2 Ho P2; [now contradiction (Ho v)|..]; cbn [cast]; apply None; auto; discriminate. }
    intros v s2 Lv F. set (w := if (len f =? 0) || (v <? len f) then [] else f).
    assert (Lw : len w <= v) by (unfold w; destruct (len f =? 0), (N.ltb_spec v (len f)); cbn [orb]; change (len []) with 0; lia).
    apply wp_try, (wp_ptr true S0 e 0 Hi C w); [now apply (flow_less true S0 C _ v)| |].
    2: { intros [[q|x]|z| |] s3 Ho P3; [now contradiction (Ho q)|..]; cbn [cast]; apply None; auto; discriminate. }
    intros p s3 Hp St. apply wp_ret. cbv beta iota.
    assert (Hw : w = [] \/ w = f) by (unfold w; destruct (_ || _); auto).
    assert (Rest : forall s4, stage true S0 C p w (length w) (sk 0 s4) -> forall sz,
      wp e (try b <- tx_commit s_ (mkCursor ((p + len w) mod 65536) sz) else Err ;; try d <- wait_send_ok fuel s_ else Err ;; Ret (Ok (len w))) Q s4).
    { intros s4 St4 sz. unfold tx_commit. cbn [ptr]. apply wp_try, wp_try, (wp_setptr true S0 e 0 Hi WP C p w); [exact St4| |].
      2: { intros x s5 P5. apply None; [discriminate|exact P5]. }
      assert (K : forall s5, pp (C ++ w) (sk 0 s5) -> wp e (try v0 <- command s_ CmSend else Err ;; Ret (Ok tt)) (fun o s' => match o with
          | Done (Ok _) => wp e (try _ <- wait_send_ok fuel s_ else Err ;; Ret (Ok (len w))) Q s' | Done (Err x) => Q (Done (Err x)) s' | o => Q (cast o) s' end) s5).
      { intros s5 P5. apply (wp_try_pipe true S0 e 0 (C ++ w)); [apply mild_command; auto|exact P5| |].
        { intros [[b|x]|z| |] s6 Ho P6; cbn [cast]; try (now apply (Gave _ _ w)). destruct (Ho _ eq_refl) as (y & [=]). }
        intros b s6 P6. apply wp_ret. apply (wp_try_pipe true S0 e 0 (C ++ w)); [now apply mild_wait_send_ok|exact P6| |].
        { intros o s7 Ho P7. apply (Gave _ _ w); auto. intros n E. destruct (Ho _ E) as (x & [=]). }
        intros b' s7 P7. apply wp_ret, (Gave _ _ w); auto. congruence. }
      intros [[b|x]|z| |] s5 P5; cbn [cast]; try (now apply (Gave _ _ w)). now apply K. }
    apply wp_try. unfold tx_write. cbn [available size ptr]. fold w.
    assert (Ev : (len f =? 0) || (v <? len f) = true /\ w = [] \/ (len f =? 0) || (v <? len f) = false /\ w = f) by (unfold w; destruct (_ || _); auto).
    destruct Ev as [(-> & Ew)|(E & Ew)].
    - apply wp_ret. cbn [fst snd]. rewrite Ew in *.
      specialize (Rest s3 St v). rewrite N.add_0_r, N.mod_small in Rest by exact Hp. exact Rest.
    - rewrite E. bsplit. assert (Ec : as_u16 (len f) = len w) by (rewrite Ew; unfold as_u16; apply N.mod_small; lia). rewrite Ec.
      apply wp_slice_to; [|rewrite Ew; lia]. intros _. rewrite take_all by (rewrite Ew; lia).
      apply wp_try. rewrite <- Ew. apply (wp_txdata true S0 e 0 Hi C p w); [exact Hp|exact St| |].
      2: { intros x s4 P4. apply None; [discriminate|exact P4]. }
      intros s4 St4. destruct (N.ltb_spec v (len w)); [lia|]. apply wp_ret. cbn [fst snd]. unfold wadd16. now apply Rest.
  Qed.
  Lemma mild_raw_read fuel f : M (raw_read_frame fuel raw0 f).
  Proof.
    assert (Rd : forall c b, M (rx_read s_ c b)).
    { intros c b. unfold rx_read. destruct b as [|b0 b']; [exact I|]. apply mild_slice_to. intros x.
      apply mild_bind; [apply mild_read_into|]. intros [g [u|er]]; exact I. }
    assert (Cm : forall c, M (rx_commit s_ c)).
    { intros c. unfold rx_commit. apply mild_try; [now apply mild_set_rx_read_pointer|]. intros u.
      apply mild_try; [apply mild_command; auto|]. intros v. exact I. }
    unfold raw_read_frame. cbn [raw_socket raw0]. apply mild_try.
    { unfold rx_new. apply mild_try; [now apply mild_get_receive_size|]. intros sz. apply mild_try; [apply mild_read_then|]. intros p. exact I. }
    intros c. destruct (available c =? 0); [exact I|]. apply mild_bind; [apply Rd|]. intros [g [cn|er]]; cbn [fst snd]; [|exact I].
    destruct (snd cn =? 2); [|exact I]. unfold raw_read_body. apply mild_bind.
    { unfold rx_read_upto. destruct (_ <? _); [|apply Rd]. apply mild_slice_to. intros x. apply mild_bind; [apply Rd|]. intros y. exact I. }
    intros [g' [cn'|er]]; cbn [fst snd]; [|exact I]. apply mild_try; [apply Cm|]. intros u. exact I.
  Qed.
  Lemma raw_step_grow C fuel o s : pp C (sk 0 s) ->
    wp e (raw_step fuel raw0 o) (fun oc s' => exists w, raw_gives o oc w /\ pp (C ++ w) (sk 0 s')) s.
  Proof.
    intros P.
    assert (K : M (raw_step fuel raw0 o) -> (forall oc, raw_gives o oc []) ->
      wp e (raw_step fuel raw0 o) (fun oc s' => exists w, raw_gives o oc w /\ pp (C ++ w) (sk 0 s')) s).
    { intros Hm G. unfold wp. exists []. split; [apply G|]. rewrite app_nil_r. now apply run_pipe. }
    assert (Mi : forall v, M (set_interrupt_mask s_ v)) by (intros; now apply mild_set_interrupt_mask).
    destruct o as [w| | |f|f].
    - apply K; [|reflexivity]. cbn [raw_step]. apply mild_bind; [|intros; exact I]. unfold raw_enable_interrupts. cbn [raw_socket raw0].
      apply mild_try; [apply Mi|]. intros a. apply mild_try; [apply (mild_common true 0 0 Hi Hi)|]. intros b. exact I.
    - apply K; [|reflexivity]. cbn [raw_step]. apply mild_bind; [now apply mild_reset_interrupt|intros; exact I].
    - apply K; [|reflexivity]. cbn [raw_step]. apply mild_bind; [|intros; exact I]. unfold raw_disable_interrupts. cbn [raw_socket raw0].
      apply mild_try; [apply (mild_common true 0 0 Hi Hi)|]. intros a. apply mild_try; [apply Mi|]. intros b. exact I.
    - apply K; [|reflexivity]. cbn [raw_step]. apply mild_bind; [apply mild_raw_read|intros; exact I].
    - cbn [raw_step]. apply wp_bind. eapply wp_mono; [|exact (wp_raw_added C fuel f s P)].
      cbv beta. intros [r|z| |] s1 (w & G & P1); cbn [cast] in *; try apply wp_ret; eauto.
  Qed.
End Raw.
Inductive raw_trace (e : env) (fuel : nat) (d : RawDevice) : sys -> list (rawop * rawout) -> sys -> Prop :=
| rt_nil s : raw_trace e fuel d s [] s
| rt_call s o r s1 tr s' : run e (raw_step fuel d o) s = (Done r, s1) -> raw_trace e fuel d s1 tr s' ->
    raw_trace e fuel d s ((o, r) :: tr) s'.
Lemma raw_trace_grow S0 e fuel : whole_pairs e -> forall tr s s', raw_trace e fuel raw0 s tr s' ->
  forall C, pipe true S0 C (sk 0 s) ->
  exists ws, Forall2 (fun c w => raw_gives (fst c) (Done (snd c)) w) tr ws /\ pipe true S0 (C ++ concat ws) (sk 0 s').
Proof.
  intros WP tr s s' T. induction T as [|s o r s1 tr s' R T IH]; intros C P.
  - exists []. rewrite app_nil_r. auto.
  - pose proof (wp_run e _ _ s _ _ R (raw_step_grow S0 e WP C fuel o s P)) as (w & G & P1). cbv beta in *.
    destruct (IH _ P1) as (ws & F & P2). exists (w :: ws). split; [constructor; [exact G|exact F]|]. cbn [concat]. now rewrite app_assoc.
Qed.
Lemma raw_start e mc s0 d s1 : run e (initialize_macraw mc) s0 = (Done (Ok d), s1) ->
  d = raw0 /\ pipe true (sent (sk 0 s1)) [] (sk 0 s1).
Proof.
  intros R. destruct (initialize_macraw_up e mc s0 d s1 R) as (-> & Up). split; [reflexivity|].
  destruct (macraw_up_sess mc s1 Up) as (((_ & (_ & V & _ & E1 & E2 & E3) & _) & _) & _).
  pose proof (tx_wr_lt (sk 0 s1)) as L. apply pipe_empty; [|exact E1|now left].
  unfold txv. rewrite E1, E2, E3, sub16_self by exact L. repeat split; auto. lia.
Qed.
