(** Reasoning about driver computations run against the chip. *)
From Verif Require Export NetFacts SpiFacts.
From Verif Require Import Datasheet.

(** ** Network activity seen from one socket *)
Definition sk (i : N) (s : sys) : sock := socks (s_chip s) i.

Lemma nsteps_sock i : forall l c, exists l', Forall (fun ev => ev_sock ev = Some i) l' /\
  socks (nsteps c l) i = fold_left sock_step l' (socks c i).
Proof.
  induction l as [|ev l IH]; intros c; [exists []; split; [constructor|reflexivity]|].
  unfold nsteps in *. cbn [fold_left]. destruct (IH (nstep c ev)) as (l' & Hl & E). rewrite E. unfold nstep.
  destruct (ev_sock ev) as [n|] eqn:Ev.
  - unfold set_sock. cbn [socks]. destruct (N.eqb_spec i n) as [<-|Hne].
    + exists (ev :: l'). split; [constructor; auto|reflexivity].
    + exists l'. split; auto.
  - exists l'. split; auto. now destruct ev.
Qed.
Lemma nsteps_sevs i c l : sevs i (socks c i) (socks (nsteps c l) i).
Proof. destruct (nsteps_sock i l c) as (l' & H & E). exists l'. auto. Qed.
Lemma tick_sevs i e s : sevs i (sk i s) (sk i (tick e s)).
Proof. apply nsteps_sevs. Qed.

(** ** Weakest preconditions *)
Definition wp {A} (e : env) (p : prog A) (Q : outcome A -> sys -> Prop) (s : sys) : Prop :=
  Q (fst (run e p s)) (snd (run e p s)).

Definition cast {A B} (o : outcome A) : outcome B :=
  match o with Done _ => Cut | Panicked w => Panicked w | Looping => Looping | Cut => Cut end.

Lemma run_bind {A B} e (p : prog A) (f : A -> prog B) : forall s,
  run e (bind p f) s =
  match fst (run e p s) with
  | Done a => run e (f a) (snd (run e p s))
  | o => (cast o, snd (run e p s))
  end.
Proof.
  induction p as [a|w| |b a d k IH|b a d k IH]; intros s; cbn [bind run]; try reflexivity.
  - destruct (bus_read e b a d s) as [r s']. apply IH.
  - destruct (bus_write e b a d s) as [r s']. apply IH.
Qed.

Lemma wp_ret {A} e (a : A) (Q : outcome A -> sys -> Prop) s : Q (Done a) s -> wp e (Ret a) Q s.
Proof. intros H. exact H. Qed.
Lemma wp_bind {A B} e (p : prog A) (f : A -> prog B) Q s :
  wp e p (fun o s' => match o with Done a => wp e (f a) Q s' | o => Q (cast o) s' end) s ->
  wp e (bind p f) Q s.
Proof.
  unfold wp. rewrite run_bind. destruct (run e p s) as [o s']. cbn [fst snd]. destruct o; auto.
Qed.
Lemma wp_try {A E R} e (p : prog (res A E)) (h : E -> R) (k : A -> prog R) Q s :
  wp e p (fun o s' => match o with
     | Done (Ok a) => wp e (k a) Q s'
     | Done (Err x) => Q (Done (h x)) s'
     | o => Q (cast o) s' end) s ->
  wp e (try_ p h k) Q s.
Proof.
  intros H. unfold try_. apply wp_bind. unfold wp in *. destruct (run e p s) as [o s']. cbn [fst snd] in *.
  destruct o as [[a|x]| | |]; exact H.
Qed.
Lemma wp_mono {A} e (p : prog A) (Q Q' : outcome A -> sys -> Prop) s :
  (forall o s', Q o s' -> Q' o s') -> wp e p Q s -> wp e p Q' s.
Proof. unfold wp. auto. Qed.
Lemma wp_and {A} e (p : prog A) (Q Q' : outcome A -> sys -> Prop) s :
  wp e p Q s -> wp e p Q' s -> wp e p (fun o s' => Q o s' /\ Q' o s') s.
Proof. unfold wp. auto. Qed.
Lemma wp_run {A} e (p : prog A) Q s o s' : run e p s = (o, s') -> wp e p Q s -> Q o s'.
Proof. unfold wp. intros ->. auto. Qed.
Lemma wp_slice_to {R} e w n l (k : list byte -> prog R) Q s :
  (n <= len l -> wp e (k (take n l)) Q s) -> (len l < n -> Q (Panicked w) s) ->
  wp e (slice_to w n l k) Q s.
Proof.
  intros H1 H2. unfold slice_to. destruct (N.leb_spec n (len l)); [now apply H1|]. now apply H2.
Qed.
Lemma wp_slice_from {R} e w n l (k : list byte -> prog R) Q s :
  (n <= len l -> wp e (k (drop n l)) Q s) -> (len l < n -> Q (Panicked w) s) ->
  wp e (slice_from w n l k) Q s.
Proof.
  intros H1 H2. unfold slice_from. destruct (N.leb_spec n (len l)); [now apply H1|]. now apply H2.
Qed.

(** ** One bus access to a socket's blocks *)
Lemma blk_reg i : BSB_REG i =? 0 = false /\ BSB_REG i / 4 = i /\ BSB_REG i mod 4 = 1.
Proof. unfold BSB_REG. split; [apply N.eqb_neq; lia|]. split; lia. Qed.
Lemma blk_tx i : BSB_TX i =? 0 = false /\ BSB_TX i / 4 = i /\ BSB_TX i mod 4 = 2.
Proof. unfold BSB_TX. split; [apply N.eqb_neq; lia|]. split; lia. Qed.
Lemma blk_rx i : BSB_RX i =? 0 = false /\ BSB_RX i / 4 = i /\ BSB_RX i mod 4 = 3.
Proof. unfold BSB_RX. split; [apply N.eqb_neq; lia|]. split; lia. Qed.

Lemma rbyte_reg c i a : rbyte c (BSB_REG i) a = sock_rd (socks c i) a.
Proof. unfold rbyte. destruct (blk_reg i) as (-> & -> & ->). reflexivity. Qed.
Lemma wbyte_reg c i a v : socks (wbyte c (BSB_REG i) a v) i = sock_wr i (socks c i) a v.
Proof.
  unfold wbyte. destruct (blk_reg i) as (-> & -> & ->). cbn. now rewrite N.eqb_refl.
Qed.
Lemma rbyte_rx c i a : rx_size (socks c i) <> 0 ->
  rbyte c (BSB_RX i) a = rxm (socks c i) (a mod rx_size (socks c i)).
Proof.
  intros H. unfold rbyte. destruct (blk_rx i) as (-> & -> & ->).
  destruct (N.eqb_spec (rx_size (socks c i)) 0); [contradiction|reflexivity].
Qed.
Lemma wbyte_tx c i a v : tx_size (socks c i) <> 0 ->
  socks (wbyte c (BSB_TX i) a v) i =
  set_txm (socks c i) (upd (txm (socks c i)) (a mod tx_size (socks c i)) v).
Proof.
  intros H. unfold wbyte. destruct (blk_tx i) as (-> & -> & ->).
  destruct (N.eqb_spec (tx_size (socks c i)) 0); [contradiction|]. cbn. now rewrite N.eqb_refl.
Qed.

Section Access.
  Context (e : env) (i : N).
  Hypothesis NF : no_faults e.

  Lemma wp_rd1 {A} a b (k : list byte * res unit berr -> prog A) Q s :
    (forall s1, sevs i (sk i s) (sk i s1) -> wp e (k ([sock_rd (sk i s1) a], Ok tt)) Q s1) ->
    wp e (BusRead (BSB_REG i) a [b] k) Q s.
  Proof.
    intros H. unfold wp. cbn [run]. unfold bus_read. rewrite NF. cbn [length read_bytes].
    rewrite rbyte_reg. apply (H (end_call (tick e s))). apply tick_sevs.
  Qed.
  Lemma wp_rd2 {A} a b b' (k : list byte * res unit berr -> prog A) Q s : a + 1 < 65536 ->
    (forall x s1, sevs i (sk i s) x -> sevs i x (sk i s1) ->
       wp e (k ([sock_rd x a; sock_rd (sk i s1) (a + 1)], Ok tt)) Q s1) ->
    wp e (BusRead (BSB_REG i) a [b; b'] k) Q s.
  Proof.
    intros Ha H. unfold wp. cbn [run]. unfold bus_read. rewrite NF. cbn [length read_bytes].
    rewrite !rbyte_reg. unfold next_addr. rewrite N.mod_small by assumption.
    apply (H (sk i (tick e s)) (end_call (tick e (tick e s)))); apply tick_sevs.
  Qed.
  Lemma wp_wr1 {A} a v (k : res unit berr -> prog A) Q s :
    (forall x s1, sevs i (sk i s) x -> sk i s1 = sock_wr i x a v -> wp e (k (Ok tt)) Q s1) ->
    wp e (BusWrite (BSB_REG i) a [v] k) Q s.
  Proof.
    intros H. unfold wp. cbn [run]. unfold bus_write. rewrite NF. cbn [write_bytes].
    apply (H (sk i (tick e s))); [apply tick_sevs|]. apply wbyte_reg.
  Qed.

  (** plain registers: kept by the chip, not interpreted when written *)
  Definition plain (a : N) : bool :=
    negb ((a =? Sn_CR) || (a =? Sn_IR) || read_only a || (a =? Sn_RXBUF_SIZE) || (a =? Sn_TXBUF_SIZE)).
  Fixpoint puts (m : N -> byte) (a : N) (d : list byte) : N -> byte :=
    match d with [] => m | b :: d' => puts (upd m a b) (a + 1) d' end.

  Lemma sock_wr_plain x a v : plain a = true -> sock_wr i x a v = set_regs x (upd (regs x) a v).
  Proof.
    unfold plain, sock_wr. intros H. apply negb_true_iff in H. rewrite !orb_false_iff in H.
    destruct H as ((((-> & ->) & ->) & _) & _). reflexivity.
  Qed.
  Definition same_sizes (m m' : N -> byte) : Prop :=
    m' Sn_RXBUF_SIZE = m Sn_RXBUF_SIZE /\ m' Sn_TXBUF_SIZE = m Sn_TXBUF_SIZE.
  Lemma plain_sizes m a v : plain a = true -> same_sizes m (upd m a v).
  Proof.
    unfold plain, same_sizes, upd. intros H. apply negb_true_iff in H. rewrite !orb_false_iff in H.
    destruct H as ((_ & H1) & H2). rewrite N.eqb_sym in H1. rewrite N.eqb_sym in H2. now rewrite H1, H2.
  Qed.
  Lemma puts_sizes : forall d m a, forallb plain (map (fun j => a + N.of_nat j) (seq 0 (length d))) = true ->
    same_sizes m (puts m a d).
  Proof.
    induction d as [|b d IH]; intros m a H; [split; reflexivity|]. cbn [puts]. cbn [length seq map forallb] in H.
    apply andb_true_iff in H as [H1 H2]. change (N.of_nat 0) with 0 in H1. rewrite N.add_0_r in H1.
    destruct (IH (upd m a b) (a + 1)) as [I1 I2].
    { rewrite <- H2, <- seq_shift, map_map. f_equal. apply map_ext. intros j. lia. }
    destruct (plain_sizes m a b H1) as [P1 P2]. split; congruence.
  Qed.

  (** events commute with a change of the plain registers while no SEND is in progress *)
  Lemma step_set_regs x r ev : same_sizes (regs x) r -> idle x ->
    sock_step (set_regs x r) ev = set_regs (sock_step x ev) r.
  Proof.
    intros [S1 S2] I. unfold idle in I. destruct ev; unfold sock_step, transmit; sfields; rewrite ?I; auto;
      repeat match goal with |- context [if ?b then _ else _] => destruct b end; auto;
      unfold rx_append, rx_rsr, rx_size; sfields; rewrite ?S1; 
      repeat match goal with |- context [if ?b then _ else _] => destruct b end; reflexivity.
  Qed.
  Lemma sevs_set_regs x r x' : same_sizes (regs x) r -> idle x -> sevs i (set_regs x r) x' ->
    exists y, sevs i x y /\ x' = set_regs y r.
  Proof.
    intros S I (l & Hl & ->). revert x S I. induction Hl as [|ev l He Hl IH]; intros x S I.
    - exists x. split; [apply sevs_refl|reflexivity].
    - cbn [fold_left]. rewrite step_set_regs by assumption.
      assert (Hs : sevs i x (sock_step x ev)) by now apply sevs_one.
      destruct (IH (sock_step x ev)) as (y & Y1 & Y2).
      + now rewrite (sevs_regs i x).
      + now apply (sevs_idle i x).
      + exists y. split; [eapply sevs_trans; eauto|exact Y2].
  Qed.

  Lemma upd_regs_set x r r' : set_regs (set_regs x r) r' = set_regs x r'.
  Proof. reflexivity. Qed.

  Lemma wrs_plain : forall d a s, idle (sk i s) -> a + len d < 65536 ->
    forallb plain (map (fun j => a + N.of_nat j) (seq 0 (length d))) = true ->
    exists y, sevs i (sk i s) y /\ sk i (write_bytes e (BSB_REG i) a d s) = set_regs y (puts (regs (sk i s)) a d).
  Proof.
    induction d as [|b d IH]; intros a s I Ha HP.
    - exists (sk i s). split; [apply sevs_refl|]. cbn. now destruct (sk i s).
    - rewrite len_cons in Ha. cbn [write_bytes].
      cbn [length seq map forallb] in HP. apply andb_true_iff in HP as [H1 H2].
      change (N.of_nat 0) with 0 in H1. rewrite N.add_0_r in H1.
      set (s2 := on_chip (fun c => wbyte c (BSB_REG i) a b) (tick e s)).
      assert (E2 : sk i s2 = set_regs (sk i (tick e s)) (upd (regs (sk i (tick e s))) a b)).
      { unfold s2, sk, on_chip. cbn [s_chip]. rewrite wbyte_reg. now apply sock_wr_plain. }
      pose proof (tick_sevs i e s) as T. pose proof (sevs_regs _ _ _ T) as TR.
      assert (I2 : idle (sk i s2)). { rewrite E2. apply (proj1 (sevs_idle _ _ _ T I)). }
      unfold next_addr. rewrite N.mod_small by lia.
      destruct (IH (a + 1) s2 I2) as (y & Y1 & Y2); [lia| |].
      { rewrite <- H2, <- seq_shift, map_map. f_equal. apply map_ext. intros j. lia. }
      rewrite Y2. rewrite E2 in *. sfields. rewrite TR in *.
      destruct (sevs_set_regs _ _ _ (plain_sizes _ a b H1) (proj1 (sevs_idle _ _ _ T I)) ltac:(rewrite TR; exact Y1)) as (z & Z1 & Z2).
      exists z. split; [eapply sevs_trans; eauto|]. rewrite Z2. rewrite upd_regs_set. reflexivity.
  Qed.
  Lemma wp_wrp {A} a d (k : res unit berr -> prog A) Q s :
    idle (sk i s) -> a + len d < 65536 ->
    forallb plain (map (fun j => a + N.of_nat j) (seq 0 (length d))) = true ->
    (forall y s1, sevs i (sk i s) y -> sk i s1 = set_regs y (puts (regs y) a d) -> wp e (k (Ok tt)) Q s1) ->
    wp e (BusWrite (BSB_REG i) a d k) Q s.
  Proof.
    intros I Ha HP H. unfold wp. cbn [run]. unfold bus_write. rewrite NF.
    destruct (wrs_plain d a s I Ha HP) as (y & Y1 & Y2).
    apply (H y); [exact Y1|]. rewrite (sevs_regs _ _ _ Y1). exact Y2.
  Qed.

  (** events commute with a change of TX memory while no SEND is in progress *)
  Lemma step_set_txm x m ev : idle x -> sock_step (set_txm x m) ev = set_txm (sock_step x ev) m.
  Proof.
    intros I. unfold idle in I. destruct ev; unfold sock_step, transmit; sfields; rewrite ?I; auto;
      repeat match goal with |- context [if ?b then _ else _] => destruct b end; auto;
      unfold rx_append, rx_rsr, rx_size; sfields;
      repeat match goal with |- context [if ?b then _ else _] => destruct b end; reflexivity.
  Qed.
  Lemma sevs_set_txm x m x' : idle x -> sevs i (set_txm x m) x' ->
    exists y, sevs i x y /\ x' = set_txm y m.
  Proof.
    intros I (l & Hl & ->). revert x I. induction Hl as [|ev l He Hl IH]; intros x I.
    - exists x. split; [apply sevs_refl|reflexivity].
    - cbn [fold_left]. rewrite step_set_txm by assumption.
      assert (Hs : sevs i x (sock_step x ev)) by now apply sevs_one.
      destruct (IH (sock_step x ev)) as (y & Y1 & Y2); [now apply (sevs_idle i x)|].
      exists y. split; [eapply sevs_trans; eauto|exact Y2].
  Qed.
  Lemma wrs_tx : forall d a s, idle (sk i s) -> valid_size (tx_size (sk i s)) ->
    exists y, sevs i (sk i s) y /\
      sk i (write_bytes e (BSB_TX i) a d s) = set_txm y (ring_write (txm (sk i s)) (tx_size (sk i s)) a d).
  Proof.
    induction d as [|b d IH]; intros a s I Hz.
    - exists (sk i s). split; [apply sevs_refl|]. cbn. now destruct (sk i s).
    - cbn [write_bytes].
      set (s2 := on_chip (fun c => wbyte c (BSB_TX i) a b) (tick e s)).
      pose proof (tick_sevs i e s) as T.
      assert (TZ : tx_size (sk i (tick e s)) = tx_size (sk i s)) by (unfold tx_size; now rewrite (sevs_regs _ _ _ T)).
      assert (E2 : sk i s2 = set_txm (sk i (tick e s)) (upd (txm (sk i s)) (a mod tx_size (sk i s)) b)).
      { unfold s2, sk at 1, on_chip. cbn [s_chip]. rewrite wbyte_tx.
        - fold (sk i (tick e s)). rewrite TZ. now rewrite (sevs_txm _ _ _ T).
        - fold (sk i (tick e s)). rewrite TZ. now apply valid_pos. }
      assert (I2 : idle (sk i s2)). { rewrite E2. apply (proj1 (sevs_idle _ _ _ T I)). }
      assert (Z2 : tx_size (sk i s2) = tx_size (sk i s)).
      { rewrite E2, <- TZ. reflexivity. }
      destruct (IH (next_addr a) s2 I2) as (y & Y1 & Y2); [now rewrite Z2|].
      rewrite Y2, Z2. rewrite E2 in Y1. 
      destruct (sevs_set_txm _ _ _ (proj1 (sevs_idle _ _ _ T I)) Y1) as (z & Q1 & Q2).
      exists z. split; [eapply sevs_trans; eauto|]. rewrite Q2, E2. cbn [ring_write]. sfields.
      unfold next_addr. now rewrite ring_write_wrap.
  Qed.
  Lemma wp_wtx {A} a d (k : res unit berr -> prog A) Q s :
    idle (sk i s) -> valid_size (tx_size (sk i s)) ->
    (forall y s1, sevs i (sk i s) y ->
       sk i s1 = set_txm y (ring_write (txm y) (tx_size y) a d) -> wp e (k (Ok tt)) Q s1) ->
    wp e (BusWrite (BSB_TX i) a d k) Q s.
  Proof.
    intros I Hz H. unfold wp. cbn [run]. unfold bus_write. rewrite NF.
    destruct (wrs_tx d a s I Hz) as (y & Y1 & Y2). apply (H y); [exact Y1|].
    assert (tx_size y = tx_size (sk i s)) as -> by (unfold tx_size; now rewrite (sevs_regs _ _ _ Y1)).
    rewrite (sevs_txm _ _ _ Y1). exact Y2.
  Qed.

  (** reading received data: only bytes that are really there can be relied upon *)
  Lemma rds_rx : forall n a s off, rxv (sk i s) -> a < 65536 ->
    a mod rx_size (sk i s) = (rx_base (sk i s) + off) mod rx_size (sk i s) ->
    off + N.of_nat n <= rx_rsr (sk i s) ->
    let r := read_bytes e (BSB_RX i) a n s in
    fst r = firstn n (skipn (N.to_nat off) (pending (sk i s))) /\ sevs i (sk i s) (sk i (snd r)).
  Proof.
    induction n as [|n IH]; intros a s off V Ha Hm Hn; cbn [read_bytes].
    { split; [reflexivity|apply sevs_refl]. }
    pose proof (tick_sevs i e s) as T. destruct (sevs_rx _ _ _ T V) as (V1 & ch & P1 & _ & _ & P4).
    assert (TB : rx_base (sk i (tick e s)) = rx_base (sk i s)) by now apply (sevs_rx_base i).
    assert (TZ : rx_size (sk i (tick e s)) = rx_size (sk i s)) by (unfold rx_size; now rewrite (sevs_regs _ _ _ T)).
    destruct V as (Vz & _). pose proof (valid_pos _ Vz) as Hz.
    destruct (IH (next_addr a) (tick e s) (off + 1)) as [I1 I2]; auto.
    { unfold next_addr. apply N.mod_lt. discriminate. }
    { rewrite TZ, TB. unfold next_addr. rewrite mod_wrap by assumption.
      rewrite <- N.add_mod_idemp_l, Hm, N.add_mod_idemp_l by assumption. f_equal. lia. }
    { rewrite P4. lia. }
    destruct (read_bytes e (BSB_RX i) (next_addr a) n (tick e s)) as [l s2]. cbn [fst snd] in *.
    split; [|eapply sevs_trans; eauto].
    rewrite I1, P1. rewrite rbyte_rx by (fold (sk i (tick e s)); now rewrite TZ).
    fold (sk i (tick e s)). rewrite TZ, Hm.
    assert (L : (N.to_nat off + S n <= length (pending (sk i s)))%nat).
    { unfold pending. rewrite ring_read_length. lia. }
    assert (Hd : rxm (sk i (tick e s)) ((rx_base (sk i s) + off) mod rx_size (sk i s)) =
                 nth (N.to_nat off) (pending (sk i s)) x00).
    { transitivity (nth (N.to_nat off) (pending (sk i (tick e s))) x00).
      - unfold pending. rewrite nth_ring_read by (rewrite P4; lia). rewrite TB, TZ, N2Nat.id. reflexivity.
      - rewrite P1. apply app_nth1. lia. }
    rewrite Hd. rewrite skipn_app, firstn_app, skipn_length.
    replace (n - (length (pending (sk i s)) - N.to_nat (off + 1)))%nat with 0%nat by lia.
    rewrite firstn_O, app_nil_r.
    replace (N.to_nat (off + 1)) with (S (N.to_nat off)) by lia.
    revert L. generalize (pending (sk i s)) as l0. generalize (N.to_nat off) as o. clear.
    induction o as [|o IH]; intros [|b l0] L; cbn [length] in L; try lia.
    - cbn. reflexivity.
    - cbn [nth skipn]. apply IH. lia.
  Qed.
  Lemma wp_rrx {A} a buf off (k : list byte * res unit berr -> prog A) Q s :
    rxv (sk i s) -> a < 65536 ->
    a mod rx_size (sk i s) = (rx_base (sk i s) + off) mod rx_size (sk i s) ->
    off + len buf <= rx_rsr (sk i s) ->
    (forall s1, sevs i (sk i s) (sk i s1) ->
       wp e (k (firstn (length buf) (skipn (N.to_nat off) (pending (sk i s))), Ok tt)) Q s1) ->
    wp e (BusRead (BSB_RX i) a buf k) Q s.
  Proof.
    intros V Ha Hm Hn H. unfold wp. cbn [run]. unfold bus_read. rewrite NF.
    destruct (rds_rx (length buf) a s off V Ha Hm Hn) as [I1 I2].
    destruct (read_bytes e (BSB_RX i) a (length buf) s) as [l s2]. cbn [fst snd] in *. subst l.
    apply (H (end_call s2)). exact I2.
  Qed.
  (** any read leaves the socket to the network *)
  Lemma wp_read_any {A} blk a buf (k : list byte * res unit berr -> prog A) Q s :
    (forall got s1, length got = length buf -> sevs i (sk i s) (sk i s1) -> wp e (k (got, Ok tt)) Q s1) ->
    wp e (BusRead blk a buf k) Q s.
  Proof.
    intros H. unfold wp. cbn [run]. unfold bus_read. rewrite NF.
    pose proof (read_bytes_length e blk (length buf) a s) as L.
    assert (R : forall n a s, sevs i (sk i s) (sk i (snd (read_bytes e blk a n s)))).
    { induction n as [|n IH]; intros a0 s0; cbn [read_bytes]; [apply sevs_refl|].
      specialize (IH (next_addr a0) (tick e s0)). destruct (read_bytes e blk (next_addr a0) n (tick e s0)).
      eapply sevs_trans; [apply tick_sevs|exact IH]. }
    specialize (R (length buf) a s). destruct (read_bytes e blk a (length buf) s) as [l s2]. cbn [fst snd] in *.
    apply (H l (end_call s2)); auto.
  Qed.
End Access.
