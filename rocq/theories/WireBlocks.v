(** The SPI operations of a whole computation over ThreeWire, one by one; used for C115. *)
From Verif Require Import ErrorFacts ProgFacts ThreeWireFacts.
From Verif Require Import Wire WireRefine.

(** the operations come in threes: address, control byte of a block in [B], one, two or four bytes *)
Definition in_threes (B : N -> Prop) (l : list (bool * list byte)) : Prop := forall k s, nth_error l k = Some s ->
  match (k mod 3)%nat with
  | 0%nat => exists a1 a2, s = (false, [a1; a2])
  | 1%nat => exists c, s = (false, [c]) /\ B (b2n c / 8) /\ N.testbit (b2n c) 2 = false
  | _ => length (snd s) = 1%nat \/ length (snd s) = 2%nat \/ length (snd s) = 4%nat
  end.
Lemma threes_nil B : in_threes B [].
Proof. intros [|k] s [=]. Qed.
Lemma threes_firstn B n l : in_threes B l -> in_threes B (firstn n l).
Proof.
  intros H k s E. apply H. assert (L : (k < length (firstn n l))%nat) by (apply nth_error_Some; congruence). rewrite firstn_length in L.
  rewrite <- (firstn_skipn n l). rewrite nth_error_app1; [exact E|]. rewrite firstn_length. lia.
Qed.
Lemma threes_app B l1 l2 n : length l1 = (3 * n)%nat -> in_threes B l1 -> in_threes B l2 -> in_threes B (l1 ++ l2).
Proof.
  intros L H1 H2 k s E. destruct (Nat.lt_ge_cases k (length l1)) as [K|K].
  - rewrite nth_error_app1 in E by exact K. now apply H1.
  - rewrite nth_error_app2 in E by exact K. specialize (H2 _ _ E). replace (k mod 3)%nat with ((k - length l1) mod 3)%nat; [exact H2|].
    replace k with ((k - length l1) + n * 3)%nat at 2 by lia. now rewrite Nat.mod_add.
Qed.
Lemma threes_frame (B : N -> Prop) wr blk : blk < 32 -> B blk -> forall ps first a, Forall (fun p => length p = 1 \/ length p = 2 \/ length p = 4)%nat ps ->
  in_threes B (frame_ops wr first blk a ps) /\ length (frame_ops wr first blk a ps) = (3 * length ps)%nat.
Proof.
  intros Hb HB. induction ps as [|p ps IH]; intros first a F; [split; [apply threes_nil|reflexivity]|].
  inversion F as [|? ? F1 F2]; subst. destruct (IH false ((a + len p) mod 65536) F2) as [I1 I2].
  cbn [frame_ops]. cbv zeta. set (m := match first with true => _ | false => _ end). assert (Hm : m < 4) by (unfold m; destruct first, wr, (length p) as [|[|[|?]]]; reflexivity).
  split; [|cbn [length]; lia].
  match goal with |- in_threes B (?x :: ?y :: ?z :: ?l) => change (in_threes B ([x; y; z] ++ l)) end. apply (threes_app B _ _ 1); [reflexivity| |exact I1].
  intros [|[|[|k]]] s E; cbn [nth_error] in E; try (injection E as <-).
  - cbn. eauto.
  - cbn [Nat.modulo Nat.divmod fst snd Nat.sub]. exists (u8 (8 * blk + m)). split; [reflexivity|]. rewrite b2n_u8, N.mod_small by lia. split.
    + rewrite N.mul_comm, N.div_add_l by lia. rewrite (N.div_small m 8) by lia. now rewrite N.add_0_r.
    + change 8 with (2 ^ 3). rewrite <- N.shiftl_mul_pow2 || rewrite N.mul_comm, <- N.shiftl_mul_pow2.
      assert (E : N.shiftl blk 3 + m = N.lor (N.shiftl blk 3) m).
      { rewrite <- N.lxor_lor; [apply N.add_nocarry_lxor|]; apply N.bits_inj_0; intros j; rewrite N.land_spec;
          (destruct (N.lt_ge_cases j 3) as [J|J]; [rewrite N.shiftl_spec_low by exact J; reflexivity|];
           rewrite (N.bits_above_log2 m j), Bool.andb_false_r; [reflexivity|]; assert (LL : N.log2 m < 2) by (assert (N.log2 m <= N.log2 3) by (apply N.log2_le_mono; lia); change (N.log2 3) with 1 in *; lia); lia). }
      rewrite E, N.lor_spec, N.shiftl_spec_low by lia.
      assert (M4 : m = 0 \/ m = 1 \/ m = 2 \/ m = 3) by lia. destruct M4 as [-> |[-> |[-> | ->]]]; reflexivity.
  - cbn [snd]. exact F1.
  - destruct k; discriminate E.
Qed.
Lemma pieces_sizes d : Forall (fun p => length p = 1 \/ length p = 2 \/ length p = 4)%nat (pieces (length d) d).
Proof.
  destruct (pieces_lengths (length d) d (le_n _)) as (q & t & E & Ht). apply Forall_forall. intros p Hp.
  assert (Hin : In (length p) (repeat 4%nat q ++ t)) by (rewrite <- E; now apply in_map).
  apply in_app_or in Hin as [Hin|Hin]; [apply repeat_spec in Hin; auto|].
  destruct Ht as [-> |[-> |[-> | ->]]]; cbn [In] in Hin; lia.
Qed.
(** one frame, finished or not *)
Lemma threes_read (B : N -> Prop) chk b a d f o : b < 32 -> B b -> sexec (tw_read_frame chk b a d) f o -> in_threes B (map shape f) /\
  (forall g, o = Done (g, Ok tt) -> exists n, length f = (3 * n)%nat) /\ (forall g e, o = Done (g, Err e) -> exists t1 ev, f = t1 ++ [ev] /\ spi_result ev = Err e).
Proof.
  intros Hb HB X. unfold tw_read_frame in X. destruct (tw_ctl_decode b 0 Hb ltac:(lia)) as (_ & _ & _ & _ & E0). rewrite E0 in X.
  destruct (tw_read_trace chk b Hb (length d) 0 a d _ _ (le_n _) ltac:(lia) X) as (T & L & _).
  destruct (ends_spelt chk a false b d _ _ snd T L) as (M & _ & _ & O). destruct (threes_frame B false b Hb HB _ true a (pieces_sizes d)) as [F1 F2].
  split; [rewrite M; now apply threes_firstn|]. split; intros; subst o; cbn [snd] in O; [|exact O].
  destruct O as [O _]. exists (length (pieces (length d) d)). rewrite <- F2, <- O, map_length. reflexivity.
Qed.
Lemma threes_write (B : N -> Prop) chk b a d f o : b < 32 -> B b -> sexec (tw_write_frame chk b a d) f o -> in_threes B (map shape f) /\
  (o = Done (Ok tt) -> exists n, length f = (3 * n)%nat) /\ (forall e, o = Done (Err e) -> exists t1 ev, f = t1 ++ [ev] /\ spi_result ev = Err e).
Proof.
  intros Hb HB X. unfold tw_write_frame in X. destruct (tw_ctl_decode b 0 Hb ltac:(lia)) as (_ & _ & _ & C & E0). rewrite E0 in X.
  destruct (C TW_WRITE_MODE_MASK ltac:(unfold TW_WRITE_MODE_MASK; lia)) as [E1 _]. rewrite E1 in X.
  destruct (tw_write_trace chk b Hb (length d) 2 a d _ _ (le_n _) ltac:(lia) X) as (T & L).
  destruct (ends_spelt chk a true b d _ _ id T L) as (M & _ & _ & O). destruct (threes_frame B true b Hb HB _ true a (pieces_sizes d)) as [F1 F2].
  split; [rewrite M; now apply threes_firstn|]. split; intros; subst o; cbn [id] in O; [|exact O].
  destruct O as [O _]. exists (length (pieces (length d) d)). rewrite <- F2, <- O, map_length. reflexivity.
Qed.
(** the whole computation *)
Lemma three_wire_threes {A} E (p : prog A) (B : N -> Prop) chk tr o : estop E p ->
  (forall evs oc ev, exec p evs oc -> In ev evs -> ev_block ev < 32 /\ B (ev_block ev)) ->
  sexec (over_three_wire chk p) tr o -> in_threes B (map shape tr).
Proof.
  intros S HB X. pose proof (sstop_reports _ _ _ (three_wire_stops chk E p S) tr o X) as [R _].
  destruct (plug_inv _ _ (fun b a d => tw_read_stops chk (length d) (shl3 b) a d) p tr o X) as (evs & frames & rest & -> & F & H).
  assert (Hr : in_threes B (map shape rest)).
  { destruct H as [[-> _]|(b & a & d & [(o' & Y & _ & _ & Z)|(o' & Y & _ & _ & Z)])]; [apply threes_nil| |].
    - destruct (HB _ _ (ERead b a d (Ok tt)) (Z d (Ok tt) eq_refl) ltac:(apply in_or_app; right; now left)) as [H1 H2]. eapply (threes_read B chk b a d); eauto.
    - destruct (HB _ _ (EWrite b a d (Ok tt)) (Z (Ok tt)) ltac:(apply in_or_app; right; now left)) as [H1 H2]. eapply (threes_write B chk b a d); eauto. }
  assert (He : forall ev, In ev evs -> ev_block ev < 32 /\ B (ev_block ev)).
  { intros ev Hin. destruct H as [[_ H]|(b & a & d & [(o' & _ & _ & _ & Z)|(o' & _ & _ & _ & Z)])]; [eapply HB; eauto| |].
    - eapply HB; [exact (Z d (Ok tt) eq_refl)|]. apply in_or_app; now left.
    - eapply HB; [exact (Z (Ok tt))|]. apply in_or_app; now left. }
  clear H X HB. assert (R' : forall t1 ev t2 e, concat frames ++ rest = t1 ++ ev :: t2 -> spi_result ev = Err e -> t2 = []) by (intros t1 ev t2 e E1 E2; exact (proj1 (R t1 ev t2 e E1 E2))). clear R.
  induction F as [|ev f evs frames Hf F IH]; [exact Hr|]. cbn [concat] in *.
  assert (K : in_threes B (map shape f) /\ ((exists n, length f = (3 * n)%nat) \/ exists t1 e err, f = t1 ++ [e] /\ spi_result e = Err err)).
  { destruct (He ev (or_introl eq_refl)) as [H1 H2]. destruct ev as [b a g r|b a d r]; cbn [frame_of] in Hf.
    - destruct Hf as (d & L & Y). destruct (threes_read B chk b a d f _ H1 H2 Y) as (K1 & K2 & K3). split; [exact K1|]. destruct r as [[]|e]; [left; eapply K2; reflexivity|right].
      destruct (K3 _ _ eq_refl) as (t1 & e' & Q1 & Q2); eauto.
    - destruct (threes_write B chk b a d f _ H1 H2 Hf) as (K1 & K2 & K3). split; [exact K1|]. destruct r as [[]|e]; [left; now apply K2|right].
      destruct (K3 _ eq_refl) as (t1 & e' & Q1 & Q2); eauto. }
  destruct K as [K1 [[n K2]|(t1 & e & err & -> & Q)]].
  - rewrite <- app_assoc, map_app. apply (threes_app B _ _ n); [rewrite map_length; exact K2|exact K1|]. apply IH; [intros; apply He; now right|].
    intros t1 ev' t2 e E1 E2. apply (R' (f ++ t1) ev' t2 e); [rewrite <- !app_assoc, E1; reflexivity|exact E2].
  - assert (N0 : concat frames ++ rest = []). { apply (R' t1 e _ err); [rewrite <- !app_assoc; reflexivity|exact Q]. }
    rewrite <- app_assoc. rewrite N0, app_nil_r. exact K1.
Qed.

(** ** Aborts of computations that stay at the registers *)
Definition ends_at (ev : event) : N := match ev with ERead _ a g _ => a + len g | EWrite _ a d _ => a + len d end.
Lemma wires_panic {A} (p : prog A) chk tr w : sexec (over_three_wire chk p) tr (Panicked w) ->
  (exists evs, exec p evs (Panicked w)) \/ (w = P_add_overflow /\ chk = true /\ exists evs ev, exec p (evs ++ [ev]) Cut /\ 65536 <= ends_at ev).
Proof.
  intros X. destruct (plug_inv _ _ (fun b a d => tw_read_stops chk (length d) (shl3 b) a d) p tr _ X) as (evs & frames & rest & -> & _ & H).
  destruct H as [[_ H]|(b & a & d & [(o' & Y & Eo & ND & Z)|(o' & Y & Eo & ND & Z)])]; [left; eauto|right|right].
  - apply tw_read_ends in Y as [-> |[[r ->]|(C & -> & O)]]; [discriminate Eo|now destruct (ND r)| |apply le_n].
    injection Eo as <-. split; [reflexivity|]. split; [exact C|]. exists evs, (ERead b a d (Ok tt)). split; [now apply Z|exact O].
  - apply tw_write_ends in Y as [-> |[[r ->]|(C & -> & O)]]; [discriminate Eo|now destruct (ND r)| |apply le_n].
    injection Eo as <-. split; [reflexivity|]. split; [exact C|]. exists evs, (EWrite b a d (Ok tt)). split; [apply Z|exact O].
Qed.
Lemma wires_no_panic {A} (p : prog A) : (forall evs w, ~ exec p evs (Panicked w)) ->
  (forall evs oc ev, exec p evs oc -> In ev evs -> ends_at ev <= 64) -> forall chk tr w,
  ~ sexec (over_four_wire p) tr (Panicked w) /\ ~ sexec (over_three_wire chk p) tr (Panicked w).
Proof.
  intros P T chk tr w. split; intros X.
  - apply four_wire_inv in X as (evs & X & _). exact (P _ _ X).
  - apply wires_panic in X as [(evs & X)|(_ & _ & evs & ev & X & O)]; [exact (P _ _ X)|].
    assert (Hin : In ev (evs ++ [ev])) by (apply in_or_app; right; now left). specialize (T _ _ _ X Hin). lia.
Qed.
