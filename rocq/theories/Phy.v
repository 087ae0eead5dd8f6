(** The operation mode in PHYCFGR: the crate never writes the register, a reset of the chip puts
    111 in the operation mode bits, and the link only changes the three status bits. *)
From Verif Require Export LifeFacts Properties_rawsock.
From Verif Require Origin.
From Coq Require Import Lia.
Open Scope N_scope.

(** ** Programs that do not write PHYCFGR *)
Definition nophy (blk a : N) (v : byte) : Prop := blk <> 0 \/ a <> PHYCFGR.
Definition phy_auto (c : chip) : Prop := (b2n (com c PHYCFGR) / 8) mod 8 = 7.
Lemma phy_ev c ev : phy_auto c -> phy_auto (nstep c ev).
Proof.
  intros H. unfold phy_auto, nstep in *. destruct (ev_sock ev); [exact H|]. destruct ev; try exact H.
  cbn [com set_com]. unfold upd. rewrite N.eqb_refl.
  revert H. generalize (com c PHYCFGR). intros w H.
  assert (E : forall w v : byte, (b2n (u8 (N.lor (N.ldiff (b2n w) 7) (N.land (b2n v) 7))) / 8) mod 8 = (b2n w / 8) mod 8).
  { clear. intros w v. rewrite b2n_u8.
    assert (L : N.lor (N.ldiff (b2n w) 7) (N.land (b2n v) 7) < 256).
    { destruct (N.eq_dec (N.lor (N.ldiff (b2n w) 7) (N.land (b2n v) 7)) 0) as [->|Z]; [lia|]. apply (N.log2_lt_pow2 _ 8); [lia|].
      rewrite N.log2_lor. apply N.max_lub_lt.
      - destruct (N.eq_dec (N.ldiff (b2n w) 7) 0) as [->|]; [vm_compute; reflexivity|]. apply N.log2_lt_pow2; [lia|].
        change 7 with (N.ones 3). rewrite N.ldiff_ones_r, N.shiftl_mul_pow2, N.shiftr_div_pow2. apply N.le_lt_trans with (b2n w); [|apply b2n_lt].
        rewrite N.mul_comm. apply N.mul_div_le. discriminate.
      - destruct (N.eq_dec (N.land (b2n v) 7) 0) as [->|]; [vm_compute; reflexivity|]. apply N.log2_lt_pow2; [lia|].
        change 7 with (N.ones 3). rewrite N.land_ones. apply N.lt_trans with (2 ^ 3); [apply N.mod_lt; discriminate|reflexivity]. }
    rewrite (N.mod_small _ 256) by exact L. f_equal. change 8 with (2 ^ 3). rewrite <- !N.shiftr_div_pow2. apply N.bits_inj. intros n.
    rewrite !N.shiftr_spec, N.lor_spec, N.ldiff_spec, N.land_spec by lia. change 7 with (N.ones 3). rewrite N.ones_spec_high by lia. cbn. now rewrite andb_true_r, andb_false_r, orb_false_r. }
  rewrite E. exact H.
Qed.
Lemma phy_reset : (b2n (com_reset PHYCFGR) / 8) mod 8 = 7.
Proof. reflexivity. Qed.
Lemma phy_wr c blk a v : nophy blk a v -> phy_auto c -> phy_auto (wbyte c blk a v).
Proof.
  intros P H. destruct (N.testbit (b2n v) 7 && (blk =? 0) && (a =? MR)) eqn:B.
  - rewrite !andb_true_iff in B. destruct B as [[B1 B2] B3]. apply N.eqb_eq in B2, B3. subst.
    unfold phy_auto, wbyte. rewrite !N.eqb_refl, B1. exact phy_reset.
  - unfold phy_auto. rewrite keeps_write_byte; [exact H|]. destruct (N.eq_dec blk 0) as [->|]; [right|now left].
    split; [destruct P as [P|P]; congruence|]. intros ->. change (0 =? 0) with true in B. rewrite N.eqb_refl, !andb_true_r in B. exact B.
Qed.
Lemma run_phy {A} e (p : prog A) : mild nophy p -> forall s, phy_auto (s_chip s) -> phy_auto (s_chip (snd (run e p s))).
Proof. exact (run_inv nophy e phy_auto phy_ev phy_wr p). Qed.

Lemma nophy_range b a d : b <> 0 \/ (a + len d <= 65536 /\ (PHYCFGR < a \/ a + len d <= PHYCFGR)) -> each nophy b a d.
Proof.
  intros [H|(H1 & H2)]; [apply each_all; now left|]. apply Origin.each_range; [exact H1|]. intros a' v L1 L2. right. lia.
Qed.
Lemma keeps_nophy {A} (p : prog A) : keeps_com PHYCFGR p -> mild nophy p.
Proof.
  induction p as [a|w| |b a d k IH|b a d k IH]; cbn [mild keeps_com]; intros H; auto. destruct H as [H1 H2]. split; [|auto].
  apply nophy_range. destruct H1 as [H1|(H1 & H3 & _)]; auto.
Qed.
Lemma nophy_mode v : mild nophy (write_frame COMMON c_MODE [v]).
Proof. cbn. split; [|intros [?|?]; exact Logic.I]. split; [right; discriminate|exact Logic.I]. Qed.
Lemma nophy_small a d : a + len d <= PHYCFGR -> mild nophy (write_frame COMMON a d).
Proof. intros H. cbn. split; [|intros; exact Logic.I]. apply nophy_range. right. unfold PHYCFGR in *. lia. Qed.
Lemma nophy_uop q : mild nophy (run_uop q).
Proof.
  destruct q; cbn [run_uop]; (apply mild_bind; [|intros; exact Logic.I]).
  all: try apply nophy_mode; try (cbn; intros got r _; destruct r; exact Logic.I).
  - unfold dev_set_retry_timeout. apply mild_try; [|intros; exact Logic.I]. apply nophy_small. vm_compute. discriminate.
  - unfold dev_set_retry_count. apply mild_try; [|intros; exact Logic.I]. apply nophy_small. vm_compute. discriminate.
Qed.
Lemma nophy_devop q : mild nophy (run_devop q).
Proof.
  destruct q; try (apply keeps_nophy, keeps_devop; reflexivity); cbn [run_devop]; (apply mild_bind; [|intros; exact Logic.I]).
  cbn. split; [|intros [?|?]; exact Logic.I]. split; [right; discriminate|exact Logic.I].
Qed.
Lemma nophy_step fuel a o : good (handles a) -> mild nophy (step fuel a o).
Proof.
  intros G. destruct (op_writes o PHYCFGR) eqn:W; [|apply keeps_nophy; now apply keeps_good].
  destruct o; try discriminate W. cbn [step]. apply mild_bind; [apply nophy_devop|intros; exact Logic.I].
Qed.
Lemma nophy_refresh h : mild nophy (refresh h).
Proof.
  destruct h as [[|] s c|]; try exact Logic.I. cbn [refresh]. apply mild_bind; [|intros; exact Logic.I].
  assert (T : forall b ad d now nxt k, ad + len d <= PHYCFGR -> (forall c, mild nophy (k c)) -> mild nophy (write_if b ad d now nxt k)).
  { intros b ad d now nxt k L K. unfold write_if. destruct b; [|apply K]. apply mild_bind; [now apply nophy_small|]. intros [?|?]; [apply K|exact Logic.I]. }
  unfold write_settings.
  apply T; [now rewrite (proj1 (octets_len _))|intros c1]. apply T; [now rewrite (proj1 (octets_len _))|intros c2].
  apply T; [now rewrite (proj1 (mac_octets_len _))|intros c3]. apply T; [now rewrite (proj1 (octets_len _))|intros c4]. exact Logic.I.
Qed.
Lemma nophy_version v : mild nophy (assert_chip_version v).
Proof. cbn. intros got [?|?] _; cbn; [destruct (_ =? _)|]; exact Logic.I. Qed.
Definition init_tail (h : host) (m : Mode) : prog (res DeviceState InitializeError) :=
  try b <- dev_set_mode m else (fun e => Err (SpiError e)) ;;
  do r <- refresh h ;;
  match snd r with
  | Err e => Ret (Err (SpiError e))
  | Ok _ => Ret (Ok (ds_new (fst r)))
  end.
Lemma nophy_tail h m : mild nophy (init_tail h m).
Proof.
  apply mild_try; [apply nophy_mode|]. intros _. apply mild_bind; [apply nophy_refresh|]. intros [h' [?|?]]; exact Logic.I.
Qed.
Lemma nophy_init chk h m : mild nophy (initialize_with_host chk h m).
Proof.
  unfold initialize_with_host. cbv zeta. destruct chk.
  - apply mild_try; [apply nophy_version|intros _]. apply mild_try; [apply nophy_mode|intros _]. apply nophy_tail.
  - apply mild_try; [apply nophy_mode|intros _]. apply nophy_tail.
Qed.
Lemma nophy_setup chk k m : mild nophy (run_setup chk k m).
Proof. destruct k; cbn [run_setup]; apply nophy_init. Qed.
Lemma run_try_done {A E R} e (p : prog (res A E)) (h : E -> R) (k : A -> prog R) s v s' : run e (try_ p h k) s = (Done v, s') ->
  exists r s1, run e p s = (Done r, s1) /\ match r with Ok a => run e (k a) s1 = (Done v, s') | Err x => v = h x /\ s1 = s' end.
Proof.
  intros R0. unfold try_ in R0. apply run_bind_done in R0 as ([a|x] & s1 & R1 & R0); eexists; exists s1; (split; [exact R1|]); cbn; [exact R0|].
  cbn [run] in R0. now injection R0 as <- <-.
Qed.
Lemma init_phy e chk h m s d s' : run e (initialize_with_host chk h m) s = (Done (Ok d), s') -> phy_auto (s_chip s').
Proof.
  intros R. unfold initialize_with_host in R. cbv zeta in R.
  assert (T : exists s1, run e (try_ uninit_reset (fun er => Err (SpiError er)) (fun _ => init_tail h m)) s1 = (Done (Ok d), s')).
  { destruct chk; [|now exists s]. apply run_try_done in R as (r & s1 & _ & R). destruct r as [v|x]; [exists s1; exact R|]. destruct R as [R _]. discriminate R. }
  destruct T as (s1 & T). apply run_try_done in T as (r & s2 & R1 & T). destruct r as [[]|x]; [|destruct T as [T _]; discriminate T].
  assert (C : phy_auto (s_chip s2)). { unfold phy_auto. rewrite (run_reset_ok e s1 s2 R1). exact phy_reset. }
  pose proof (run_phy e _ (nophy_tail h m) s2 C) as H. rewrite T in H. exact H.
Qed.
Lemma setup_phy e chk k m s d s' : run e (run_setup chk k m) s = (Done (Ok d), s') -> phy_auto (s_chip s').
Proof. destruct k; cbn [run_setup]; apply init_phy. Qed.
Lemma nophy_rawnew : mild nophy raw_new.
Proof.
  apply keeps_nophy. unfold raw_new, raw_zero_buffers, try_, command, write_frame. cbn [bind keeps_com].
  repeat first [exact Logic.I | split; [left; discriminate|] | intros [?|?]; cbn [bind keeps_com] ].
Qed.
Lemma nophy_macraw_tail mc : mild nophy (try b <- write_frame COMMON c_MAC (mac_octets mc) else (fun e => Err (SpiError e)) ;; raw_new).
Proof. apply mild_try; [|intros _; apply nophy_rawnew]. apply nophy_small. now rewrite (proj1 (mac_octets_len _)). Qed.
Lemma nophy_macraw mc : mild nophy (initialize_macraw mc).
Proof. unfold initialize_macraw. cbv zeta. apply mild_try; [apply nophy_mode|intros _; apply nophy_macraw_tail]. Qed.
Lemma macraw_phy e mc s d s' : run e (initialize_macraw mc) s = (Done (Ok d), s') -> phy_auto (s_chip s').
Proof.
  intros T. unfold initialize_macraw in T. cbv zeta in T. apply run_try_done in T as (r & s2 & R1 & T). destruct r as [[]|x]; [|destruct T as [T _]; discriminate T].
  assert (C : phy_auto (s_chip s2)). { unfold phy_auto. rewrite (run_reset_ok e s s2 R1). exact phy_reset. }
  pose proof (run_phy e _ (nophy_macraw_tail mc) s2 C) as H. rewrite T in H. exact H.
Qed.
Lemma nophy_raw fuel o : mild nophy (raw_step fuel raw0 o).
Proof.
  assert (M : forall v, mild nophy (write_frame COMMON c_SOCKET_INTERRUPT_MASK [v])) by (intros v; apply nophy_small; vm_compute; discriminate).
  destruct o; try (apply keeps_nophy, keeps_raw; exact Logic.I); cbn [raw_step]; (apply mild_bind; [|intros; exact Logic.I]);
    unfold raw_enable_interrupts, raw_disable_interrupts.
  - apply mild_try; [apply keeps_nophy, keeps_mask|intros _; apply mild_try; [apply M|intros; exact Logic.I]].
  - apply mild_try; [apply M|intros _; apply mild_try; [apply keeps_nophy, keeps_mask|intros; exact Logic.I]].
Qed.
Lemma nophy_lstep chk fuel l q : life_ok l -> mild nophy (lstep chk fuel l q).
Proof.
  intros [G RO]. unfold lstep. destruct q as [u|k m|mc|o|o| | | |k|k], (ph l) as [|d|k'|rd|] eqn:P; try exact Logic.I;
    try (destruct (nth_error (asleep l) k); exact Logic.I); try (destruct (nth_error (asleep l) k') as [d|]; [|exact Logic.I]).
  - apply mild_bind; [apply nophy_uop|intros; exact Logic.I].
  - apply mild_bind; [apply nophy_setup|intros [?|?]; exact Logic.I].
  - apply mild_bind; [apply nophy_macraw|intros [?|?]; exact Logic.I].
  - apply mild_bind; [now apply nophy_step|intros; exact Logic.I].
  - apply mild_bind; [now apply nophy_step|intros; exact Logic.I].
  - cbn [raw_only] in RO. subst rd. apply mild_bind; [apply nophy_raw|intros; exact Logic.I].
  - apply mild_bind; [|intros [?|?]; exact Logic.I]. unfold dev_reset. destruct (any_allocated _); [exact Logic.I|]. apply mild_try; [apply nophy_mode|intros; exact Logic.I].
  - apply mild_bind; [|intros [?|?]; exact Logic.I]. unfold dev_reset. destruct (any_allocated _); [exact Logic.I|]. apply mild_try; [apply nophy_mode|intros; exact Logic.I].
Qed.
Lemma run_life_phy e chk fuel : forall ops l s, life_ok l -> phy_auto (s_chip s) -> phy_auto (s_chip (snd (run e (run_life chk fuel l ops) s))).
Proof.
  induction ops as [|q ops IH]; intros l s K H; cbn [run_life]; [exact H|].
  pose proof (run_phy e _ (nophy_lstep chk fuel l q K) s H) as H1.
  rewrite run_bind. destruct (run e (lstep chk fuel l q) s) as [[r| | |] s1] eqn:R1; cbn [fst snd] in *; try exact H1.
  destruct (lstep_common e chk fuel l q s r s1 K R1) as (K1 & _). specialize (IH (fst r) s1 K1 H1). rewrite run_bind.
  destruct (run e (run_life chk fuel (fst r) ops) s1) as [[| | |] s2]; exact IH.
Qed.
(** an initialisation that succeeded *)
Lemma lstep_inited e chk fuel l q s l1 s1 : run e (lstep chk fuel l q) s = (Done (l1, LInited (Ok tt)), s1) -> phy_auto (s_chip s1).
Proof.
  intros R. unfold lstep in R. destruct q as [u|k m|mc|o|o| | | |k|k], (ph l) as [|d|k'|rd|];
    try (cbn [run] in R; discriminate R);
    try (destruct (nth_error (asleep l) k); cbn [run] in R; discriminate R);
    try (destruct (nth_error (asleep l) k') as [d|]; [|cbn [run] in R; discriminate R]);
    apply run_bind_done in R as (r & s2 & R1 & R);
    try (cbn [run] in R; discriminate R); (destruct r as [d'|x]; cbn [run] in R; [|discriminate R]); try discriminate R; injection R as _ <-.
  - exact (setup_phy _ _ _ _ _ _ _ R1).
  - exact (macraw_phy _ _ _ _ _ R1).
Qed.
Lemma run_life_inited e chk fuel : forall ops l s l1 outs s1, life_ok l -> run e (run_life chk fuel l ops) s = (Done (l1, outs), s1) ->
  In (LInited (Ok tt)) outs -> phy_auto (s_chip s1).
Proof.
  induction ops as [|q ops IH]; intros l s l1 outs s1 K R Hin; cbn [run_life] in R.
  - cbn [run] in R. injection R as <- <- <-. destruct Hin.
  - apply run_bind_done in R as ([l2 r] & s2 & R1 & R). apply run_bind_done in R as ([l3 rs] & s3 & R2 & R). cbn [run fst snd] in R, R2. injection R as <- <- <-.
    destruct (lstep_common e chk fuel l q s (l2, r) s2 K R1) as (K1 & _). cbn [fst] in K1. destruct Hin as [-> |Hin].
    + pose proof (run_life_phy e chk fuel ops l2 s2 K1 (lstep_inited _ _ _ _ _ _ _ _ R1)) as H. rewrite R2 in H. exact H.
    + exact (IH _ _ _ _ _ K1 R2 Hin).
Qed.
(** who holds a device has seen an initialisation succeed *)
Definition up (l : life) : Prop := match ph l with Up _ => True | _ => asleep l <> [] end.
Lemma nth_some_nil {A} k (x : A) : nth_error [] k = Some x -> False. Proof. destruct k; discriminate. Qed.
Lemma set_nth_nil {A} k (x : A) l : set_nth k x l <> [] -> l <> []. Proof. destruct l, k; cbn; auto; discriminate. Qed.
Lemma drop_nth_nil {A} k (l : list A) : drop_nth k l <> [] -> l <> []. Proof. destruct l, k; cbn; auto; discriminate. Qed.
Lemma lstep_up e chk fuel l q s l1 r s1 : run e (lstep chk fuel l q) s = (Done (l1, r), s1) ->
  (up l1 -> up l \/ r = LInited (Ok tt)) /\ (forall o, r = LOut o -> up l).
Proof.
  intros R. unfold lstep, up in *. destruct q as [u|k m|mc|o|o| | | |k|k], (ph l) as [|d|k'|rd|] eqn:P;
    try (cbn [run] in R; injection R as <- <- <-; rewrite ?P; cbn [ph asleep]; split; [auto|discriminate]; fail);
    try (destruct (nth_error (asleep l) k) eqn:N; cbn [run] in R; injection R as <- <- <-; rewrite ?P; cbn [ph asleep];
      (split; [|discriminate]); auto; intros _; left; try exact Logic.I; intros Z; rewrite Z in N; exact (nth_some_nil _ _ N));
    try (destruct (nth_error (asleep l) k') as [d|] eqn:N; [|cbn [run] in R; injection R as <- <- <-; rewrite ?P; split; [auto|discriminate]]);
    apply run_bind_done in R as (r0 & s2 & R1 & R);
    try (cbn [run] in R; injection R as <- <- <-; rewrite ?P; cbn [ph asleep]; (split; [auto|]); auto; try discriminate; fail).
  all: try (destruct r0 as [d'|x]; cbn [run] in R; injection R as <- <- <-; cbn [ph asleep]; (split; [auto|discriminate]); auto; fail).
  cbn [run] in R. injection R as <- <- <-. cbn [ph asleep]. split; [intros H; left; now apply set_nth_nil in H|].
  intros _ _ Z. rewrite Z in N. exact (nth_some_nil _ _ N).
Qed.
Lemma step_phy e fuel a o s a' p s' : run e (step fuel a o) s = (Done (a', RDevice (DPhy (Ok p))), s') -> o = OpDevice QPhyConfig.
Proof.
  intros R. destruct o as [| | | | | | | | | | | | | | | |q| |]; cbn [step] in R;
    repeat (match type of R with
            | run _ (match ?z with _ => _ end) _ = _ => destruct z
            | run _ (bind _ _) _ = _ => let u := fresh "u" in let su := fresh "su" in let Q := fresh "Q" in apply run_bind_done in R as (u & su & Q & R)
            end); cbn [run] in R; try discriminate R.
  injection R as <- -> <-. destruct q; try reflexivity; cbn [run_devop] in Q; apply run_bind_done in Q as (u1 & su1 & _ & Q); cbn [run] in Q; discriminate Q.
Qed.
Lemma lstep_reads e chk fuel l q s l1 p s1 : run e (lstep chk fuel l q) s = (Done (l1, LOut (RDevice (DPhy (Ok p)))), s1) -> phy_auto (s_chip s1) ->
  phy_operation_mode p = Some Auto.
Proof.
  intros R H.
  assert (T : forall d o r, run e (step fuel (mkApp d (lhandles l) (lfresh l)) o) s = (Done r, s1) -> snd r = RDevice (DPhy (Ok p)) -> phy_operation_mode p = Some Auto).
  { intros d o [a' w] R1 E. cbn [snd] in E. subst w. pose proof (step_phy _ _ _ _ _ _ _ _ R1) as ->.
    destruct (C92_phy e fuel _ s a' p s1 R1) as (_ & _ & _ & _ & _ & E). apply E. exact H. }
  unfold lstep in R. destruct q as [u|k m|mc|o|o| | | |k|k], (ph l) as [|d|k'|rd|];
    try (cbn [run] in R; discriminate R);
    try (destruct (nth_error (asleep l) k); cbn [run] in R; discriminate R);
    try (destruct (nth_error (asleep l) k') as [d|]; [|cbn [run] in R; discriminate R]);
    apply run_bind_done in R as (r & s2 & R1 & R);
    try (cbn [run] in R; discriminate R); try (destruct r as [d'|x]; cbn [run] in R; discriminate R); cbn [run] in R; injection R as _ E <-; exact (T _ _ _ R1 E).
Qed.
Lemma run_life_reads e chk fuel : forall ops l s l1 outs s1, life_ok l -> (up l -> phy_auto (s_chip s)) -> run e (run_life chk fuel l ops) s = (Done (l1, outs), s1) ->
  forall p, In (LOut (RDevice (DPhy (Ok p)))) outs -> phy_operation_mode p = Some Auto.
Proof.
  induction ops as [|q ops IH]; intros l s l1 outs s1 K U R p Hin; cbn [run_life] in R.
  - cbn [run] in R. injection R as <- <- <-. destruct Hin.
  - apply run_bind_done in R as ([l2 r] & s2 & R1 & R). apply run_bind_done in R as ([l3 rs] & s3 & R2 & R). cbn [run fst snd] in R, R2. injection R as <- <- <-.
    destruct (lstep_common e chk fuel l q s (l2, r) s2 K R1) as (K1 & _). cbn [fst] in K1.
    pose proof (run_phy e _ (nophy_lstep chk fuel l q K) s) as H. rewrite R1 in H. cbn [snd] in H.
    destruct (lstep_up _ _ _ _ _ _ _ _ _ R1) as [U1 U2]. destruct Hin as [-> |Hin].
    + apply (lstep_reads _ _ _ _ _ _ _ _ _ R1). apply H, U. exact (U2 _ eq_refl).
    + refine (IH _ _ _ _ _ K1 _ R2 p Hin). intros V. destruct (U1 V) as [V1| ->]; [exact (H (U V1))|exact (lstep_inited _ _ _ _ _ _ _ _ R1)].
Qed.
