(** C98: the interrupt pin. *)
From Verif Require Import PinFacts RawStays Datasheet Cases Properties_raw.

Lemma raw_masks e mc fuel s d s0 pre outs s1 w s2 :
  run e (initialize_macraw mc) s = (Done (Ok d), s0) -> run e (run_raw fuel d pre) s0 = (Done outs, s1) ->
  run e (raw_step fuel d (RwEnable w)) s1 = (Done (RwUnit (Ok tt)), s2) -> d = raw0 /\ enabled w (s_chip s2).
Proof.
  intros R0 R1 R2. destruct (init_stays e mc s d s0 R0) as (-> & _). split; [reflexivity|].
  pose proof (imr_off e fuel pre s0) as M. rewrite R1 in M. cbn [snd] in M. specialize (M ltac:(rewrite (init_macraw_com e mc s raw0 s0 R0) by discriminate; reflexivity)).
  cbn [raw_step] in R2. apply run_map_done in R2 as (r & R2 & [= <-]).
  destruct (C57_enable_interrupts e w s1 s2 R2) as (n & _ & C & _ & (g & E & G)). split; [rewrite C; reflexivity|]. split.
  - rewrite C. change (C_IMR =? SIMR) with false. cbv iota. rewrite com_alone by discriminate. exact M.
  - rewrite E. cbn [set_regs regs]. rewrite G. reflexivity.
Qed.
Definition keeps_masks (o : rawop) : Prop := match o with RwEnable _ | RwDisable => False | _ => True end.
Lemma masks_stay e fuel w ops s : Forall keeps_masks ops -> enabled w (s_chip s) -> enabled w (s_chip (snd (run e (run_raw fuel raw0 ops) s))).
Proof.
  intros F. apply (run_inv mask_safe e _ (enabled_ev w) (enabled_wr w)). apply mild_run_raw.
  eapply Forall_impl; [|exact F]. intros o Q. apply mask_raw. exact Q.
Qed.

(** Once a device has been set up, and as long as the program does not call
    enable_interrupts, the chip never pulls its interrupt pin: whatever the network does,
    whatever fails on the bus, in every kind of program. *)
Theorem C98_silent :
  forall e chk fuel before s l outs s1 q l2 s2 after,
    run e (run_life chk fuel life_new before) s = (Done (l, outs), s1) ->
    run e (lstep chk fuel l q) s1 = (Done (l2, LInited (Ok tt)), s2) ->
    (forall w, ~ In (LRawCall (RwEnable w)) after) ->
    asserted (s_chip (snd (run e (run_life chk fuel l2 after) s2))) = false.
Proof.
  intros e chk fuel before s l outs s1 q l2 s2 after R1 R2 N.
  assert (K : life_ok l) by (apply (run_life_ok e chk fuel before life_new s (l, outs) s1); [split; [intros ? ? []|exact Logic.I]|exact R1]).
  destruct (started e chk fuel l q s1 l2 s2 K R2) as (K2 & M). apply masked_off. apply run_all_masked; [exact K2| |exact M].
  apply Forall_forall. intros x Hx. destruct x as [| | | |[w| | | |]| | | | |]; try exact Logic.I. exact (N w Hx).
Qed.
Print Assumptions C98_silent.

(** After enable_interrupts the pin shows exactly the flags asked for, until the masks are
    changed: reading, writing and clearing leave them alone. *)
Theorem C98_enabled :
  forall e mc fuel s d s0 pre outs s1 w s2 ops,
    run e (initialize_macraw mc) s = (Done (Ok d), s0) -> run e (run_raw fuel d pre) s0 = (Done outs, s1) ->
    run e (raw_step fuel d (RwEnable w)) s1 = (Done (RwUnit (Ok tt)), s2) ->
    (forall o, In o ops -> o <> RwDisable /\ forall v, o <> RwEnable v) ->
    let c := s_chip (snd (run e (run_raw fuel d ops) s2)) in
    asserted c = true <-> exists b, N.testbit (b2n w) b = true /\ N.testbit (ir (socks c 0)) b = true.
Proof.
  intros e mc fuel s d s0 pre outs s1 w s2 ops R0 R1 R2 F. destruct (raw_masks e mc fuel s d s0 pre outs s1 w s2 R0 R1 R2) as (-> & E). cbv zeta.
  assert (E' : enabled w (s_chip (snd (run e (run_raw fuel raw0 ops) s2)))).
  { apply masks_stay; [|exact E]. apply Forall_forall. intros o Ho. destruct (F o Ho) as [F1 F2]. destruct o; try exact Logic.I; [elim (F2 which); reflexivity|elim F1; reflexivity]. }
  split.
  - rewrite (enabled_pin w _ E'). intros H. apply negb_true_iff, N.eqb_neq in H. set (x := N.land _ _) in *.
    exists (N.log2 x). pose proof (N.bit_log2 x H) as B. unfold x at 1 in B. rewrite N.land_spec in B. apply andb_true_iff in B. split; apply B.
  - intros (b & B1 & B2). exact (flag_pin w _ b E' B2 B1).
Qed.
Print Assumptions C98_enabled.

(** Nothing is lost while the program only reads and writes frames: a flag that is up stays
    up (SENDOK excepted, which write_frame consumes); a frame that arrives asserts the pin;
    and if there was a moment with nothing left to read, anything that waits to be read later
    has asserted it. *)
Theorem C98_not_lost :
  forall e mc fuel s d s0 pre outs s1 w s2 mid outs' s3 ops,
    run e (initialize_macraw mc) s = (Done (Ok d), s0) -> run e (run_raw fuel d pre) s0 = (Done outs, s1) ->
    run e (raw_step fuel d (RwEnable w)) s1 = (Done (RwUnit (Ok tt)), s2) ->
    run e (run_raw fuel d mid) s2 = (Done outs', s3) -> (forall o, In o mid -> o <> RwDisable /\ forall v, o <> RwEnable v) ->
    (forall o, In o ops -> exists f, o = RwRead f \/ o = RwWrite f) ->
    let c := s_chip (snd (run e (run_raw fuel d ops) s3)) in
    let x := socks (s_chip s3) 0 in let y := socks c 0 in
    (forall b, N.testbit (b2n w) b = true -> N.testbit (ir x) b = true -> b <> 4 -> asserted c = true) /\
    (N.testbit (b2n w) 2 = true -> rxlog y <> rxlog x -> asserted c = true) /\
    (N.testbit (b2n w) 2 = true -> rx_rsr x = 0 -> rx_rsr y <> 0 -> asserted c = true).
Proof.
  intros e mc fuel s d s0 pre outs s1 w s2 mid outs' s3 ops R0 R1 R2 R3 Fm F. destruct (raw_masks e mc fuel s d s0 pre outs s1 w s2 R0 R1 R2) as (-> & E).
  assert (Em : enabled w (s_chip s3)).
  { pose proof (masks_stay e fuel w mid s2) as M. rewrite R3 in M. apply M; [|exact E].
    apply Forall_forall. intros o Ho. destruct (Fm o Ho) as [F1 F2]. destruct o; try exact Logic.I; [elim (F2 which); reflexivity|elim F1; reflexivity]. }
  assert (Fo : Forall rw_only ops) by (apply Forall_forall; intros o Ho; destruct (F o Ho) as (f & [-> | ->]); exact Logic.I).
  assert (Ee : enabled w (s_chip (snd (run e (run_raw fuel raw0 ops) s3)))).
  { apply masks_stay; [|exact Em]. eapply Forall_impl; [|exact Fo]. intros o Q. destruct o; try elim Q; exact Logic.I. }
  assert (M : mild rw_safe (run_raw fuel raw0 ops)) by (apply mild_run_raw; eapply Forall_impl; [|exact Fo]; intros o Q; apply rw_raw; exact Q).
  cbv zeta. split; [|split].
  - intros b Hw Hx Hb. apply (flag_pin w _ b Ee); [|exact Hw].
    exact (run_inv rw_safe e (up b) (up_ev b) (fun c blk a v => up_wr b c blk a v Hb) _ M s3 Hx).
  - intros Hw Hl. apply (flag_pin w _ 2 Ee); [|exact Hw].
    destruct (run_inv rw_safe e (logged (rxlog (socks (s_chip s3) 0))) (logged_ev _) (logged_wr _) _ M s3 (or_intror eq_refl)) as [U|U]; [exact U|contradiction].
  - intros Hw Hx Hy. apply (flag_pin w _ 2 Ee); [|exact Hw].
    destruct (run_heard e fuel ops s3 Fo (or_intror Hx)) as [U|U]; [exact U|contradiction].
Qed.
Print Assumptions C98_not_lost.

(** clear_interrupts lets go of the pin. *)
Theorem C98_clear :
  forall e mc fuel s d s0 pre outs s1 w s2 mid outs' s3 s4,
    run e (initialize_macraw mc) s = (Done (Ok d), s0) -> run e (run_raw fuel d pre) s0 = (Done outs, s1) ->
    run e (raw_step fuel d (RwEnable w)) s1 = (Done (RwUnit (Ok tt)), s2) ->
    run e (run_raw fuel d mid) s2 = (Done outs', s3) -> (forall o, In o mid -> o <> RwDisable /\ forall v, o <> RwEnable v) ->
    run e (raw_step fuel d RwClear) s3 = (Done (RwUnit (Ok tt)), s4) -> asserted (s_chip s4) = false.
Proof.
  intros e mc fuel s d s0 pre outs s1 w s2 mid outs' s3 s4 R0 R1 R2 R3 Fm R4. destruct (raw_masks e mc fuel s d s0 pre outs s1 w s2 R0 R1 R2) as (-> & E).
  assert (Em : enabled w (s_chip s3)).
  { pose proof (masks_stay e fuel w mid s2) as M. rewrite R3 in M. apply M; [|exact E].
    apply Forall_forall. intros o Ho. destruct (Fm o Ho) as [F1 F2]. destruct o; try exact Logic.I; [elim (F2 which); reflexivity|elim F1; reflexivity]. }
  pose proof (masks_stay e fuel w [RwClear] s3) as M4. cbn [run_raw] in M4. rewrite run_bind, R4 in M4. cbn [fst snd bind run] in M4.
  specialize (M4 ltac:(repeat constructor) Em). rewrite (enabled_pin w _ M4).
  cbn [raw_step] in R4. apply run_map_done in R4 as (r & R4 & [= <-]).
  destruct (C57_clear_interrupts e s3 s4 R4) as (n & _ & _ & _ & (f & X & U)). rewrite X. cbn [set_ir ir].
  apply negb_false_iff, N.eqb_eq. apply N.bits_inj. intros b. rewrite N.land_spec, N.bits_0.
  assert (Z : f mod 256 = 0) by (rewrite <- b2n_u8, U; reflexivity).
  destruct (N.lt_ge_cases b 8) as [Hb|Hb].
  - assert (T : N.testbit (f mod 2 ^ 8) b = false) by (change (2 ^ 8) with 256; rewrite Z; apply N.bits_0).
    rewrite N.mod_pow2_bits_low in T by exact Hb. rewrite T. reflexivity.
  - replace (N.testbit (b2n w) b) with false; [apply andb_false_r|]. symmetry. pose proof (b2n_lt w) as Lw.
    replace (b2n w) with (b2n w mod 2 ^ 8) by (apply N.mod_small; exact Lw). apply N.mod_pow2_bits_high. exact Hb.
Qed.
Print Assumptions C98_clear.

(** disable_interrupts silences it for good, whatever was enabled before and whatever flags are
    up: until the next enable_interrupts. *)
Theorem C98_disabled :
  forall e mc fuel s d s0 pre outs s1 s2 ops,
    run e (initialize_macraw mc) s = (Done (Ok d), s0) -> run e (run_raw fuel d pre) s0 = (Done outs, s1) ->
    run e (raw_step fuel d RwDisable) s1 = (Done (RwUnit (Ok tt)), s2) ->
    (forall w, ~ In (RwEnable w) ops) ->
    asserted (s_chip (snd (run e (run_raw fuel d ops) s2))) = false.
Proof.
  intros e mc fuel s d s0 pre outs s1 s2 ops R0 R1 R2 F. destruct (init_stays e mc s d s0 R0) as (-> & _). apply masked_off.
  pose proof (imr_off e fuel pre s0) as M. rewrite R1 in M. cbn [snd] in M. specialize (M ltac:(rewrite (init_macraw_com e mc s raw0 s0 R0) by discriminate; reflexivity)).
  cbn [raw_step] in R2. apply run_map_done in R2 as (r & R2 & [= <-]).
  destruct (C57_disable_interrupts e s1 s2 R2) as (n & _ & C & _).
  apply (run_inv zero_ok e all_masked masked_ev masked_wr).
  - apply mild_run_raw. apply Forall_forall. intros o Ho. apply z_raw. destruct o; try exact Logic.I. exact (F which Ho).
  - split; [rewrite C; reflexivity|]. rewrite C. change (C_IMR =? SIMR) with false. cbv iota. rewrite com_alone by discriminate. exact M.
Qed.
Print Assumptions C98_disabled.

(** The last clause of C98_not_lost needs its moment with nothing left to read: a program that
    reads one frame of two and then clears the flags is left with a frame waiting and a pin
    that says nothing. *)
Definition late_net : env := script [(27, [EvFrame [x61; x62; x63]; EvFrame [x71]])]%nat.
Theorem C98_waiting_refuted :
  ~ (forall e mc fuel s d s0 w s2 ops outs s3,
      run e (initialize_macraw mc) s = (Done (Ok d), s0) ->
      run e (raw_step fuel d (RwEnable w)) s0 = (Done (RwUnit (Ok tt)), s2) -> N.testbit (b2n w) 2 = true ->
      run e (run_raw fuel d ops) s2 = (Done outs, s3) -> (forall o, In o ops -> o <> RwDisable /\ forall v, o <> RwEnable v) ->
      rx_rsr (socks (s_chip s3) 0) <> 0 -> asserted (s_chip s3) = true).
Proof.
  intros H.
  assert (W : exists s0 s2 s3, run late_net (initialize_macraw my_mac) sys0 = (Done (Ok raw0), s0) /\
    run late_net (raw_step 10 raw0 (RwEnable x04)) s0 = (Done (RwUnit (Ok tt)), s2) /\
    run late_net (run_raw 10 raw0 [RwRead [x00; x00; x00]; RwClear]) s2 = (Done [RwFrame [x61; x62; x63] (Ok 3); RwUnit (Ok tt)], s3) /\
    rx_rsr (socks (s_chip s3) 0) = 3 /\ asserted (s_chip s3) = false).
  { eexists _, _, _. split; [apply run_snd; vm_compute; reflexivity|]. split; [apply run_snd; vm_compute; reflexivity|].
    split; [apply run_snd; vm_compute; reflexivity|]. split; vm_compute; reflexivity. }
  destruct W as (s0 & s2 & s3 & R0 & R2 & R3 & X & A).
  rewrite (H late_net my_mac 10%nat sys0 raw0 s0 x04 s2 _ _ s3 R0 R2 eq_refl R3) in A; [discriminate A| |rewrite X; discriminate].
  intros o [<-|[<-|[]]]; split; discriminate.
Qed.
Print Assumptions C98_waiting_refuted.

(** a frame is there and its flag is up, but nothing was enabled: the pin is silent; then it is
    enabled, and asserted; reading does not change that; clear_interrupts does, and the next
    frame asserts it again; disable_interrupts silences it, flag or no flag *)
Definition pin_net : env := script [(29, [EvFrame [x61; x62; x63]]); (77, [EvFrame [x71]])]%nat.
Example C98_case : exists l1 s1 s2 s3 s4 s5 s6 s7,
  run pin_net (run_life true 10 life_new []) sys0 = (Done (life_new, []), sys0) /\
  run pin_net (lstep true 10 life_new (LInitRaw my_mac)) sys0 = (Done (l1, LInited (Ok tt)), s1) /\
  run pin_net (run_raw 10 raw0 [RwRead []]) s1 = (Done [RwFrame [] (Ok 0)], s2) /\
  ir (socks (s_chip s2) 0) = 4 /\ asserted (s_chip s2) = false /\
  run pin_net (raw_step 10 raw0 (RwEnable x04)) s2 = (Done (RwUnit (Ok tt)), s3) /\ asserted (s_chip s3) = true /\
  run pin_net (run_raw 10 raw0 [RwRead [x00; x00; x00]; RwRead []]) s3 = (Done [RwFrame [x61; x62; x63] (Ok 3); RwFrame [] (Ok 0)], s4) /\
  asserted (s_chip s4) = true /\ rx_rsr (socks (s_chip s4) 0) = 0 /\
  run pin_net (raw_step 10 raw0 RwClear) s4 = (Done (RwUnit (Ok tt)), s5) /\ asserted (s_chip s5) = false /\ rx_rsr (socks (s_chip s5) 0) = 0 /\
  run pin_net (run_raw 10 raw0 [RwRead []; RwRead []; RwRead []; RwRead []]) s5 = (Done [RwFrame [] (Ok 0); RwFrame [] (Ok 0); RwFrame [] (Ok 0); RwFrame [] (Ok 0)], s6) /\
  rx_rsr (socks (s_chip s6) 0) <> 0 /\ asserted (s_chip s6) = true /\
  run pin_net (raw_step 10 raw0 RwDisable) s6 = (Done (RwUnit (Ok tt)), s7) /\ ir (socks (s_chip s7) 0) = 4 /\ asserted (s_chip s7) = false.
Proof.
  eexists _, _, _, _, _, _, _, _. split; [reflexivity|].
  repeat match goal with |- _ /\ _ => split; [match goal with |- run _ _ _ = _ => apply run_snd | |- _ => idtac end; vm_compute; first [reflexivity|discriminate]|] end. vm_compute. reflexivity.
Qed.
