(** C80-C83, C87: the whole life of a chip in a program, from [UninitializedDevice::new] through
    initialisations, calls, resets and re-initialisations. *)
From Verif Require Import LifeFacts LifeWire SpiFacts Cases.
From Verif Require Import Datasheet.

Definition not_reset (o : op) : Prop := o <> OpDevice QResetDevice.

(** ** C80 *)
(** The addresses given to initialize_advanced stay in the chip at every moment of every
    program that does not call reset_device: after each call, and where a call was left
    unfinished, bus errors included. *)
Theorem C80_addresses_stay_partial :
  forall e chk mc ip gw sn m s d s1, run e (initialize_advanced chk mc ip gw sn m) s = (Done (Ok d), s1) ->
    forall fuel ops o s2, Forall not_reset ops -> run e (run_ops fuel (mkApp d [] 0) ops) s1 = (o, s2) ->
      fld (s_chip s2) GAR 4 = [ip0 gw; ip1 gw; ip2 gw; ip3 gw] /\ fld (s_chip s2) SUBR 4 = [ip0 sn; ip1 sn; ip2 sn; ip3 sn] /\
      fld (s_chip s2) SHAR 6 = [m0 mc; m1 mc; m2 mc; m3 mc; m4 mc; m5 mc] /\ fld (s_chip s2) SIPR 4 = [ip0 ip; ip1 ip; ip2 ip; ip3 ip].
Proof.
  intros e chk mc ip gw sn m s d s1 R fuel ops o s2 F R2.
  pose proof (init_advanced_fields e chk mc ip gw sn m s d s1 R) as (A1 & A2 & A3 & A4).
  assert (K : forall x n, GAR <= x -> x + N.of_nat n <= SIPR + 4 -> fld (s_chip s2) x n = fld (s_chip s1) x n).
  { intros x n H1 H2. apply com_list_ext. intros y Hy. pose proof (run_ops_addr_keep e y fuel ops (mkApp d [] 0) s1) as K. rewrite R2 in K.
    apply K; [unfold addr_range; lia|intros ? ? []|exact F]. }
  rewrite !K by now vm_compute. auto.
Qed.
Print Assumptions C80_addresses_stay_partial.

(** With reset_device allowed: at every moment either all are as configured, or all are zero. *)
Theorem C80_addresses_all_or_none_partial :
  forall e chk mc ip gw sn m s d s1, run e (initialize_advanced chk mc ip gw sn m) s = (Done (Ok d), s1) ->
    forall fuel ops o s2, run e (run_ops fuel (mkApp d [] 0) ops) s1 = (o, s2) ->
      (fld (s_chip s2) GAR 4 = [ip0 gw; ip1 gw; ip2 gw; ip3 gw] /\ fld (s_chip s2) SUBR 4 = [ip0 sn; ip1 sn; ip2 sn; ip3 sn] /\
       fld (s_chip s2) SHAR 6 = [m0 mc; m1 mc; m2 mc; m3 mc; m4 mc; m5 mc] /\ fld (s_chip s2) SIPR 4 = [ip0 ip; ip1 ip; ip2 ip; ip3 ip]) \/
      (forall x, GAR <= x < SIPR + 4 -> com (s_chip s2) x = x00).
Proof.
  intros e chk mc ip gw sn m s d s1 R fuel ops o s2 R2.
  pose proof (init_advanced_fields e chk mc ip gw sn m s d s1 R) as (A1 & A2 & A3 & A4).
  pose proof (run_ops_addr e (com (s_chip s1)) fuel ops (mkApp d [] 0) s1 (fun _ _ (H : In _ []) => match H with end) (or_introl (fun _ _ => eq_refl))) as K.
  rewrite R2 in K. destruct K as [K|K]; [left|right; exact K]. cbn [snd] in K.
  assert (Q : forall x n, GAR <= x -> x + N.of_nat n <= SIPR + 4 -> fld (s_chip s2) x n = fld (s_chip s1) x n).
  { intros x n H1 H2. apply com_list_ext. intros y Hy. apply K. unfold addr_range. lia. }
  rewrite !Q by now vm_compute. auto.
Qed.
Print Assumptions C80_addresses_all_or_none_partial.

Definition home_mac : mac := Mac x02 x03 x04 x05 x06 x07.
Definition home_mode : Mode := mkMode WolIgnore PingRespond CtEthernet ArpDropAfterUse.
Definition home_setup : setup := IAdvanced home_mac (Ip4 x0a x00 x00 x02) (Ip4 x0a x00 x00 x01) (Ip4 xff xff xff x00).
(** a program whose connect loses the bus half way through *)
Example C80_case : exists d s1 a s2,
  run (with_fault 18 1 quiet) (initialize_advanced true home_mac (Ip4 x0a x00 x00 x02) (Ip4 x0a x00 x00 x01) (Ip4 xff xff xff x00) home_mode) sys0 = (Done (Ok d), s1) /\
  run (with_fault 18 1 quiet) (run_ops 5 (mkApp d [] 0) [OpTcpSocket; OpTcpConnect 0 (V4 (Addr4 (Ip4 x0a x00 x00 x09) 80)); OpDevice QIp]) s1 =
    (Done (a, [RTcpSocket (Ok 0%nat); RTcpConnect (Err (NbOther (TOther 7))); RDevice (DIp (Ok (Ip4 x0a x00 x00 x02)))]), s2) /\
  fld (s_chip s2) SHAR 6 = [x02; x03; x04; x05; x06; x07] /\ fld (s_chip s2) SIPR 4 = [x0a; x00; x00; x02].
Proof. eexists _, _, _, _. split; [apply run_snd; vm_compute; reflexivity|]. split; [apply run_snd; vm_compute; reflexivity|]. split; vm_compute; reflexivity. Qed.

(** The same over the whole life of the chip: from a successful initialize_advanced to the next
    call that resets it, the addresses stay, whatever devices the program puts away, wakes up,
    borrows or makes anew, and also when the calls come from a device that was put away before
    that initialisation. *)
Theorem C80_addresses_until_reset_partial :
  forall e chk fuel before s l outs s1 mc ip gw sn m l1 s2, run e (run_life chk fuel life_new before) s = (Done (l, outs), s1) ->
    run e (lstep chk fuel l (LInit (IAdvanced mc ip gw sn) m)) s1 = (Done (l1, LInited (Ok tt)), s2) ->
    forall ops o s3, Forall no_reset ops -> run e (run_life chk fuel l1 ops) s2 = (o, s3) ->
      fld (s_chip s3) GAR 4 = [ip0 gw; ip1 gw; ip2 gw; ip3 gw] /\ fld (s_chip s3) SUBR 4 = [ip0 sn; ip1 sn; ip2 sn; ip3 sn] /\
      fld (s_chip s3) SHAR 6 = [m0 mc; m1 mc; m2 mc; m3 mc; m4 mc; m5 mc] /\ fld (s_chip s3) SIPR 4 = [ip0 ip; ip1 ip; ip2 ip; ip3 ip].
Proof.
  intros e chk fuel before s l outs s1 mc ip gw sn m l1 s2 R0 R1 ops o s3 F R2.
  pose proof (run_life_ok e chk fuel before life_new s _ s1 (conj (fun _ _ (H : In _ []) => match H with end) Logic.I) R0) as K0. cbn [fst] in K0.
  destruct (lstep_common e chk fuel l _ s1 _ s2 K0 R1) as (K1 & _). cbn [fst] in K1.
  assert (A : exists d t, run e (initialize_advanced chk mc ip gw sn m) t = (Done (Ok d), s2)).
  { unfold lstep in R1. destruct (ph l); try discriminate R1. apply run_bind_done in R1 as ([d|x] & t & R & R1); cbn [run] in R1; [|discriminate R1].
    injection R1 as _ <-. eauto. }
  destruct A as (d & t & A). pose proof (init_advanced_fields e chk mc ip gw sn m t d s2 A) as (A1 & A2 & A3 & A4).
  assert (Q : forall x n, GAR <= x -> x + N.of_nat n <= SIPR + 4 -> fld (s_chip s3) x n = fld (s_chip s2) x n).
  { intros x n H1 H2. apply com_list_ext. intros y Hy. apply (run_life_addr e y chk fuel) with (2 := K1) (3 := F) (4 := R2). unfold addr_range. lia. }
  rewrite !Q by now vm_compute. auto.
Qed.
Print Assumptions C80_addresses_until_reset_partial.
Definition abroad_setup : setup := IAdvanced home_mac (Ip4 xc0 xa8 x01 x07) (Ip4 xc0 xa8 x01 x01) (Ip4 xff xff xff x00).
(** two devices put away and woken up in turn after the last initialisation *)
Example C80_case_asleep : exists l s1 l1 s2 l2 outs s3,
  run quiet (run_life true 5 life_new [LInit abroad_setup home_mode; LCall OpUdpSocket; LSleep; LNew]) sys0 = (Done (l, [LInited (Ok tt); LOut (RUdpSocket (Ok 0%nat)); LMade; LMade]), s1) /\
  run quiet (lstep true 5 l (LInit home_setup home_mode)) s1 = (Done (l1, LInited (Ok tt)), s2) /\
  run quiet (run_life true 5 l1 [LCall OpTcpSocket; LSleep; LWakeRef 0; LCall (OpUdpBind 0 53); LSleep; LWake 1; LCall (OpDevice QIp)]) s2 = (Done (l2, outs), s3) /\
  outs = [LOut (RTcpSocket (Ok 1%nat)); LMade; LMade; LOut (RUdpUnit (Ok tt)); LMade; LMade; LOut (RDevice (DIp (Ok (Ip4 x0a x00 x00 x02))))] /\
  length (asleep l2) = 1%nat /\ fld (s_chip s3) SIPR 4 = [x0a; x00; x00; x02].
Proof.
  eexists _, _, _, _, _, _, _. split; [apply run_snd; vm_compute; reflexivity|]. split; [apply run_snd; vm_compute; reflexivity|].
  split; [apply run_snd; vm_compute; reflexivity|]. split; [reflexivity|]. split; [reflexivity|]. vm_compute; reflexivity.
Qed.

(** Full statement: "a Device keeps the addresses it was initialised with for as long as it
    lives".  False: reset_device resets the chip and nothing writes them again, whatever the
    program does with the device afterwards. *)
Theorem C80_addresses_stay_refuted :
  (forall e fuel a s a' s1, good (handles a) -> run e (step fuel a (OpDevice QResetDevice)) s = (Done (a', RDevice (DUnit (Ok tt))), s1) ->
     forall ops o s2, run e (run_ops fuel a' ops) s1 = (o, s2) -> forall x, GAR <= x < SIPR + 4 -> com (s_chip s2) x = x00) /\
  exists d s1 a s2, run quiet (run_setup true home_setup home_mode) sys0 = (Done (Ok d), s1) /\
    fld (s_chip s1) SIPR 4 = [x0a; x00; x00; x02] /\
    run quiet (run_ops 5 (mkApp d [] 0) [OpDevice QResetDevice; OpDevice QIp]) s1 =
      (Done (a, [RDevice (DUnit (Ok tt)); RDevice (DIp (Ok (Ip4 x00 x00 x00 x00)))]), s2).
Proof.
  split.
  - intros e fuel a s a' s1 G R ops o s2 R2 x Hx.
    assert (A : addr_inv (fun _ => x00) (s_chip s1)).
    { cbn [step] in R. apply run_bind_done in R as (r & s3 & R3 & R). cbn [run] in R. injection R as <- -> <-.
      cbn [run_devop] in R3. apply run_map_done in R3 as (r & R3 & [= <-]). left. intros y Hy. rewrite (run_reset_ok e _ _ R3). apply reset_zero. exact Hy. }
    pose proof (run_ops_addr e (fun _ => x00) fuel ops a' s1 (run_good e fuel a _ s a' _ s1 G R) A) as K. rewrite R2 in K.
    destruct K as [K|K]; apply K; exact Hx.
  - eexists _, _, _, _. split; [apply run_snd; vm_compute; reflexivity|]. split; [vm_compute; reflexivity|]. apply run_snd; vm_compute; reflexivity.
Qed.
Print Assumptions C80_addresses_stay_refuted.
(** Nor does a device that slept while another one was initialised find its addresses again:
    waking it up writes nothing. *)
Theorem C80_addresses_asleep_refuted :
  exists l s, run quiet (run_life true 5 life_new
      [LInit home_setup home_mode; LCall (OpDevice QIp); LSleep; LNew; LInit abroad_setup home_mode; LWake 0; LCall (OpDevice QIp)]) sys0 =
    (Done (l, [LInited (Ok tt); LOut (RDevice (DIp (Ok (Ip4 x0a x00 x00 x02)))); LMade; LMade; LInited (Ok tt); LMade;
               LOut (RDevice (DIp (Ok (Ip4 xc0 xa8 x01 x07))))]), s).
Proof. eexists _, _. apply run_snd; vm_compute; reflexivity. Qed.
Print Assumptions C80_addresses_asleep_refuted.

(** ** C81 *)
(** Over initialisations, calls, resets and devices put away and woken up, in any order and with
    any bus answers: live handles have pairwise different socket numbers below 8, and while the
    program holds an [UninitializedDevice] or a [RawDevice] there is no live handle.  Not with
    [UninitializedDevice::new] on a used bus, nor with both resets and activate_ref. *)
Theorem C81_handles_over_resets_partial :
  forall chk fuel ops tr l outs, Forall (fun q => q <> LNew) ops ->
    Forall (fun q => q <> LReset) ops \/ Forall (fun q => forall k, q <> LWakeRef k) ops ->
    exec (run_life chk fuel life_new ops) tr (Done (l, outs)) ->
    (forall h1 x1 h2 x2, In (h1, x1) (lhandles l) -> In (h2, x2) (lhandles l) -> h1 <> h2 ->
       index (handle_socket x1) <> index (handle_socket x2)) /\
    (forall h x, In (h, x) (lhandles l) -> index (handle_socket x) < 8) /\
    (ph l = Fresh \/ (exists r, ph l = RawUp r) -> lhandles l = []).
Proof.
  intros chk fuel ops tr l outs F H X.
  assert (B : exists b, Forall (allowed b) ops).
  { destruct H as [H|H]; [exists true|exists false]; rewrite Forall_forall in *; intros q Hin; specialize (F q Hin); specialize (H q Hin);
      destruct q; cbn [allowed]; try exact Logic.I; try reflexivity; try congruence. }
  destruct B as (b & B). pose proof (run_life_inv b chk fuel ops life_new tr _ (conj eq_refl eq_refl) B X) as I. cbn [fst] in I.
  destruct (life_pool b l I) as (d & P). split; [|split].
  - exact (inv_unique _ P).
  - intros h x Hin. destruct (pi_socket _ P h x Hin) as (i & Hi & -> & _). exact Hi.
  - unfold life_inv in I. intros [E|(r & E)]; rewrite E in I; apply I.
Qed.
Print Assumptions C81_handles_over_resets_partial.

(** With [UninitializedDevice::new] on a bus that was used before: after a successful
    initialisation, a program that uses only handles obtained since then has pairwise different
    socket numbers among those, whatever older handles are still alive. *)
Theorem C81_handles_since_initialisation_partial :
  forall chk fuel before k m calls tr1 tr2 tr3 l0 outs0 l1 l2 outs2,
    exec (run_life chk fuel life_new before) tr1 (Done (l0, outs0)) ->
    exec (lstep chk fuel l0 (LInit k m)) tr2 (Done (l1, LInited (Ok tt))) ->
    Forall (fun o => forall h, op_handle o = Some h -> (lfresh l0 <= h)%nat) calls ->
    exec (run_life chk fuel l1 (map LCall calls)) tr3 (Done (l2, outs2)) ->
    forall h1 x1 h2 x2, In (h1, x1) (lhandles l2) -> In (h2, x2) (lhandles l2) -> (lfresh l0 <= h1)%nat -> (lfresh l0 <= h2)%nat ->
      h1 <> h2 -> index (handle_socket x1) <> index (handle_socket x2).
Proof.
  intros chk fuel before k m calls tr1 tr2 tr3 l0 outs0 l1 l2 outs2 X1 X2 F X3 h1 x1 h2 x2 H1 H2 L1 L2 Hn.
  pose proof (run_life_below chk fuel before life_new tr1 _ (fun _ _ (H : In _ []) => match H with end) X1) as B. cbn [fst] in B.
  destruct (init_step chk fuel l0 k m tr2 _ X2 eq_refl) as (d & P & Eh & Ef). cbn [fst] in *.
  destruct (since_calls chk (lfresh l0) fuel calls l1 (ds_new d) tr3 (l2, outs2) P) as (d' & _ & I); auto.
  - unfold since, filt. cbn [handles dev fresh]. rewrite Eh, keep_none by exact B. apply pool_new.
  - rewrite Ef. lia.
  - apply (inv_unique _ I h1 x1 h2 x2); auto; cbn; apply in_keep; split; auto; now apply Nat.leb_le.
Qed.
Print Assumptions C81_handles_since_initialisation_partial.

(** Full statement: "all live handles have pairwise different socket numbers".  False once
    [UninitializedDevice::new] is called on the bus [release] gave back: the new device hands
    out socket 0 again while the old handle of socket 0 is still alive; closing through the old
    one closes the socket the new one has bound. *)
Definition two_lives : list lop :=
  [LInit home_setup home_mode; LCall OpUdpSocket; LNew; LInit home_setup home_mode; LCall OpUdpSocket; LCall (OpUdpBind 1 5000)].
Theorem C81_handles_over_lives_refuted :
  exists l outs s, run quiet (run_life true 5 life_new two_lives) sys0 = (Done (l, outs), s) /\
    outs = [LInited (Ok tt); LOut (RUdpSocket (Ok 0%nat)); LMade; LInited (Ok tt); LOut (RUdpSocket (Ok 1%nat)); LOut (RUdpUnit (Ok tt))] /\
    (exists x1 x2, In (0%nat, x1) (lhandles l) /\ In (1%nat, x2) (lhandles l) /\ index (handle_socket x1) = index (handle_socket x2)) /\
    sr (socks (s_chip s) 0) = SOCK_UDP /\
    exists l' s', run quiet (run_life true 5 l [LCall (OpUdpClose 0)]) s = (Done (l', [LOut (RUdpUnit (Ok tt))]), s') /\
      lookup 1 (lhandles l') <> None /\ sr (socks (s_chip s') 0) = SOCK_CLOSED.
Proof.
  eexists _, _, _. split; [apply run_snd; vm_compute; reflexivity|]. split; [reflexivity|].
  split; [eexists _, _; split; [left; reflexivity|]; split; [right; left; reflexivity|]; reflexivity|].
  split; [vm_compute; reflexivity|]. eexists _, _. split; [apply run_snd; vm_compute; reflexivity|]. split; [discriminate|]. vm_compute; reflexivity.
Qed.
Print Assumptions C81_handles_over_lives_refuted.
(** Nor with activate_ref and a reset, without [UninitializedDevice::new]: [Device::reset] checks
    that the borrowed pool is full and leaves the inactive device alive, so that both it and the
    device initialised after the reset hand out socket 0. *)
Theorem C81_handles_by_reference_refuted :
  exists l outs s, run quiet (run_life true 5 life_new
      [LInit home_setup home_mode; LSleep; LWakeRef 0; LReset; LInit home_setup home_mode; LCall OpUdpSocket; LCall (OpUdpBind 0 5000);
       LSleep; LWakeRef 0; LCall OpTcpSocket]) sys0 = (Done (l, outs), s) /\
    nth 3 outs LNone = LResetR (Ok tt) /\ nth 5 outs LNone = LOut (RUdpSocket (Ok 0%nat)) /\ nth 9 outs LNone = LOut (RTcpSocket (Ok 1%nat)) /\
    (exists x1 x2, In (0%nat, x1) (lhandles l) /\ In (1%nat, x2) (lhandles l) /\ index (handle_socket x1) = index (handle_socket x2)) /\
    sr (socks (s_chip s) 0) = SOCK_UDP /\
    exists l' s', run quiet (run_life true 5 l [LCall (OpTcpClose 1)]) s = (Done (l', [LOut (RTcpClose (Ok tt))]), s') /\
      lookup 0 (lhandles l') <> None /\ sr (socks (s_chip s') 0) = SOCK_CLOSED.
Proof.
  eexists _, _, _. split; [apply run_snd; vm_compute; reflexivity|]. split; [reflexivity|]. split; [reflexivity|]. split; [reflexivity|].
  split; [eexists _, _; split; [left; reflexivity|]; split; [right; left; reflexivity|]; reflexivity|].
  split; [vm_compute; reflexivity|]. eexists _, _. split; [apply run_snd; vm_compute; reflexivity|]. split; [discriminate|]. vm_compute; reflexivity.
Qed.
Print Assumptions C81_handles_by_reference_refuted.
(** a device used by reference and by value without a reset: three handles, three sockets *)
Example C81_case_asleep : exists l outs s,
  run quiet (run_life true 5 life_new [LInit home_setup home_mode; LCall OpTcpSocket; LSleep; LWakeRef 0; LCall OpUdpSocket; LSleep; LWake 0; LCall OpUdpSocket]) sys0 =
    (Done (l, outs), s) /\ map (fun p => (fst p, index (handle_socket (snd p)))) (lhandles l) = [(0%nat, 0); (1%nat, 1); (2%nat, 2)].
Proof. eexists _, _, _. split; [apply run_snd; vm_compute; reflexivity|]. reflexivity. Qed.
(** both partial statements on the same program: three handles, two of them older than the
    second initialisation, which is followed by a reset and a third one *)
Example C81_case : exists l1 o1 s1 l2 o2 s2,
  run quiet (run_life true 5 life_new [LInit home_setup home_mode; LCall OpTcpSocket; LCall (OpTcpClose 0); LReset;
    LInit (IDhcp home_mac) home_mode; LCall OpUdpSocket; LCall OpTcpSocket]) sys0 = (Done (l1, o1), s1) /\ nth 3 o1 LNone = LResetR (Ok tt) /\
  map (fun p => (fst p, index (handle_socket (snd p)))) (lhandles l1) = [(1%nat, 0); (2%nat, 1)] /\
  run quiet (run_life true 5 l1 [LNew; LInit (IDhcp home_mac) home_mode; LCall OpTcpSocket; LCall OpUdpSocket]) s1 = (Done (l2, o2), s2) /\
  map (fun p => (fst p, index (handle_socket (snd p)))) (lhandles l2) = [(1%nat, 0); (2%nat, 1); (3%nat, 0); (4%nat, 1)].
Proof.
  eexists _, _, _, _, _, _. split; [apply run_snd; vm_compute; reflexivity|]. split; [reflexivity|]. split; [reflexivity|].
  split; [apply run_snd; vm_compute; reflexivity|]. reflexivity.
Qed.

(** ** C82 *)
(** [common_after f q r]: what the call [q] that answered [r] makes of common registers holding
    [f] (LifeFacts.v, a table of the calls).  All registers but PHYCFGR, which the PHY sets;
    from any chip state, whatever the network does, for every program in which no call that is
    to change common registers reported a bus error; other calls may have. *)
Theorem C82_common_registers_follow_the_calls :
  forall e chk fuel ops s l outs s', run e (run_life chk fuel life_new ops) s = (Done (l, outs), s') ->
    Forall (fun p => clean (fst p) (snd p)) (combine ops outs) ->
    forall x, x <> PHYCFGR ->
      com (s_chip s') x = fold_left (fun f p => common_after f (fst p) (snd p)) (combine ops outs) (com (s_chip s)) x.
Proof.
  intros e chk fuel ops s l outs s' R F. refine (proj2 (run_life_common e chk fuel ops life_new s l outs s' _ R F)).
  split; [intros ? ? []|exact Logic.I].
Qed.
Print Assumptions C82_common_registers_follow_the_calls.
(** settings, initialisation, calls (one with a bus error), changed settings, a reset, MACRAW *)
Definition settings_life : list lop :=
  [LUninit (USetRetryCount x03); LInit home_setup home_mode; LCall (OpDevice (QSetRetryTimeout (mkRetryTime 500))); LCall OpUdpSocket;
   LCall (OpUdpBind 0 53); LCall (OpDevice (QSetRetryCount x05))].
Example C82_case : exists l outs s, run (with_fault 12 0 quiet) (run_life true 5 life_new settings_life) sys0 = (Done (l, outs), s) /\
  Forall (fun p => clean (fst p) (snd p)) (combine settings_life outs) /\
  nth 4 outs LNone = LOut (RUdpUnit (Err (UOther 7))) /\
  fld (s_chip s) RTR 2 = [x01; xf4] /\ com (s_chip s) RCR = x05 /\ fld (s_chip s) SIPR 4 = [x0a; x00; x00; x02].
Proof.
  eexists _, _, _. split; [apply run_snd; vm_compute; reflexivity|]. split; [repeat constructor|]. split; [reflexivity|].
  split; [vm_compute; reflexivity|]. split; vm_compute; reflexivity.
Qed.

(** ** C83 *)
(** Whatever was set before (on the UninitializedDevice or by an earlier device), after a
    successful initialisation the retry time is 200 ms (2000 units), the retry count 8, and the
    mode the one given to the initialize function. *)
Theorem C83_settings_survive_partial :
  (forall e chk k m s d s', run e (run_setup chk k m) s = (Done (Ok d), s') ->
     fld (s_chip s') RTR 2 = [x07; xd0] /\ com (s_chip s') RCR = x08 /\ com (s_chip s') MR = u8 (mode_to_u8 m)) /\
  (forall e mc s d s', run e (initialize_macraw mc) s = (Done (Ok d), s') ->
     fld (s_chip s') RTR 2 = [x07; xd0] /\ com (s_chip s') RCR = x08 /\ com (s_chip s') MR = x00).
Proof.
  split.
  - intros e chk k m s d s' R. pose proof (setup_timing e chk k m s d s' R) as T. split; [|split].
    + unfold fld. cbn [com_list]. rewrite !T by now vm_compute. reflexivity.
    + rewrite T by now vm_compute. reflexivity.
    + destruct k as [mc|mc ip|mc ip gw sn]; cbn [run_setup] in R.
      * rewrite (init_dhcp_com _ _ _ _ _ _ _ R) by discriminate. reflexivity.
      * unfold initialize_manual in R. rewrite (init_advanced_com _ _ _ _ _ _ _ _ _ _ R) by discriminate. reflexivity.
      * rewrite (init_advanced_com _ _ _ _ _ _ _ _ _ _ R) by discriminate. reflexivity.
  - intros e mc s d s' R. pose proof (init_macraw_com e mc s d s' R) as T. destruct mc. split; [|split].
    + unfold fld. cbn [com_list]. rewrite !T by now vm_compute. reflexivity.
    + rewrite T by now vm_compute. reflexivity.
    + rewrite T by now vm_compute. reflexivity.
Qed.
Print Assumptions C83_settings_survive_partial.
Example C83_case : exists d s1 s2 d2 s3,
  run quiet (run_setup true home_setup home_mode) sys0 = (Done (Ok d), s1) /\
  run quiet (dev_set_retry_count x02) s1 = (Done (Ok tt), s2) /\ com (s_chip s2) RCR = x02 /\
  run quiet (run_setup true home_setup home_mode) s2 = (Done (Ok d2), s3).
Proof.
  eexists _, _, _, _, _. split; [apply run_snd; vm_compute; reflexivity|]. split; [apply run_snd; vm_compute; reflexivity|].
  split; [vm_compute; reflexivity|]. apply run_snd. vm_compute. reflexivity.
Qed.
(** Full statement: "what is set on an UninitializedDevice is in force on the device it becomes". *)
Theorem C83_settings_survive_refuted :
  exists l1 s1 l2 s2,
    run quiet (run_life true 5 life_new [LUninit (USetRetryTimeout (mkRetryTime 500)); LUninit (USetRetryCount x03)]) sys0 =
      (Done (l1, [LDev (DUnit (Ok tt)); LDev (DUnit (Ok tt))]), s1) /\
    fld (s_chip s1) RTR 2 = [x01; xf4] /\ com (s_chip s1) RCR = x03 /\
    run quiet (run_life true 5 l1 [LInit home_setup home_mode]) s1 = (Done (l2, [LInited (Ok tt)]), s2) /\
    fld (s_chip s2) RTR 2 = [x07; xd0] /\ com (s_chip s2) RCR = x08.
Proof.
  eexists _, _, _, _. split; [apply run_snd; vm_compute; reflexivity|]. split; [vm_compute; reflexivity|]. split; [vm_compute; reflexivity|].
  split; [apply run_snd; vm_compute; reflexivity|]. split; vm_compute; reflexivity.
Qed.
Print Assumptions C83_settings_survive_refuted.

(** ** C87 *)
(** the answer [r] of the getter [q] when the common registers hold [f] *)
Definition shows (f : N -> byte) (q : devop) (r : devout) : Prop :=
  match q, r with
  | QGateway, DIp (Ok a) => [ip0 a; ip1 a; ip2 a; ip3 a] = [f GAR; f (GAR + 1); f (GAR + 2); f (GAR + 3)]
  | QSubnetMask, DIp (Ok a) => [ip0 a; ip1 a; ip2 a; ip3 a] = [f SUBR; f (SUBR + 1); f (SUBR + 2); f (SUBR + 3)]
  | QIp, DIp (Ok a) => [ip0 a; ip1 a; ip2 a; ip3 a] = [f SIPR; f (SIPR + 1); f (SIPR + 2); f (SIPR + 3)]
  | QMac, DMac (Ok m) => [m0 m; m1 m; m2 m; m3 m; m4 m; m5 m] = [f SHAR; f (SHAR + 1); f (SHAR + 2); f (SHAR + 3); f (SHAR + 4); f (SHAR + 5)]
  | QVersion, DByte (Ok v) => v = f VERSIONR
  | QRetryTimeout, DRetryTime (Ok t) => rt t = b2n (f RTR) * 256 + b2n (f (RTR + 1))
  | QRetryCount, DByte (Ok n) => n = f RCR
  | (QGateway | QSubnetMask | QIp), DIp (Err _) | QMac, DMac (Err _) | (QVersion | QRetryCount), DByte (Err _) | QRetryTimeout, DRetryTime (Err _) => True
  | QPhyConfig, DPhy _ | (QSetMode _ | QSetRetryTimeout _ | QSetRetryCount _ | QResetDevice), DUnit _ => True
  | _, _ => False
  end.
(** the getters of an [UninitializedDevice] *)
Definition same_getter (u : uop) : option devop :=
  match u with UVersion => Some QVersion | URetryTimeout => Some QRetryTimeout | URetryCount => Some QRetryCount | _ => None end.
Lemma shows_run e q s r s' : run e (run_devop q) s = (Done r, s') -> shows (com (s_chip s)) q r.
Proof.
  intros R. destruct q; cbn [run_devop] in R; apply run_map_done in R as (v & R & ->); cbn [shows]; try exact Logic.I; destruct v as [v|er]; try exact Logic.I.
  - apply (run_getter_at e GAR 4 ipv4_from) in R as ->; [reflexivity|now vm_compute|right; vm_compute; discriminate].
  - apply (run_getter_at e SUBR 4 ipv4_from) in R as ->; [reflexivity|now vm_compute|right; vm_compute; discriminate].
  - apply (run_getter_at e SHAR 6 mac_from) in R as ->; [reflexivity|now vm_compute|right; vm_compute; discriminate].
  - apply (run_getter_at e SIPR 4 ipv4_from) in R as ->; [reflexivity|now vm_compute|right; vm_compute; discriminate].
  - apply (run_getter_at e VERSIONR 1 byte0) in R as ->; [reflexivity|now vm_compute|left; reflexivity].
  - apply (run_getter_at e RTR 2 rt_from_register) in R as ->; [|now vm_compute|right; vm_compute; discriminate].
    cbn [com_list rt_from_register rt]. apply from_be_2.
  - apply (run_getter_at e RCR 1 byte0) in R as ->; [reflexivity|now vm_compute|right; vm_compute; discriminate].
Qed.
(** What a getter answers, at any point of a life, is what the calls so far have put into the
    registers (see C82), whatever the chip held before and the network does; or a bus error. *)
Theorem C87_getters_answer_what_the_calls_set :
  forall e chk fuel ops s l outs s1, run e (run_life chk fuel life_new ops) s = (Done (l, outs), s1) ->
    Forall (fun p => clean (fst p) (snd p)) (combine ops outs) ->
    let f := fold_left (fun f p => common_after f (fst p) (snd p)) (combine ops outs) (com (s_chip s)) in
    (forall q r l' s2, run e (lstep chk fuel l (LCall (OpDevice q))) s1 = (Done (l', LOut (RDevice r)), s2) -> shows f q r) /\
    (forall u q r l' s2, same_getter u = Some q -> run e (lstep chk fuel l (LUninit u)) s1 = (Done (l', LDev r), s2) -> shows f q r).
Proof.
  intros e chk fuel ops s l outs s1 R F f.
  assert (E : forall x, x <> PHYCFGR -> com (s_chip s1) x = f x) by exact (C82_common_registers_follow_the_calls e chk fuel ops s l outs s1 R F).
  assert (S : forall q r, shows (com (s_chip s1)) q r -> shows f q r).
  { intros q r. unfold shows. destruct q, r as [[?|?]|[?|?]|[?|?]|[?|?]|[?|?]|[?|?]]; try exact (fun H => H);
      rewrite !E by (vm_compute; discriminate); exact (fun H => H). }
  split.
  - intros q r l' s2 R2. apply S. unfold lstep in R2. destruct (ph l) as [|d|k|d|]; try discriminate R2.
    + apply run_map_done in R2 as (v & R2 & X). cbn [step] in R2. apply run_map_done in R2 as (w & R2 & ->). injection X as _ ->. exact (shows_run e q s1 _ s2 R2).
    + destruct (nth_error (asleep l) k) as [d|]; [|discriminate R2].
      apply run_map_done in R2 as (v & R2 & X). cbn [step] in R2. apply run_map_done in R2 as (w & R2 & ->). injection X as _ ->. exact (shows_run e q s1 _ s2 R2).
  - intros u q r l' s2 Hu R2. apply S. unfold lstep in R2. destruct (ph l) as [|d|k|d|]; try discriminate R2.
    apply run_map_done in R2 as (v & R2 & X). injection X as _ ->. destruct u; try discriminate Hu; injection Hu as <-.
    + exact (shows_run e QVersion s1 _ s2 R2).
    + exact (shows_run e QRetryTimeout s1 _ s2 R2).
    + exact (shows_run e QRetryCount s1 _ s2 R2).
Qed.
Print Assumptions C87_getters_answer_what_the_calls_set.
(** In terms of the calls alone: after initialize_advanced, until the chip is reset again, the
    getters answer the addresses that were passed, or a bus error. *)
Theorem C87_addresses_read_back :
  forall e chk fuel before s l outs s1 mc ip gw sn m l1 s2, run e (run_life chk fuel life_new before) s = (Done (l, outs), s1) ->
    run e (lstep chk fuel l (LInit (IAdvanced mc ip gw sn) m)) s1 = (Done (l1, LInited (Ok tt)), s2) ->
    forall ops l2 outs2 s3, Forall no_reset ops -> run e (run_life chk fuel l1 ops) s2 = (Done (l2, outs2), s3) ->
      forall q r l3 s4, run e (lstep chk fuel l2 (LCall (OpDevice q))) s3 = (Done (l3, LOut (RDevice r)), s4) ->
        match q, r with
        | QGateway, DIp (Ok a) => a = gw | QSubnetMask, DIp (Ok a) => a = sn | QIp, DIp (Ok a) => a = ip | QMac, DMac (Ok a) => a = mc
        | _, _ => True
        end.
Proof.
  intros e chk fuel before s l outs s1 mc ip gw sn m l1 s2 R0 R1 ops l2 outs2 s3 F R2 q r l3 s4 R3.
  destruct (C80_addresses_until_reset_partial e chk fuel before s l outs s1 mc ip gw sn m l1 s2 R0 R1 ops _ s3 F R2) as (A1 & A2 & A3 & A4).
  assert (S : shows (com (s_chip s3)) q r).
  { unfold lstep in R3. destruct (ph l2) as [|d|k|d|]; try discriminate R3.
    + apply run_map_done in R3 as (v & R3 & X). cbn [step] in R3. apply run_map_done in R3 as (w & R3 & ->). injection X as _ ->. exact (shows_run e q s3 _ s4 R3).
    + destruct (nth_error (asleep l2) k) as [d|]; [|discriminate R3].
      apply run_map_done in R3 as (v & R3 & X). cbn [step] in R3. apply run_map_done in R3 as (w & R3 & ->). injection X as _ ->. exact (shows_run e q s3 _ s4 R3). }
  unfold fld in *. cbn [com_list] in *. destruct q, r as [[a|?]|[a|?]|[?|?]|[?|?]|[?|?]|[?|?]]; try exact Logic.I; cbn [shows] in S.
  - assert (Y : octets a = octets gw) by (exact (eq_trans S A1)). destruct a, gw. injection Y as -> -> -> ->. reflexivity.
  - assert (Y : octets a = octets sn) by (exact (eq_trans S A2)). destruct a, sn. injection Y as -> -> -> ->. reflexivity.
  - assert (Y : mac_octets a = mac_octets mc) by (exact (eq_trans S A3)). destruct a, mc. injection Y as -> -> -> -> -> ->. reflexivity.
  - assert (Y : octets a = octets ip) by (exact (eq_trans S A4)). destruct a, ip. injection Y as -> -> -> ->. reflexivity.
Qed.
Print Assumptions C87_addresses_read_back.
(** a getter on the UninitializedDevice, on the device, with a bus error, and after a reset *)
Example C87_case : exists l outs s, run (with_fault 11 2 quiet) (run_life true 5 life_new
    [LUninit (USetRetryCount x03); LUninit URetryCount; LInit home_setup home_mode; LCall (OpDevice QRetryTimeout); LCall (OpDevice QGateway);
     LCall (OpDevice QMac); LCall (OpDevice QMac); LReset; LUninit UVersion]) sys0 = (Done (l, outs), s) /\
  outs = [LDev (DUnit (Ok tt)); LDev (DByte (Ok x03)); LInited (Ok tt); LOut (RDevice (DRetryTime (Ok (mkRetryTime 2000))));
    LOut (RDevice (DIp (Ok (Ip4 x0a x00 x00 x01)))); LOut (RDevice (DMac (Err 7))); LOut (RDevice (DMac (Ok home_mac))); LResetR (Ok tt); LDev (DByte (Ok x04))].
Proof. eexists _, _, _. split; [apply run_snd; vm_compute; reflexivity|]. reflexivity. Qed.

(** ** C02 over the whole life of the chip *)
(** Over FourWire, every program that initialises, uses, resets, puts away and re-initialises the
    chip goes as it does against the bus of this model: same results, same chip, link idle. *)
Theorem C02_whole_life_four_wire :
  forall e e', happens e' = happens e ->
    (forall j, fails e' j = match fails e j with Some (k, err) => Some ((k - 3)%nat, err) | None => None end) ->
    forall chk fuel ops s,
      spi_run e (over_four_wire (run_life chk fuel life_new ops)) (WaitHi, s) =
      let (o, s') := run e' (run_life chk fuel life_new ops) s in (o, (WaitHi, s')).
Proof.
  intros e e' Hh Hf chk fuel ops s.
  rewrite (run_env e' (four_wire_env e) Hh Hf). eapply four_wire_sim. apply pt_run_life, wired_new.
Qed.
Print Assumptions C02_whole_life_four_wire.
(** a second device takes the chip over while the first is put away; the SPI transaction number
    14 breaks after its eighth byte *)
Notation life_on_wires := (spi_run (with_fault 14 8 quiet) (over_four_wire (run_life true 5 life_new
  [LInit home_setup home_mode; LCall OpTcpSocket; LSleep; LNew; LInit home_setup home_mode; LCall OpUdpSocket; LCall (OpDevice QMac); LCall (OpDevice QMac);
   LWake 0; LCall (OpTcpClose 0); LReset; LUninit UVersion; LInitRaw home_mac; LRawCall RwDisable])) (WaitHi, sys0)).
Example C02_whole_life_case : fst (snd life_on_wires) = WaitHi /\ exists l,
  fst life_on_wires = Done (l, [LInited (Ok tt); LOut (RTcpSocket (Ok 0%nat)); LMade; LMade; LInited (Ok tt); LOut (RUdpSocket (Ok 1%nat));
    LOut (RDevice (DMac (Err 7))); LOut (RDevice (DMac (Ok home_mac))); LMade; LOut (RTcpClose (Ok tt)); LResetR (Ok tt);
    LDev (DByte (Ok x04)); LInited (Ok tt); LRaw (RwUnit (Ok tt))]).
Proof. split; [vm_compute; reflexivity|]. eexists. vm_compute. reflexivity. Qed.
