(** Programs over ThreeWire: the chip stops listening during initialisation. *)
From Verif Require Export ThreeWireFacts RawHistory.
From Verif Require Import ProgFacts Datasheet.
From Verif Require InitFacts ComFacts.

(** ** Three-wire: a chip that has been told to send for ever *)
(** chip select is never released, so a read frame of variable length never ends *)
Definition deaf (st : spi_state) : Prop := exists blk a, st = Data blk false a None.
Fixpoint no_select {A} (p : sprog A) : Prop :=
  match p with
  | SRet _ | SPanic _ | SSpin => True
  | STransaction _ _ => False
  | SWrite _ k => forall r, no_select (k r)
  | STransfer _ k => forall gr, no_select (k gr)
  end.
Lemma no_select_bind {A B} (p : sprog A) (f : A -> sprog B) : no_select p -> (forall a, no_select (f a)) -> no_select (sbind p f).
Proof. induction p; cbn; auto. Qed.
Lemma no_select_read checked : forall fuel c a d, no_select (tw_read_loop checked fuel c a d).
Proof.
  induction fuel as [|fuel IH]; intros c a [|b d]; cbn [tw_read_loop no_select]; auto.
  intros [u|er]; [|exact I]. intros [u'|er]; [|exact I]. intros [g [u2|er]]; [|exact I]. cbn [snd].
  destruct (add_u16 _ _ _); [|exact I]. apply no_select_bind; [apply IH|intros; exact I].
Qed.
Lemma no_select_write checked : forall fuel c a d, no_select (tw_write_loop checked fuel c a d).
Proof.
  induction fuel as [|fuel IH]; intros c a [|b d]; cbn [tw_write_loop no_select]; auto.
  intros [u|er]; [|exact I]. intros [u'|er]; [|exact I]. intros [u2|er]; [|exact I].
  destruct (add_u16 _ _ _); [apply IH|exact I].
Qed.
Lemma no_select_three_wire {A} checked (p : prog A) : no_select (over_three_wire checked p).
Proof.
  unfold over_three_wire. induction p as [a|w| |b a d k IH|b a d k IH]; cbn [plug no_select]; auto; apply no_select_bind; auto.
  - apply no_select_read.
  - apply no_select_write.
Qed.
Lemma deaf_bytes e : forall m st s, deaf st ->
  deaf (fst (snd (spi_bytes e m (st, s)))) /\ elapsed e s (snd (snd (spi_bytes e m (st, s)))).
Proof.
  induction m as [|b m IH]; intros st s H; [split; [exact H|apply elapsed_refl]|]. destruct H as (blk & a & ->).
  cbn [spi_bytes spi_byte after_byte]. specialize (IH (Data blk false (next_addr a) None) (tick e s) ltac:(now exists blk, (next_addr a))).
  destruct (spi_bytes e m _) as [l x]. cbn [fst snd] in *. destruct IH as [I1 I2]. split; [exact I1|].
  eapply elapsed_trans; [apply elapsed_tick|exact I2].
Qed.
Lemma deaf_run {A} e (p : sprog A) : no_select p -> forall st s, deaf st ->
  elapsed e s (snd (snd (spi_run e p (st, s)))).
Proof.
  induction p as [a|w| |ops k IH|l k IH|l k IH]; cbn [no_select spi_run]; intros H st s D; try apply elapsed_refl; [contradiction| |];
    cbn [fst snd]; destruct (fails e (s_call s)) as [[b er]|];
    match goal with |- context [spi_bytes e ?m (st, s)] =>
      destruct (deaf_bytes e m st s D) as [D1 D2]; destruct (spi_bytes e m (st, s)) as [g [st1 s1]] end;
    cbn [fst snd] in *; (eapply elapsed_trans; [apply elapsed_call; exact D2|]); apply IH; auto.
Qed.

(** the write frames of an initialisation, one SpiBus call at a time *)
Lemma quiet_transfer {R} e (m : list byte) (k : list byte * res unit berr -> sprog R) st s st' (Q : spi_state * sys -> Prop) :
  qrun st m = Some st' ->
  (forall g s1, elapsed e s s1 -> Q (snd (spi_run e (k (g, Ok tt)) (st', s1)))) ->
  (forall g st1 s1 er, elapsed e s s1 -> Q (snd (spi_run e (k (g, Err er)) (st1, s1)))) ->
  Q (snd (spi_run e (STransfer m k) (st, s))).
Proof.
  intros H H1 H2. cbn [spi_run fst snd]. destruct (fails e (s_call s)) as [[b er]|].
  - destruct (qrun_prefix _ _ _ b H) as [st2 Hp]. pose proof (qrun_spi e _ _ s _ Hp) as X.
    destruct (spi_bytes e (firstn b m) (st, s)) as [l x]. cbn [snd fst] in *. apply H2, X.
  - pose proof (qrun_spi e _ _ s _ H) as X. destruct (spi_bytes e m (st, s)) as [l x]. cbn [snd fst] in *.
    destruct X as [-> X]. apply H1. exact X.
Qed.
(** the three parts of a ThreeWire write frame of one or four bytes *)
Lemma tw_write1 checked a v : a < 65535 -> tw_write_frame checked COMMON a [v] =
  SWrite (to_be a) (fun r => match r with Err e => SRet (Err e) | Ok _ =>
    SWrite [x03] (fun r => match r with Err e => SRet (Err e) | Ok _ =>
      SWrite [v] (fun r => match r with Err e => SRet (Err e) | Ok _ => SRet (Ok tt) end) end) end).
Proof.
  intros Ha. unfold tw_write_frame. cbn [length tw_write_loop]. cbv zeta. change (snd (tw_chunk (len [v]))) with 1.
  change (u8 (N.lor (N.lor (shl3 COMMON) TW_WRITE_MODE_MASK) (fst (tw_chunk (len [v]))))) with x03.
  change (take 1 [v]) with [v]. change (drop 1 [v]) with (@nil byte).
  unfold add_u16. destruct (N.ltb_spec (a + 1) 65536); [|lia]. reflexivity.
Qed.
Lemma tw_write4 checked a v0 v1 v2 v3 : a < 65532 -> tw_write_frame checked COMMON a [v0; v1; v2; v3] =
  SWrite (to_be a) (fun r => match r with Err e => SRet (Err e) | Ok _ =>
    SWrite [x03] (fun r => match r with Err e => SRet (Err e) | Ok _ =>
      SWrite [v0; v1; v2; v3] (fun r => match r with Err e => SRet (Err e) | Ok _ => SRet (Ok tt) end) end) end).
Proof.
  intros Ha. unfold tw_write_frame. cbn [length tw_write_loop]. cbv zeta. change (snd (tw_chunk (len [v0; v1; v2; v3]))) with 4.
  change (u8 (N.lor (N.lor (shl3 COMMON) TW_WRITE_MODE_MASK) (fst (tw_chunk (len [v0; v1; v2; v3]))))) with x03.
  change (take 4 [v0; v1; v2; v3]) with [v0; v1; v2; v3]. change (drop 4 [v0; v1; v2; v3]) with (@nil byte).
  unfold add_u16. destruct (N.ltb_spec (a + 4) 65536); [|lia]. reflexivity.
Qed.
Lemma tw_read1 checked a v : a < 65535 -> tw_read_frame checked COMMON a [v] =
  SWrite (to_be a) (fun r => match r with Err e => SRet ([v], Err e) | Ok _ =>
    SWrite [x01] (fun r => match r with Err e => SRet ([v], Err e) | Ok _ =>
      STransfer [v] (fun gr => match snd gr with Err e => SRet (fst gr ++ [], Err e) | Ok _ => SRet (fst gr ++ [], Ok tt) end) end) end).
Proof.
  intros Ha. unfold tw_read_frame. cbn [length tw_read_loop]. cbv zeta. change (snd (tw_chunk (len [v]))) with 1.
  change (u8 (N.lor (shl3 COMMON) (fst (tw_chunk (len [v]))))) with x01.
  change (take 1 [v]) with [v]. change (drop 1 [v]) with (@nil byte).
  unfold add_u16. destruct (N.ltb_spec (a + 1) 65536); [|lia]. reflexivity.
Qed.

Lemma read_control c : b2n c mod 8 = 0 -> ctl_write c = false /\ ctl_length c = None.
Proof. destruct c; intros H; try discriminate H; split; reflexivity. Qed.

Section Init.
  Context (e : env) (checked : bool) {A : Type}.
  Notation OW p := (over_three_wire checked p).
  Notation fin p := (exists x, p = Ret x).

  (** the gateway frame leaves the chip deaf *)
  Lemma deaf_gateway (g : ipv4) (k : res unit berr -> prog A) s0 s h : b2n (ip2 g) mod 8 = 0 -> elapsed e s0 s ->
    (forall er, fin (k (Err er))) ->
    elapsed e s0 (snd (snd (spi_run e (OW (BusWrite COMMON c_GATEWAY (octets g) k)) (WaitLo h, s)))).
  Proof.
    intros Hg E0 Hk. destruct (read_control _ Hg) as [C1 C2].
    unfold over_three_wire. cbn [plug]. unfold octets. rewrite tw_write4 by reflexivity.
    assert (Done1 : forall er st1 s1, elapsed e s0 s1 -> elapsed e s0 (snd (snd (spi_run e (OW (k (Err er))) (st1, s1))))).
    { intros er st1 s1 E. destruct (Hk er) as [x ->]. exact E. }
    unfold over_three_wire in Done1. cbn [sbind].
    eapply (quiet_write e _ _ _ s _ (fun y => elapsed e s0 (snd y))); [reflexivity| |intros; apply Done1; eapply elapsed_trans; eauto].
    intros s1 E1. cbn [sbind]. assert (E01 : elapsed e s0 s1) by (eapply elapsed_trans; eauto).
    eapply (quiet_write e _ _ _ s1 WaitHi (fun y => elapsed e s0 (snd y))); [reflexivity| |intros; apply Done1; eapply elapsed_trans; eauto].
    intros s2 E2. cbn [sbind]. assert (E02 : elapsed e s0 s2) by (eapply elapsed_trans; eauto).
    eapply (quiet_write e _ _ _ s2 (Data (ctl_block (ip2 g)) false (next_addr (b2n (ip0 g) * 256 + b2n (ip1 g))) None) (fun y => elapsed e s0 (snd y))); [| |intros; apply Done1; eapply elapsed_trans; eauto].
    { cbn [qrun dec1]. rewrite C1, C2. reflexivity. }
    intros s3 E3. cbn [sbind]. eapply elapsed_trans; [exact E02|]. eapply elapsed_trans; [exact E3|].
    apply deaf_run; [apply (no_select_three_wire checked)|]. eexists _, _. reflexivity.
  Qed.
  (** the mode write that precedes it *)
  Lemma deaf_mode (w : byte) (k : res unit berr -> prog A) s0 s a : elapsed e s0 s ->
    (forall er, fin (k (Err er))) ->
    (forall h s1, elapsed e s0 s1 -> elapsed e s0 (snd (snd (spi_run e (OW (k (Ok tt))) (WaitLo h, s1))))) ->
    elapsed e s0 (snd (snd (spi_run e (OW (BusWrite COMMON c_MODE [w] k)) (Data 0 false a (Some 3), s)))).
  Proof.
    intros E0 Hk H. unfold over_three_wire. cbn [plug]. rewrite tw_write1 by reflexivity.
    assert (Done1 : forall er st1 s1, elapsed e s0 s1 -> elapsed e s0 (snd (snd (spi_run e (OW (k (Err er))) (st1, s1))))).
    { intros er st1 s1 E. destruct (Hk er) as [x ->]. exact E. }
    unfold over_three_wire in Done1. cbn [sbind].
    eapply (quiet_write e _ _ _ s _ (fun y => elapsed e s0 (snd y))); [reflexivity| |intros; apply Done1; eapply elapsed_trans; eauto].
    intros s1 E1. cbn [sbind]. assert (E01 : elapsed e s0 s1) by (eapply elapsed_trans; eauto).
    eapply (quiet_write e _ _ _ s1 _ (fun y => elapsed e s0 (snd y))); [reflexivity| |intros; apply Done1; eapply elapsed_trans; eauto].
    intros s2 E2. cbn [sbind]. assert (E02 : elapsed e s0 s2) by (eapply elapsed_trans; eauto).
    eapply (quiet_write e _ _ _ s2 _ (fun y => elapsed e s0 (snd y))); [reflexivity| |intros; apply Done1; eapply elapsed_trans; eauto].
    intros s3 E3. apply H. eapply elapsed_trans; eauto.
  Qed.
  (** the reset write before that *)
  Lemma deaf_reset (w : byte) (k : res unit berr -> prog A) s0 s : elapsed e s0 s ->
    (forall er, fin (k (Err er))) ->
    (forall a s1, elapsed e s0 s1 -> elapsed e s0 (snd (snd (spi_run e (OW (k (Ok tt))) (Data 0 false a (Some 3), s1))))) ->
    elapsed e s0 (snd (snd (spi_run e (OW (BusWrite COMMON c_MODE [w] k)) (WaitHi, s)))).
  Proof.
    intros E0 Hk H. unfold over_three_wire. cbn [plug]. rewrite tw_write1 by reflexivity.
    assert (Done1 : forall er st1 s1, elapsed e s0 s1 -> elapsed e s0 (snd (snd (spi_run e (OW (k (Err er))) (st1, s1))))).
    { intros er st1 s1 E. destruct (Hk er) as [x ->]. exact E. }
    unfold over_three_wire in Done1. cbn [sbind].
    eapply (quiet_write e _ _ _ s _ (fun y => elapsed e s0 (snd y))); [reflexivity| |intros; apply Done1; eapply elapsed_trans; eauto].
    intros s1 E1. cbn [sbind]. assert (E01 : elapsed e s0 s1) by (eapply elapsed_trans; eauto).
    eapply (quiet_write e _ _ _ s1 _ (fun y => elapsed e s0 (snd y))); [reflexivity| |intros; apply Done1; eapply elapsed_trans; eauto].
    intros s2 E2. cbn [sbind]. assert (E02 : elapsed e s0 s2) by (eapply elapsed_trans; eauto).
    eapply (quiet_write e _ _ _ s2 _ (fun y => elapsed e s0 (snd y))); [reflexivity| |intros; apply Done1; eapply elapsed_trans; eauto].
    intros s3 E3. eapply H. eapply elapsed_trans; eauto.
  Qed.
  (** and the version check that comes first *)
  Lemma deaf_version (k : list byte * res unit berr -> prog A) s0 s : elapsed e s0 s ->
    (forall g er, fin (k (g, Err er))) ->
    (forall g s1, elapsed e s0 s1 -> elapsed e s0 (snd (snd (spi_run e (OW (k (g, Ok tt))) (WaitHi, s1))))) ->
    elapsed e s0 (snd (snd (spi_run e (OW (BusRead COMMON c_VERSION [x00] k)) (WaitHi, s)))).
  Proof.
    intros E0 Hk H. unfold over_three_wire. cbn [plug]. rewrite tw_read1 by reflexivity.
    assert (Done1 : forall g er st1 s1, elapsed e s0 s1 -> elapsed e s0 (snd (snd (spi_run e (OW (k (g, Err er))) (st1, s1))))).
    { intros g er st1 s1 E. destruct (Hk g er) as [x ->]. exact E. }
    unfold over_three_wire in Done1. cbn [sbind].
    eapply (quiet_write e _ _ _ s _ (fun y => elapsed e s0 (snd y))); [reflexivity| |intros; apply Done1; eapply elapsed_trans; eauto].
    intros s1 E1. cbn [sbind]. assert (E01 : elapsed e s0 s1) by (eapply elapsed_trans; eauto).
    eapply (quiet_write e _ _ _ s1 _ (fun y => elapsed e s0 (snd y))); [reflexivity| |intros; apply Done1; eapply elapsed_trans; eauto].
    intros s2 E2. cbn [sbind]. assert (E02 : elapsed e s0 s2) by (eapply elapsed_trans; eauto).
    eapply (quiet_transfer e _ _ _ s2 _ (fun y => elapsed e s0 (snd y))); [reflexivity| |intros; apply Done1; eapply elapsed_trans; eauto].
    intros g s3 E3. apply H. eapply elapsed_trans; eauto.
  Qed.
End Init.

Lemma deaf_device e checked chk mc ip g sn m fuel ops s : g <> Ip4 x00 x00 x00 x00 -> b2n (ip2 g) mod 8 = 0 ->
  elapsed e s (snd (snd (spi_run e (over_three_wire checked (device_program chk (manual_new mc ip g sn) m fuel ops)) (WaitHi, s)))).
Proof.
  intros Hz Hg.
  assert (Rest : forall s1, elapsed e s s1 -> elapsed e s (snd (snd (spi_run e (over_three_wire checked
    (device_program false (manual_new mc ip g sn) m fuel ops)) (WaitHi, s1))))).
  { intros s1 E1. unfold device_program, initialize_with_host, uninit_reset, dev_set_mode, write_frame, try_. cbn [bind].
    apply deaf_reset; [exact E1|intros er; eexists; reflexivity|]. intros a s2 E2. cbn [bind].
    apply deaf_mode; [exact E2|intros er; eexists; reflexivity|]. intros h s3 E3. cbn [bind].
    unfold refresh, manual_new, write_settings, write_if. cbn [hc_gateway].
    assert (Eg : ipv4_eqb g (hc_gateway hc_default) = false).
    { destruct (ipv4_eqb g (hc_gateway hc_default)) eqn:Eg; [|reflexivity]. exfalso. apply Hz. now apply InitFacts.ipv4_eqb_eq in Eg. }
    rewrite Eg. cbn [negb]. unfold write_frame, try_. cbn [bind]. apply deaf_gateway; [exact Hg|exact E3|]. intros er. eexists. reflexivity. }
  destruct chk; [|apply Rest; apply elapsed_refl].
  unfold device_program, initialize_with_host, assert_chip_version, dev_version, read_reg, zeros, try_. cbn [bind repeat].
  apply deaf_version; [apply elapsed_refl|intros got er; eexists; reflexivity|]. intros got s1 E1. cbn [bind snd fst].
  destruct (negb _); [exact E1|]. apply Rest. exact E1.
Qed.

(** ... and says so: without bus errors every write reports success *)
Section Says.
  Context (e : env) (checked : bool) (NF : no_faults e).
  Definition says {A} (G : A -> Prop) (p : prog A) : Prop :=
    forall x, exists a x', spi_run e (over_three_wire checked p) x = (Done a, x') /\ G a.
  Lemma says_ret {A} (G : A -> Prop) a : G a -> says G (Ret a).
  Proof. intros H x. exists a, x. auto. Qed.
  Lemma says_write {A} (G : A -> Prop) blk a d (k : res unit berr -> prog A) : a + len d < 65536 ->
    says G (k (Ok tt)) -> says G (BusWrite blk a d k).
  Proof.
    intros Ha H [st s]. unfold over_three_wire. cbn [plug]. rewrite spi_run_bind.
    pose proof (tw_write_outcome e checked (length d) (N.lor (shl3 blk) TW_WRITE_MODE_MASK) a d (st, s) (le_n _) ltac:(lia)) as O.
    unfold tw_write_frame at 1. destruct (spi_run e _ (st, s)) as [[r|w| |] x1]; cbn [fst] in O; try contradiction.
    - destruct (O NF) as [-> _]. apply H.
    - destruct O as (_ & _ & _ & O). lia.
  Qed.
  Lemma says_bind {A B} (G : A -> Prop) (G' : B -> Prop) (p : prog A) (f : A -> prog B) :
    says G p -> (forall a, G a -> says G' (f a)) -> says G' (bind p f).
  Proof.
    intros Hp Hf x. destruct (Hp x) as (a & x1 & R & Ha). clear Hp. destruct (Hf a Ha x1) as (b & x2 & R2 & Hb). exists b, x2. split; [|exact Hb].
    clear Hf Hb Ha. revert x R. unfold over_three_wire in *.
    induction p as [a'|w| |bl ad d k IH|bl ad d k IH]; intros x R; cbn [bind plug] in *.
    - injection R as -> ->. exact R2.
    - discriminate R.
    - discriminate R.
    - pose proof (spi_run_bind e (tw_read_frame checked bl ad d) (fun r => plug (tw_read_frame checked) (tw_write_frame checked) (k r)) x) as Z.
      pose proof (eq_trans (eq_sym Z) R) as R'. clear Z R. rewrite spi_run_bind.
      destruct (spi_run e (tw_read_frame checked bl ad d) x) as [[r|w| |] y]; try discriminate R'. exact (IH _ _ R').
    - pose proof (spi_run_bind e (tw_write_frame checked bl ad d) (fun r => plug (tw_read_frame checked) (tw_write_frame checked) (k r)) x) as Z.
      pose proof (eq_trans (eq_sym Z) R) as R'. clear Z R. rewrite spi_run_bind.
      destruct (spi_run e (tw_write_frame checked bl ad d) x) as [[r|w| |] y]; try discriminate R'. exact (IH _ _ R').
  Qed.
  Lemma says_try {A E B} (G : B -> Prop) (p : prog (res A E)) (h : E -> B) (k : A -> prog B) :
    says (fun r => exists a, r = Ok a) p -> (forall a, says G (k a)) -> says G (try_ p h k).
  Proof. intros Hp Hk. unfold try_. eapply says_bind; [exact Hp|]. intros r [a ->]. apply Hk. Qed.
  Lemma says_write_frame blk a d : a + len d < 65536 -> says (fun r => exists u, r = Ok u) (write_frame blk a d).
  Proof. intros H. apply says_write; [exact H|]. apply says_ret. eauto. Qed.
  Lemma says_write_if c a d cur cur' f : a + len d < 65536 ->
    (forall h, says (fun r => snd r = Ok tt) (f h)) -> says (fun r => snd r = Ok tt) (write_if c a d cur cur' f).
  Proof. intros Ha H. unfold write_if. destruct c; [|apply H]. apply says_try; [now apply says_write_frame|]. intros _. apply H. Qed.
  Lemma says_init ho m : says (fun r => exists d, r = Ok d) (initialize_with_host false ho m).
  Proof.
    unfold initialize_with_host. apply says_try; [now apply says_write_frame|]. intros _. apply says_try; [now apply says_write_frame|]. intros _.
    eapply says_bind with (G := fun r => snd r = Ok tt).
    - destruct ho as [[|] st c|]; cbn [refresh]; try (apply says_ret; reflexivity).
      eapply says_bind with (G := fun r => snd r = Ok tt); [|intros r ->; apply says_ret; reflexivity].
      unfold write_settings. repeat (apply says_write_if; [reflexivity|intros]). apply says_ret. reflexivity.
    - intros r ->. apply says_ret. eauto.
  Qed.
End Says.
Lemma says_init_checked e checked ho m s : no_faults e -> com (s_chip s) VERSIONR = x04 ->
  exists d x', spi_run e (over_three_wire checked (initialize_with_host true ho m)) (WaitHi, s) = (Done (Ok d), x').
Proof.
  intros NF V. unfold initialize_with_host, assert_chip_version, dev_version, read_reg, zeros, try_. cbn [bind repeat].
  pose proof (says_init e checked NF ho m) as H. unfold initialize_with_host, try_ in H.
  unfold over_three_wire. cbn [plug]. rewrite tw_read1 by reflexivity. cbn [sbind spi_run snd]. rewrite NF.
  change (spi_bytes e (to_be c_VERSION) (WaitHi, s)) with ([x00; x00], (WaitCtl VERSIONR, s)). cbn [fst snd sbind spi_run end_call s_call]. rewrite NF.
  change (spi_bytes e [x01] (WaitCtl VERSIONR, end_call s)) with ([x00], (Data 0 false VERSIONR (Some 1), end_call s)). cbn [fst snd sbind spi_run end_call s_call]. rewrite NF.
  change (spi_bytes e [x00] (Data 0 false VERSIONR (Some 1), end_call (end_call s))) with
    ([com (s_chip (tick e (end_call (end_call s)))) VERSIONR], (WaitHi, tick e (end_call (end_call s)))). cbn [fst snd sbind spi_run bind plug List.app byte0].
  assert (E : com (s_chip (tick e (end_call (end_call s)))) VERSIONR = x04).
  { rewrite <- V. exact (ComFacts.com_alone VERSIONR e ltac:(discriminate) 1 (s_chip s) (s_tick s)). }
  rewrite E. cbn [bind]. change (negb (b2n x04 =? 4)) with false. cbn [bind].
  destruct (H (WaitHi, end_call (tick e (end_call (end_call s))))) as (r & x' & R & (d & ->)). eauto.
Qed.
