(** The socket settings (SockRegs.v) over the whole life of a chip (Life.v). *)
From Verif Require Import SockRegs Life LifeFacts LifeWire Commands LifeCalls.

Definition raw_changes (o : rawop) (x : N) : bool :=
  match o with RwEnable _ | RwDisable => x =? Sn_IMR | _ => false end.
Lemma fw_raw_step fuel o : writes (inside 0 (raw_changes o)) (raw_step fuel raw0 o).
Proof.
  assert (H0 : 0 < 8) by reflexivity.
  assert (C : forall R d, len d = 1 -> writes (inside 0 R) (write_frame COMMON c_SOCKET_INTERRUPT_MASK d)).
  { intros R d L. cbn [write_frame writes]. split; [|intros []; exact Logic.I]. left. apply aside_common; [reflexivity|rewrite L; vm_compute; discriminate]. }
  destruct o as [w| | |f|f]; cbn [raw_step raw0 raw_socket]; (apply writes_bind; [|intros; exact Logic.I]);
    unfold raw_enable_interrupts, raw_clear_interrupts, raw_disable_interrupts, raw_read_frame, raw_write_frame, raw_read_body, rx_new, rx_commit, tx_new, tx_write, tx_commit;
    cbn [raw0 raw_socket].
  1: { apply writes_try; [now apply fw_set_interrupt_mask|]. intros. apply writes_try; [now apply C|]. intros. exact Logic.I. }
  1: { now apply fw_reset_interrupt. }
  1: { apply writes_try; [now apply C|]. intros. apply writes_try; [now apply fw_set_interrupt_mask|]. intros. exact Logic.I. }
  - assert (Rd : forall c b, writes (inside 0 (raw_changes (RwRead f))) (rx_read (socket_new 0) c b)).
    { intros c [|v b]; cbn [rx_read]; [exact Logic.I|]. apply writes_slice_to. intros x. apply writes_bind; [apply fw_read_into|]. intros [g [u|er]]; exact Logic.I. }
    apply writes_try. { apply writes_try; [now apply fw_get_receive_size|]. intros z. apply writes_try; [apply fw_read_then|]. intros; exact Logic.I. }
    intros c. destruct (_ =? 0); [exact Logic.I|]. apply writes_bind; [apply Rd|]. intros [h [cn|er]]; cbn [fst snd]; [|exact Logic.I].
    destruct (_ =? 2); [|exact Logic.I]. apply writes_bind.
    { unfold rx_read_upto. destruct (_ <? _); [|apply Rd]. apply writes_slice_to. intros x. apply writes_bind; [apply Rd|]. intros; exact Logic.I. }
    intros [g [cn'|er]]; cbn [fst snd]; [|exact Logic.I]. apply writes_try; [|intros; exact Logic.I].
    apply writes_try; [now apply fw_set_rx_read_pointer|]. intros. apply writes_try; [|intros; exact Logic.I]. now apply fw_command.
  - apply writes_try; [now apply fw_reset_interrupt|]. intros. apply writes_try.
    { apply writes_try; [apply fw_read_then|]. intros. apply writes_try; [apply fw_read_then|]. intros; exact Logic.I. }
    intros c. apply writes_try.
    { destruct (_ || _); [exact Logic.I|]. cbv zeta. apply writes_slice_to. intros x. apply writes_try; [now apply fw_tx|]. intros. destruct (_ <? _); exact Logic.I. }
    intros cn. apply writes_try.
    { apply writes_try; [now apply fw_set_tx_write_pointer|]. intros. apply writes_try; [|intros; exact Logic.I]. now apply fw_command. }
    intros. apply writes_try; [now apply fw_wait_send_ok|]. intros. exact Logic.I.
Qed.

(** the calls that reset the chip *)
Definition life_resets (q : lop) : bool :=
  match q with
  | LUninit UReset | LInit _ _ | LInitRaw _ | LReset => true
  | LCall (OpDevice QResetDevice) => true
  | _ => false
  end.
Definition life_changes (q : lop) : N -> bool :=
  match q with LCall o => changes o | LRawCall o => raw_changes o | _ => fun _ => false end.
Lemma fw_lstep_at chk fuel l q j : wired l -> life_resets q = false ->
  (forall o h y, q = LCall o -> op_handle o = Some h -> lookup h (lhandles l) = Some y -> j = index (handle_socket y)) ->
  (forall o, q = LRawCall o -> j = 0) ->
  writes (inside j (life_changes q)) (lstep chk fuel l q).
Proof.
  intros [G RO] N H1 H2. unfold lstep.
  destruct q as [u|k m|mc|o|o| | | |k|k], (ph l) as [|d|k'|rd|] eqn:P; try exact Logic.I; try discriminate N;
    try solve [destruct (nth_error (asleep l) k); exact Logic.I]; cbn [life_changes].
  - apply writes_bind; [|intros; exact Logic.I].
    destruct u; try discriminate N; [apply (fw_devop j _ (QSetMode m))|apply (fw_devop j _ QVersion)
    |apply (fw_devop j _ (QSetRetryTimeout r))|apply (fw_devop j _ QRetryTimeout)|apply (fw_devop j _ (QSetRetryCount n))
    |apply (fw_devop j _ QRetryCount)]; discriminate.
  - apply writes_bind; [|intros; exact Logic.I]. apply fw_step_at; [exact G|intros ->; discriminate N|]. intros h y Eh L. exact (H1 o h y eq_refl Eh L).
  - destruct (nth_error (asleep l) k') as [d|]; [|exact Logic.I].
    apply writes_bind; [|intros; exact Logic.I]. apply fw_step_at; [exact G|intros ->; discriminate N|]. intros h y Eh L. exact (H1 o h y eq_refl Eh L).
  - destruct rd as [sk]. cbn in RO. subst sk. rewrite (H2 o eq_refl). apply writes_bind; [apply fw_raw_step|intros; exact Logic.I].
Qed.

(** ** A register that nothing but a reset touches *)
Definition untouching (x b a : N) (d : list byte) : Prop :=
  aside b a d \/ (b = 0 /\ a = MR /\ d = [x80]) \/
  exists j, b = BSB_REG j /\ a + len d <= 65536 /\ (x < a \/ a + len d <= x).
Definition at_reset (x : N) (s : sys) : Prop := forall i, regs (socks (s_chip s) i) x = regs_reset x.
Lemma untouching_write e x b a d s : setting x = true -> untouching x b a d -> at_reset x s ->
  at_reset x (write_bytes e b a d s) /\ forall k, at_reset x (write_bytes e b a (firstn k d) s).
Proof.
  intros Hx W J. destruct W as [W|[(-> & -> & ->)|(j & -> & L & W)]].
  - assert (K : inside 0 (fun _ => false) b a d) by now left.
    destruct (kept_write e 0 (fun _ => false) b a d s K) as [K1 K2].
    split; [intros i|intros k i]; [rewrite (K1 i x Hx (or_intror eq_refl))|rewrite (K2 k i x Hx (or_intror eq_refl))]; apply J.
  - assert (W : forall s, at_reset x (write_bytes e 0 MR [x80] s)).
    { intros s1 i. cbn [write_bytes s_chip on_chip]. rewrite wbyte_regs by exact Hx. reflexivity. }
    split; [apply W|]. intros [|k]; cbn [firstn]; [exact J|]. rewrite firstn_nil. apply W.
  - assert (K : inside j (fun y => negb (y =? x)) (BSB_REG j) a d).
    { right. split; [reflexivity|]. split; [exact L|]. intros y H1 H2 _. apply negb_true_iff, N.eqb_neq. lia. }
    assert (F : negb (x =? x) = false) by now rewrite N.eqb_refl.
    destruct (kept_write e j _ _ a d s K) as [K1 K2].
    split; [intros i|intros k i]; [rewrite (K1 i x Hx (or_intror F))|rewrite (K2 k i x Hx (or_intror F))]; apply J.
Qed.
Lemma untouching_run {A} e x (p : prog A) : setting x = true -> writes (untouching x) p -> forall s, at_reset x s -> at_reset x (snd (run e p s)).
Proof.
  intros Hx. induction p as [a|w| |b a d k IH|b a d k IH]; cbn [run writes]; intros M s J; try exact J.
  - unfold bus_read. destruct (fails e (s_call s)) as [[q er]|].
    + pose proof (read_agrees e b (now_in s) (Nat.min q (length d)) a s (fun _ _ _ => eq_refl)) as T. pose proof (read_length e b (Nat.min q (length d)) a s) as L.
      destruct (read_bytes e b a _ s) as [got s1]. cbn [fst snd] in *. apply (IH _ (M (got ++ skipn q d) (Err er) ltac:(rewrite app_length, L, skipn_length; lia))).
      intros i. cbn [end_call s_chip]. rewrite (T i x Hx). apply J.
    + pose proof (read_agrees e b (now_in s) (length d) a s (fun _ _ _ => eq_refl)) as T. pose proof (read_length e b (length d) a s) as L.
      destruct (read_bytes e b a _ s) as [got s1]. cbn [fst snd] in *. apply (IH _ (M _ _ L)). intros i. cbn [end_call s_chip]. rewrite (T i x Hx). apply J.
  - destruct M as [M1 M2]. unfold bus_write. destruct (untouching_write e x b a d s Hx M1 J) as [K1 K2].
    destruct (fails e (s_call s)) as [[q er]|]; apply (IH _ (M2 _)); [exact (K2 q)|exact K1].
Qed.

(** the registers a call is to change, of whatever socket *)
Definition life_touches (q : lop) (x : N) : bool :=
  match q with LInitRaw _ => (x =? Sn_MR) || (x =? Sn_RXBUF_SIZE) || (x =? Sn_TXBUF_SIZE) | _ => life_changes q x end.
Lemma ut_reset x : writes (untouching x) uninit_reset.
Proof. unfold uninit_reset. cbn [write_frame writes]. split; [|intros []; exact Logic.I]. right. left. repeat split. Qed.
Lemma ut_aside x {A} (p : prog A) : writes aside p -> writes (untouching x) p.
Proof. apply writes_mono. intros b a d H. now left. Qed.
Lemma ut_setup x chk k m : writes (untouching x) (run_setup chk k m).
Proof.
  assert (K : forall h, writes (untouching x) (initialize_with_host chk h m)).
  { intros h. unfold initialize_with_host. cbv zeta.
    assert (Rest : writes (untouching x)
      (try _ <- uninit_reset else (fun e => Err (SpiError e)) ;;
       try _ <- dev_set_mode m else (fun e => Err (SpiError e)) ;;
       do r <- refresh h ;;
       match snd r with Ok _ => Ret (Ok (ds_new (fst r))) | Err e => Ret (Err (SpiError e)) end)).
    { apply writes_try; [apply ut_reset|intros]. apply writes_try; [apply ut_aside|intros].
      { unfold dev_set_mode. cbn [write_frame writes]. split; [|intros []; exact Logic.I]. left. split; [reflexivity|]. right. split; [reflexivity|]. eexists. split; [reflexivity|apply mode_no_reset]. }
      apply writes_bind; [apply ut_aside, aside_refresh|intros [h' [u|e]]; exact Logic.I]. }
    destruct chk; [|exact Rest]. apply writes_try; [|intros; exact Rest].
    unfold assert_chip_version, dev_version. apply writes_try; [apply writes_try; [cbn; intros got [] _; exact Logic.I|intros; exact Logic.I]|]. intros v. destruct (negb _); exact Logic.I. }
  destruct k; apply K.
Qed.
Lemma ut_dev_reset x d : writes (untouching x) (dev_reset d).
Proof. unfold dev_reset. destruct (any_allocated d); [exact Logic.I|]. apply writes_try; [apply ut_reset|]. intros; exact Logic.I. Qed.
Lemma ut_reg x i a d : i < 8 -> a + len d <= 65536 -> x < a \/ a + len d <= x -> writes (untouching x) (write_frame (register (socket_new i)) a d).
Proof. intros Hi L H. cbn [write_frame writes]. rewrite so_reg by exact Hi. split; [|intros []; exact Logic.I]. right. right. exists i. auto. Qed.
Lemma ut_reg1 x i a v : i < 8 -> a < 65536 -> x <> a -> writes (untouching x) (write_frame (register (socket_new i)) a [v]).
Proof. intros Hi L H. apply ut_reg; [exact Hi| |]; change (len [v]) with 1; lia. Qed.
Lemma ut_macraw x mc : (x =? Sn_MR) || (x =? Sn_RXBUF_SIZE) || (x =? Sn_TXBUF_SIZE) = false -> writes (untouching x) (initialize_macraw mc).
Proof.
  intros H. rewrite !orb_false_iff, !N.eqb_neq in H. destruct H as [[H1 H2] H3].
  assert (Z : forall is, Forall (fun i => i < 8) is -> writes (untouching x) (raw_zero_buffers is)).
  { induction is as [|i is IH]; intros F; cbn [raw_zero_buffers]; [exact Logic.I|]. inversion F; subst. cbv zeta.
    do 2 (apply writes_try; [apply ut_reg1; [assumption|reflexivity|assumption]|intros _]). now apply IH. }
  unfold initialize_macraw, raw_new. cbv zeta.
  apply writes_try; [apply ut_reset|intros _].
  apply writes_try; [apply ut_aside; cbn [write_frame writes]; split; [apply aside_common; [reflexivity|destruct mc; vm_compute; discriminate]|intros []; exact Logic.I]|intros _].
  do 2 (apply writes_try; [apply ut_reg1; [reflexivity|reflexivity|assumption]|intros _]).
  apply writes_try; [apply Z; repeat constructor|intros _].
  apply writes_try; [apply ut_reg1; [reflexivity|reflexivity|assumption]|intros _].
  apply writes_try; [|intros; exact Logic.I]. apply ut_aside. unfold command. cbn [write_frame writes]. rewrite so_reg by reflexivity. split; [apply aside_cr|intros []; exact Logic.I].
Qed.
Lemma inside_untouching x j R b a d : setting x = true -> R x = false -> inside j R b a d -> untouching x b a d.
Proof.
  intros Hx HR [H|(-> & L & H)]; [now left|]. right. right. exists j. split; [reflexivity|]. split; [exact L|].
  destruct (N.ltb_spec x a); [now left|]. destruct (N.leb_spec (a + len d) x); [now right|]. exfalso. assert (R x = true) by (apply H; assumption). congruence.
Qed.
Lemma ut_lstep chk fuel l q x : wired l -> setting x = true -> life_touches q x = false -> writes (untouching x) (lstep chk fuel l q).
Proof.
  intros W Hx T. destruct (life_resets q) eqn:N.
  - destruct q as [u|k m|mc|o|o| | | |k|k]; try discriminate N; unfold lstep.
    + destruct u; try discriminate N. destruct (ph l); try exact Logic.I. apply writes_bind; [|intros; exact Logic.I].
      cbn [run_uop]. apply writes_bind; [apply ut_reset|intros; exact Logic.I].
    + destruct (ph l); try exact Logic.I. apply writes_bind; [apply ut_setup|]. intros [d|e]; exact Logic.I.
    + destruct (ph l); try exact Logic.I. apply writes_bind; [apply ut_macraw; exact T|]. intros [d|e]; exact Logic.I.
    + destruct o as [| | | | | | | | | | | | | | | |dq| |]; try discriminate N. destruct dq; try discriminate N.
      assert (D : writes (untouching x) (run_devop QResetDevice)) by (cbn [run_devop]; apply writes_bind; [apply ut_reset|intros; exact Logic.I]).
      destruct (ph l) as [|d|k'|rd|]; try exact Logic.I; [|destruct (nth_error (asleep l) k') as [d|]; [|exact Logic.I]];
        (apply writes_bind; [|intros; exact Logic.I]); cbn [step]; (apply writes_bind; [exact D|intros; exact Logic.I]).
    + destruct (ph l) as [|d|k'|rd|]; try exact Logic.I; [|destruct (nth_error (asleep l) k') as [d|]; [|exact Logic.I]];
        (apply writes_bind; [apply ut_dev_reset|intros [[]|e]; exact Logic.I]).
  - assert (C : life_changes q x = false) by (destruct q; try discriminate N; exact T).
    assert (J : exists j, (forall o h y, q = LCall o -> op_handle o = Some h -> lookup h (lhandles l) = Some y -> j = index (handle_socket y)) /\ (forall o, q = LRawCall o -> j = 0)).
    { destruct q as [u|k m|mc|o|o| | | |k|k]; try (exists 0; split; [discriminate|reflexivity]).
      destruct (op_handle o) as [h|] eqn:Eo; [destruct (lookup h (lhandles l)) as [y|] eqn:L|].
      - exists (index (handle_socket y)). split; [|discriminate]. intros o' h' y' [= <-] E1 E2. congruence.
      - exists 0. split; [|reflexivity]. intros o' h' y' [= <-] E1 E2. congruence.
      - exists 0. split; [|reflexivity]. intros o' h' y' [= <-] E1 E2. congruence. }
    destruct J as (j & J1 & J2). eapply writes_mono; [|exact (fw_lstep_at chk fuel l q j W N J1 J2)].
    intros b a d. now apply inside_untouching.
Qed.
Lemma ut_run_life e chk fuel x : setting x = true -> forall ops l s, wired l -> Forall (fun q => life_touches q x = false) ops ->
  at_reset x s -> at_reset x (snd (run e (run_life chk fuel l ops) s)).
Proof.
  intros Hx. induction ops as [|q ops IH]; intros l s W F J; cbn [run_life]; [exact J|]. inversion F as [|? ? F1 F2]; subst.
  rewrite run_bind. pose proof (untouching_run e x _ Hx (ut_lstep chk fuel l q x W Hx F1) s J) as J1.
  destruct (run e (lstep chk fuel l q) s) as [[[l1 o1]| | |] s1] eqn:R; cbn [fst snd] in *; try exact J1.
  assert (W1 : wired l1).
  { destruct (run_exec e (lstep chk fuel l q) s _ _ R) as (tr & X). exact (proj2 (ptree_exec _ _ _ _ _ _ (pt_lstep chk fuel l q W) X)). }
  rewrite run_bind. pose proof (IH l1 s1 W1 F2 J1) as J2. destruct (run e (run_life chk fuel l1 ops) s1) as [[| | |] s2]; exact J2.
Qed.
