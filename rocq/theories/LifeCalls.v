(** The whole life of a chip (Life.v): which commands each call gives (Commands.v), whom a socket
    dials (Dial.v), and what is awaited between two commands (Handshake.v). *)
From Verif Require Import Life LifeFacts LifeWire Commands Dial.

(** every reachable state is wired *)
Lemma life_wired chk fuel ops tr l outs : exec (run_life chk fuel life_new ops) tr (Done (l, outs)) -> wired l.
Proof. intros E. exact (proj2 (ptree_exec _ _ _ _ _ _ (pt_run_life chk fuel ops life_new wired_new) E)). Qed.

(** ** Commands *)
Definition life_commands (q : lop) : list N :=
  match q with LCall o => op_commands o | LRawCall o => raw_commands o | _ => [] end.
Lemma cw_uop j l u : writes (cmdw j l) (run_uop u).
Proof.
  destruct u; [exact (cw_devop j l QResetDevice)|exact (cw_devop j l (QSetMode m))|exact (cw_devop j l QVersion)
    |exact (cw_devop j l (QSetRetryTimeout r))|exact (cw_devop j l QRetryTimeout)|exact (cw_devop j l (QSetRetryCount n))
    |exact (cw_devop j l QRetryCount)].
Qed.
Lemma cw_write_if j l b ad d c c' k : (forall c, writes (cmdw j l) (k c)) -> writes (cmdw j l) (write_if b ad d c c' k).
Proof. intros Hk. unfold write_if. destruct b; [|apply Hk]. apply writes_try; [apply cw_common|]. intros; apply Hk. Qed.
Lemma cw_setup j l chk k m : writes (cmdw j l) (run_setup chk k m).
Proof.
  assert (K : forall h, writes (cmdw j l) (initialize_with_host chk h m)).
  { intros h. unfold initialize_with_host. cbv zeta.
    assert (Rest : writes (cmdw j l)
      (try _ <- uninit_reset else (fun e => Err (SpiError e)) ;;
       try _ <- dev_set_mode m else (fun e => Err (SpiError e)) ;;
       do r <- refresh h ;;
       match snd r with Ok _ => Ret (Ok (ds_new (fst r))) | Err e => Ret (Err (SpiError e)) end)).
    { apply writes_try; [apply cw_common|intros]. apply writes_try; [apply cw_common|intros].
      apply writes_bind; [|intros [h' [u|e]]; exact Logic.I]. destruct h as [[] st c|]; cbn [refresh]; try exact Logic.I.
      apply writes_bind; [|intros; exact Logic.I]. unfold write_settings. repeat (apply cw_write_if; intros). exact Logic.I. }
    destruct chk; [|exact Rest]. apply writes_try; [|intros; exact Rest].
    unfold assert_chip_version, dev_version. apply writes_try; [apply cw_read_then|]. intros v. destruct (negb _); exact Logic.I. }
  destruct k; apply K.
Qed.
Lemma cw_dev_reset j l d : writes (cmdw j l) (dev_reset d).
Proof. unfold dev_reset. destruct (any_allocated d); [exact Logic.I|]. apply writes_try; [apply cw_common|]. intros; exact Logic.I. Qed.
(** every call but initialize_macraw, whose sockets are many *)
Lemma cw_lstep_at chk fuel l q j : wired l -> (forall mc, q <> LInitRaw mc) ->
  (forall o h y, q = LCall o -> op_handle o = Some h -> lookup h (lhandles l) = Some y -> j = index (handle_socket y)) ->
  (forall o, q = LRawCall o -> j = 0) ->
  writes (cmdw j (life_commands q)) (lstep chk fuel l q).
Proof.
  intros [G RO] N H1 H2. unfold lstep.
  destruct q as [u|k m|mc|o|o| | | |k|k], (ph l) as [|d|k'|rd|] eqn:P; try exact Logic.I;
    try solve [destruct (nth_error (asleep l) k); exact Logic.I]; cbn [life_commands].
  - apply writes_bind; [apply cw_uop|intros; exact Logic.I].
  - apply writes_bind; [apply cw_setup|]. intros [d|x]; exact Logic.I.
  - now destruct (N mc).
  - apply writes_bind; [|intros; exact Logic.I]. apply cw_step_at; [exact G|]. intros h y Eh L. exact (H1 o h y eq_refl Eh L).
  - destruct (nth_error (asleep l) k') as [d|]; [|exact Logic.I].
    apply writes_bind; [|intros; exact Logic.I]. apply cw_step_at; [exact G|]. intros h y Eh L. exact (H1 o h y eq_refl Eh L).
  - destruct rd as [sk]. cbn in RO. subst sk. rewrite (H2 o eq_refl). apply writes_bind; [apply cw_raw_step|intros; exact Logic.I].
  - apply writes_bind; [apply cw_dev_reset|]. intros [[]|x]; exact Logic.I.
  - destruct (nth_error (asleep l) k') as [d|]; [|exact Logic.I].
    apply writes_bind; [apply cw_dev_reset|]. intros [[]|x]; exact Logic.I.
Qed.
(** initialize_macraw: one OPEN, to socket 0 *)
Definition macw (b a : N) (d : list byte) : Prop :=
  forall i, b = BSB_REG i -> i < 8 /\ (a + len d <= Sn_CR \/ (Sn_CR < a /\ a + len d <= 65536) \/ (i = 0 /\ a = Sn_CR /\ d = [u8 CR_OPEN])).
Lemma macw_common a d : writes macw (write_frame COMMON a d).
Proof. cbn [write_frame writes]. split; [|intros []; exact Logic.I]. intros i E. change COMMON with 0 in E. unfold BSB_REG in E. clear - E. lia. Qed.
Lemma macw_cmdw j l {A} (p : prog A) : j < 8 -> (forall c, In c l -> j = 0 /\ c = CR_OPEN) -> writes (cmdw j l) p -> writes macw p.
Proof.
  intros Hj Hl. apply writes_mono. intros b a d H i E. destruct (H i E) as (-> & K). split; [exact Hj|].
  destruct K as [K|[K|(K & c & Hc & ->)]]; auto. destruct (Hl c Hc) as (-> & ->). auto.
Qed.
Lemma macw_zero is : Forall (fun i => i < 8) is -> writes macw (raw_zero_buffers is).
Proof.
  induction is as [|i is IH]; intros F; cbn [raw_zero_buffers]; [exact Logic.I|]. inversion F; subst. cbv zeta.
  do 2 (apply writes_try; [apply (macw_cmdw i []); [assumption|intros ? []|]; apply cw_reg; [assumption|right; vm_compute; split; [reflexivity|discriminate]]|intros _]).
  now apply IH.
Qed.
Lemma macw_init mc : writes macw (initialize_macraw mc).
Proof.
  assert (Z : forall a d, Sn_CR < a /\ a + len d <= 65536 \/ a + len d <= Sn_CR -> writes macw (write_frame (register (socket_new 0)) a d)).
  { intros a d H. apply (macw_cmdw 0 []); [reflexivity|intros ? []|]. apply cw_reg; [reflexivity|tauto]. }
  unfold initialize_macraw, raw_new. cbv zeta.
  do 2 (apply writes_try; [apply macw_common|intros _]).
  do 2 (apply writes_try; [apply Z; left; vm_compute; split; [reflexivity|discriminate]|intros _]).
  apply writes_try; [apply macw_zero; repeat constructor|intros _].
  apply writes_try; [apply Z; right; vm_compute; discriminate|intros _].
  apply writes_try; [|intros; exact Logic.I]. apply (macw_cmdw 0 [CR_OPEN]); [reflexivity|intros c [<-|[]]; auto|].
  apply cw_command; [reflexivity|now left].
Qed.
Lemma macw_lstep chk fuel l mc : writes macw (lstep chk fuel l (LInitRaw mc)).
Proof.
  unfold lstep. destruct (ph l); try exact Logic.I. apply writes_bind; [apply macw_init|]. intros [d|x]; exact Logic.I.
Qed.

(** ** Dialling *)
Definition life_asks (i : N) (q : lop) : list (N * list byte * N) := match q with LCall o => asks i o | _ => [] end.
Definition life_quiet (q : lop) : Prop := match q with LCall o => port_fits o /\ ~ raw_connect o | _ => True end.
Lemma macw_mild {A} i (p : prog A) : writes macw p -> mild (nodial i []) p.
Proof.
  intros W. apply (writes_mild_at [CR_OPEN]); [intros [E|[]]; discriminate E|intros c [<-|[]]; reflexivity|].
  eapply writes_mono; [|exact W]. intros b a d H E. destruct (H i E) as (_ & [K|[K|(K1 & K2 & K3)]]); auto.
  right. right. split; [exact K2|]. exists CR_OPEN. split; [now left|exact K3].
Qed.
Lemma run_bind_fst_dialled {A B} e i (p : prog A) (f : A -> B) s :
  dialled (sk i (snd (run e (bind p (fun r => Ret (f r))) s))) = dialled (sk i (snd (run e p s))).
Proof. rewrite run_bind. now destruct (run e p s) as [[| | |] s1]. Qed.
Lemma lstep_dials e chk fuel l q i s : wired l -> i < 8 -> life_quiet q ->
  exists new, dialled (sk i (snd (run e (lstep chk fuel l q) s))) = dialled (sk i s) ++ new /\ within new (life_asks i q).
Proof.
  intros W Hi Q.
  assert (Same : mild (nodial i []) (lstep chk fuel l q) -> exists new, dialled (sk i (snd (run e (lstep chk fuel l q) s))) = dialled (sk i s) ++ new /\ within new (life_asks i q)).
  { intros M. exists []. rewrite app_nil_r. split; [now apply run_quiet|apply within_nil]. }
  assert (Call : forall d o g, q = LCall o ->
    lstep chk fuel l q = bind (step fuel (mkApp d (lhandles l) (lfresh l)) o) (fun r => Ret (g r)) ->
    exists new, dialled (sk i (snd (run e (lstep chk fuel l q) s))) = dialled (sk i s) ++ new /\ within new (life_asks i q)).
  { intros d o g -> ->. rewrite run_bind_fst_dialled. destruct Q as [Q1 Q2].
    destruct (step_dials e fuel (mkApp d (lhandles l) (lfresh l)) o i s (proj1 W) Hi Q1 Q2) as (new & E & Wn & _). exists new. auto. }
  assert (Rest : (forall o, q <> LCall o) -> (forall mc, q <> LInitRaw mc) -> exists new, dialled (sk i (snd (run e (lstep chk fuel l q) s))) = dialled (sk i s) ++ new /\ within new (life_asks i q)).
  { intros N1 N2. apply Same. apply (writes_mild 0 (life_commands q)).
    - destruct q as [| | | |[]| | | | |]; try (now intros []); try (intros [E|[]]; discriminate E). now destruct (N1 o).
    - intros c. destruct q as [| | | |[]| | | | |]; try (now intros []); try (intros [<-|[]]; reflexivity). now destruct (N1 o).
    - apply cw_lstep_at; [exact W|exact N2| |reflexivity]. intros o h y E. now destruct (N1 o). }
  destruct q as [u|k m|mc|o|o| | | |k|k]; try (apply Rest; discriminate).
  - apply Same, macw_mild, macw_lstep.
  - unfold lstep in *. destruct (ph l) as [|d|k'|rd|] eqn:P; try (apply Same; exact Logic.I).
    + eapply Call; reflexivity.
    + destruct (nth_error (asleep l) k') as [d|] eqn:K; [|apply Same; exact Logic.I]. eapply Call; reflexivity.
Qed.
Lemma run_life_dials e chk fuel i : i < 8 -> forall ops l s, wired l -> Forall life_quiet ops ->
  exists new, dialled (sk i (snd (run e (run_life chk fuel l ops) s))) = dialled (sk i s) ++ new /\ within new (flat_map (life_asks i) ops).
Proof.
  intros Hi. induction ops as [|q ops IH]; intros l s W F; cbn [run_life flat_map].
  { exists []. rewrite app_nil_r. split; reflexivity. }
  inversion F as [|? ? Q1 Q2]; subst.
  destruct (lstep_dials e chk fuel l q i s W Hi Q1) as (n1 & E1 & W1).
  assert (Stop : within n1 (life_asks i q ++ flat_map (life_asks i) ops)).
  { rewrite <- (app_nil_r n1). apply within_app; [exact W1|apply within_nil]. }
  rewrite run_bind. destruct (run e (lstep chk fuel l q) s) as [[[l1 o1]| | |] s1] eqn:R; cbn [fst snd] in *; try (exists n1; split; assumption).
  assert (Wl : wired l1).
  { destruct (run_exec e (lstep chk fuel l q) s _ _ R) as (tr & X). exact (proj2 (ptree_exec _ _ _ _ _ _ (pt_lstep chk fuel l q W) X)). }
  destruct (IH l1 s1 Wl Q2) as (n2 & E2 & W2).
  exists (n1 ++ n2). split; [|now apply within_app]. rewrite app_assoc, <- E1. rewrite run_bind.
  destruct (run e (run_life chk fuel l1 ops) s1) as [[| | |] s2]; exact E2.
Qed.
