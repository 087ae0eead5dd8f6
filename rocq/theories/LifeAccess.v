(** Every access of a program over the whole life of a chip (Life.v) fits the register map
    (AccessFacts.v). *)
From Verif Require Import Life LifeFacts LifeWire AccessFacts.

Notation plain_or_ok := (fun b a d => plain_write b a d \/ write_ok b a d).
Notation AL G p := (atree read_ok plain_or_ok G p).

Lemma ok_frees : frees write_ok.
Proof. intros b a d H. exact H. Qed.

(** no call of the one method that writes a read-only register *)
Definition no_tx_read (q : lop) : Prop := forall h p, q <> LCall (OpSocket h (KSetTxRead p)).

Lemma al_run_uop u : AL any (run_uop u).
Proof.
  destruct u; [exact (at_run_devop _ QResetDevice)|exact (at_run_devop _ (QSetMode m))|exact (at_run_devop _ QVersion)
    |exact (at_run_devop _ (QSetRetryTimeout r))|exact (at_run_devop _ QRetryTimeout)|exact (at_run_devop _ (QSetRetryCount n))
    |exact (at_run_devop _ QRetryCount)].
Qed.
Lemma al_step fuel a o : good (handles a) -> (forall h p, o <> OpSocket h (KSetTxRead p)) -> AL any (step fuel a o).
Proof.
  intros G N. apply at_step_k; [intros h x L; exact (good_lookup _ _ _ G L)|].
  intros (h & p & E). now apply N in E.
Qed.
Lemma al_dev_reset d : AL any (dev_reset d).
Proof.
  unfold dev_reset. destruct (any_allocated d); [exact Logic.I|].
  eapply atree_try with (G := any); [|intros; exact Logic.I|intros; exact Logic.I].
  pose proof (at_run_devop write_ok QResetDevice) as H. cbn [run_devop] in H.
  unfold reset_device, write_frame in *. cbn [atree bind] in *. split; [apply H|auto].
Qed.
Lemma al_run_setup chk k m : AL any (run_setup chk k m).
Proof.
  destruct k; cbn [run_setup];
    (eapply atree_mono; [|apply at_initialize_with_host]; auto).
Qed.
Lemma al_initialize_macraw mc : AL any (initialize_macraw mc).
Proof. eapply atree_mono; [|apply (at_initialize_macraw write_ok ok_frees)]; auto. Qed.
Lemma al_raw_step fuel d o : raw_socket d = socket_new 0 -> AL any (raw_step fuel d o).
Proof. intros E. destruct d as [sk]. cbn in E. subst sk. apply at_raw_step. Qed.

Lemma al_lstep chk fuel l q : wired l -> no_tx_read q -> AL (fun r => wired (fst r)) (lstep chk fuel l q).
Proof.
  intros W NT. pose proof W as [G RO].
  eapply ptree_atree with (G := any); [exact (pt_lstep chk fuel l q W)| |intros r Hr; exact Hr].
  unfold lstep. destruct q as [u|k m|mc|o|o| | | |k|k], (ph l) as [|d|k'|rd|] eqn:P; try exact Logic.I;
    try solve [destruct (nth_error (asleep l) k); exact Logic.I].
  - eapply atree_bind; [apply al_run_uop|intros; exact Logic.I].
  - eapply atree_bind; [apply al_run_setup|]. intros [d|x] _; exact Logic.I.
  - eapply atree_bind; [apply al_initialize_macraw|]. intros [d|x] _; exact Logic.I.
  - eapply atree_bind; [apply al_step; [exact G|]|intros; exact Logic.I]. intros h p E. apply (NT h p). now subst o.
  - destruct (nth_error (asleep l) k') as [d|]; [|exact Logic.I].
    eapply atree_bind; [apply al_step; [exact G|]|intros; exact Logic.I]. intros h p E. apply (NT h p). now subst o.
  - eapply atree_bind; [now apply al_raw_step|intros; exact Logic.I].
  - eapply atree_bind; [apply al_dev_reset|]. intros [[]|x] _; exact Logic.I.
  - destruct (nth_error (asleep l) k') as [d|]; [|exact Logic.I].
    eapply atree_bind; [apply al_dev_reset|]. intros [[]|x] _; exact Logic.I.
Qed.
Lemma al_run_life chk fuel : forall ops l, wired l -> Forall no_tx_read ops -> AL any (run_life chk fuel l ops).
Proof.
  induction ops as [|q ops IH]; intros l W F; cbn [run_life]; [exact Logic.I|]. inversion F; subst.
  eapply atree_bind; [now apply al_lstep|]. intros r Wr.
  eapply atree_bind; [now apply IH|]. intros; exact Logic.I.
Qed.
Lemma life_accesses chk fuel ops tr oc : Forall no_tx_read ops ->
  exec (run_life chk fuel life_new ops) tr oc -> Forall access_ok tr.
Proof.
  intros F E. exact (at_access_ok _ write_ok _ _ _ (fun b a d H => H) (al_run_life chk fuel ops life_new wired_new F) E).
Qed.
