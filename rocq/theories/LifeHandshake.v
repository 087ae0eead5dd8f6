(** What is awaited between two commands to a socket (Handshake.v), over the whole life of a chip
    (Life.v). *)
From Verif Require Import Life LifeFacts LifeWire Handshake AccessFacts.

Section Watch.
  Context (j : N).
  Notation M p := (watched j (fun _ st => st = Idle) Idle p).
  Lemma m_uop u : M (run_uop u).
  Proof.
    destruct u; [exact (m_devop j QResetDevice)|exact (m_devop j (QSetMode m))|exact (m_devop j QVersion)
      |exact (m_devop j (QSetRetryTimeout r))|exact (m_devop j QRetryTimeout)|exact (m_devop j (QSetRetryCount n))
      |exact (m_devop j QRetryCount)].
  Qed.
  Lemma m_dev_reset d : M (dev_reset d).
  Proof. unfold dev_reset. destruct (any_allocated d); [reflexivity|]. apply m_try; [apply m_common|]. reflexivity. Qed.
  Lemma m_initialize_macraw mc : M (initialize_macraw mc).
  Proof.
    unfold initialize_macraw. cbv zeta. do 2 (apply m_try; [apply m_common|intros _]).
    eapply watched_mono; [apply m_raw_new|]. intros a st' [H _]. exact H.
  Qed.
  Definition quiet_lop (q : lop) : Prop := forall o, q = LCall o -> quiet_op j o.
  Lemma m_lstep chk fuel l q : wired l -> quiet_lop q -> M (lstep chk fuel l q).
  Proof.
    intros [G RO] Q. unfold lstep. destruct q as [u|k m|mc|o|o| | | |k|k], (ph l) as [|d|k'|rd|] eqn:P; try reflexivity;
      try solve [destruct (nth_error (asleep l) k); reflexivity].
    - apply m_bind; [apply m_uop|reflexivity].
    - apply m_bind; [destruct k; apply m_initialize_with_host|]. intros [d|x]; reflexivity.
    - apply m_bind; [apply m_initialize_macraw|]. intros [d|x]; reflexivity.
    - apply m_bind; [|reflexivity]. apply m_step_k; [intros h y L; exact (good_lookup _ _ _ G L)|now apply Q].
    - destruct (nth_error (asleep l) k') as [d|]; [|reflexivity].
      apply m_bind; [|reflexivity]. apply m_step_k; [intros h y L; exact (good_lookup _ _ _ G L)|now apply Q].
    - destruct rd as [sk]. cbn in RO. subst sk. apply m_bind; [apply m_raw_step|reflexivity].
    - apply m_bind; [apply m_dev_reset|]. intros [[]|x]; reflexivity.
    - destruct (nth_error (asleep l) k') as [d|]; [|reflexivity].
      apply m_bind; [apply m_dev_reset|]. intros [[]|x]; reflexivity.
  Qed.
  Lemma m_run_life chk fuel : forall ops l, wired l -> Forall quiet_lop ops -> M (run_life chk fuel l ops).
  Proof.
    induction ops as [|q ops IH]; intros l W F; cbn [run_life]; [reflexivity|]. inversion F; subst.
    eapply watched_bind; [apply (watched_and_ptree _ _ _ _ _ _ _ (m_lstep chk fuel l q W ltac:(assumption)) (pt_lstep chk fuel l q W))|].
    intros r st [-> Wr]. apply m_bind; [now apply IH|reflexivity].
  Qed.
End Watch.
