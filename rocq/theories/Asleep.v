(** Devices put away with [deactivate] and woken up again, by value or by reference. *)
From Verif Require Import Life ProgFacts LifeWire LifeFacts.

(** two computations that cannot be told apart *)
Definition peq {A} (p q : prog A) : Prop := forall tr o, exec p tr o <-> exec q tr o.
Lemma peq_refl {A} (p : prog A) : peq p p.
Proof. intros tr o. tauto. Qed.
Lemma peq_trans {A} (p q r : prog A) : peq p q -> peq q r -> peq p r.
Proof. intros H1 H2 tr o. rewrite (H1 tr o). apply H2. Qed.
Lemma peq_sym {A} (p q : prog A) : peq p q -> peq q p.
Proof. intros H tr o. symmetry. apply H. Qed.
Lemma exec_read_iff {A} blk ad d (k k' : list byte * res unit berr -> prog A) : (forall x, peq (k x) (k' x)) -> peq (BusRead blk ad d k) (BusRead blk ad d k').
Proof. intros H tr o. split; intros X; inversion X; subst; try constructor; auto; now apply H. Qed.
Lemma exec_write_iff {A} blk ad d (k k' : res unit berr -> prog A) : (forall x, peq (k x) (k' x)) -> peq (BusWrite blk ad d k) (BusWrite blk ad d k').
Proof. intros H tr o. split; intros X; inversion X; subst; try constructor; auto; now apply H. Qed.
Lemma peq_bind {A B} (p : prog A) (f g : A -> prog B) : (forall x, peq (f x) (g x)) -> peq (bind p f) (bind p g).
Proof.
  intros H. induction p as [a|w| |b a d k IH|b a d k IH]; cbn [bind]; [apply H|apply peq_refl|apply peq_refl|apply exec_read_iff|apply exec_write_iff]; auto.
Qed.
Lemma exec_bind_stop {A B} (p : prog A) (f : A -> prog B) tr o : exec p tr o -> (forall a, o <> Done a) -> exec (bind p f) tr (cast o).
Proof.
  induction 1; intros No; cbn [bind cast]; constructor; auto.
Qed.
Lemma peq_bind_l {A B} (p q : prog A) (f : A -> prog B) : peq p q -> peq (bind p f) (bind q f).
Proof.
  assert (H : forall p q : prog A, peq p q -> forall tr o, exec (bind p f) tr o -> exec (bind q f) tr o).
  { clear. intros p q H tr o X. apply exec_bind_inv in X as [(t1 & a & t2 & -> & X1 & X2)|(o' & X1 & No & ->)].
    - eapply exec_bind_intro; [apply H; exact X1|exact X2].
    - apply exec_bind_stop; [now apply H|exact No]. }
  intros E tr o. split; apply H; [exact E|apply peq_sym, E].
Qed.
Lemma peq_assoc {A B C} (p : prog A) (f : A -> prog B) (g : B -> prog C) : peq (bind (bind p f) g) (bind p (fun x => bind (f x) g)).
Proof.
  induction p as [a|w| |b a d k IH|b a d k IH]; cbn [bind]; try apply peq_refl; [apply exec_read_iff|apply exec_write_iff]; auto.
Qed.

Lemma set_nth_same {A} (x d : A) : forall k l, nth_error l k = Some d -> nth_error (set_nth k x l) k = Some x.
Proof. induction k as [|k IH]; intros [|y l]; cbn; try discriminate; auto. Qed.
Lemma set_nth_other {A} (x : A) : forall k j l, j <> k -> nth_error (set_nth k x l) j = nth_error l j.
Proof.
  induction k as [|k IH]; intros [|j] [|y l] H; cbn; auto; congruence.
Qed.
Lemma drop_set {A} (x : A) : forall k l, drop_nth k (set_nth k x l) = drop_nth k l.
Proof. induction k as [|k IH]; intros [|y l]; cbn; auto. now rewrite IH. Qed.
Lemma drop_below {A} : forall k j (l : list A), (j < k)%nat -> nth_error (drop_nth k l) j = nth_error l j.
Proof.
  induction k as [|k IH]; intros [|j] [|y l] H; cbn; auto; try lia; apply IH; lia.
Qed.

(** calls through [activate_ref], and then [activate]: as calls after [activate] *)
Lemma ref_calls chk fuel k : forall calls d hs f sl, nth_error sl k = Some d ->
  peq (run_life chk fuel (mkLife (UpRef k) hs f sl) (map LCall calls ++ [LSleep; LWake k]))
      (bind (run_life chk fuel (mkLife (Up d) hs f (drop_nth k sl)) (map LCall calls)) (fun r => Ret (fst r, snd r ++ [LMade; LMade]))).
Proof.
  induction calls as [|c calls IH]; intros d hs f sl Hk; cbn [map List.app run_life].
  - cbn [lstep ph bind fst asleep lhandles lfresh]. rewrite Hk. apply peq_refl.
  - cbn [lstep ph asleep lhandles lfresh]. rewrite Hk.
    eapply peq_trans; [apply peq_assoc|]. eapply peq_trans; [|apply peq_sym, peq_assoc]. eapply peq_trans; [|apply peq_sym, peq_assoc].
    apply peq_bind. intros r. cbn [bind fst snd].
    eapply peq_trans; [|apply peq_sym; cbn [bind]; apply peq_assoc].
    eapply peq_trans; [apply peq_bind_l, (IH (dev (fst r))), (set_nth_same _ d); exact Hk|]. rewrite drop_set.
    eapply peq_trans; [apply peq_assoc|]. apply peq_bind. intros x. apply peq_refl.
Qed.

(** a device put away stays as it was until it is woken up itself *)
Definition leaves (k : nat) (q : lop) : Prop := match q with LWakeRef j => j <> k | LWake j => (k < j)%nat | _ => True end.
Lemma lstep_leaves chk fuel k q l tr r d : leaves k q -> ph l <> UpRef k -> exec (lstep chk fuel l q) tr (Done r) ->
  nth_error (asleep l) k = Some d -> nth_error (asleep (fst r)) k = Some d /\ ph (fst r) <> UpRef k.
Proof.
  intros Hq Hp X Hk. unfold lstep in X.
  destruct q as [u|ks m|mc|o|o| | | |j|j], (ph l) as [|d'|k'|rd|] eqn:P; cbn [leaves] in Hq;
    try (destruct (nth_error (asleep l) k') as [dk|] eqn:Nk'); try (destruct (nth_error (asleep l) j) as [dj|] eqn:Nj);
    repeat match goal with
      | X : exec (bind _ _) _ (Done _) |- _ => let a := fresh "a" in apply exec_bind_done in X as (? & a & ? & -> & _ & X); try destruct a as [?|?]
      | X : exec (match ?a with Ok _ => _ | Err _ => _ end) _ _ |- _ => destruct a as [?|?]
      end;
    apply exec_Ret_inv in X as [-> [X|X]]; try discriminate X; injection X as ->; cbn [fst ph asleep]; rewrite ?P;
    (split; [|first [assumption|discriminate|congruence]]); rewrite ?drop_below, ?set_nth_other by congruence; auto.
  all: try (rewrite nth_error_app1; [exact Hk|]; apply nth_error_Some; congruence).
Qed.
Lemma kept_asleep chk fuel k d : forall ops l tr l' outs, Forall (leaves k) ops -> ph l <> UpRef k ->
  exec (run_life chk fuel l ops) tr (Done (l', outs)) -> nth_error (asleep l) k = Some d -> nth_error (asleep l') k = Some d.
Proof.
  induction ops as [|q ops IH]; intros l tr l' outs F Hp X Hk; cbn [run_life] in X.
  - apply exec_Ret_inv in X as [-> [X|X]]; [|discriminate]. now injection X as -> ->.
  - apply exec_bind_done in X as (t1 & r & t2 & -> & X1 & X). apply exec_bind_done in X as (t3 & rs & t4 & -> & X2 & X).
    apply exec_Ret_inv in X as [-> [X|X]]; [|discriminate]. injection X as -> ->. inversion F; subst.
    destruct (lstep_leaves _ _ _ _ _ _ _ _ H1 Hp X1 Hk) as [Hk' Hp']. destruct rs as [l' outs]. eapply IH; eauto.
Qed.
Lemma life_app chk fuel ops2 : forall ops1 l tr r, exec (run_life chk fuel l (ops1 ++ ops2)) tr (Done r) ->
  exists t1 l1 o1 t2 o2, tr = t1 ++ t2 /\ exec (run_life chk fuel l ops1) t1 (Done (l1, o1)) /\
    exec (run_life chk fuel l1 ops2) t2 (Done (fst r, o2)) /\ snd r = o1 ++ o2.
Proof.
  induction ops1 as [|q ops1 IH]; intros l tr r X; cbn [List.app run_life] in *.
  - exists [], l, [], tr, (snd r). repeat split; [constructor|]. now destruct r.
  - apply exec_bind_done in X as (t1 & x & t2 & -> & X1 & X). apply exec_bind_done in X as (t3 & rs & t4 & -> & X2 & X).
    apply exec_Ret_inv in X as [-> [X|X]]; [|discriminate]. injection X as ->.
    destruct (IH _ _ _ X2) as (u1 & l1 & o1 & u2 & o2 & -> & Y1 & Y2 & E). cbn [fst snd].
    exists (t1 ++ u1), l1, (snd x :: o1), u2, o2. split; [now rewrite app_nil_r, app_assoc|]. split; [|split; [exact Y2|now rewrite E]].
    eapply exec_bind_intro; [exact X1|]. rewrite <- (app_nil_r u1). eapply exec_bind_intro; [exact Y1|]. constructor.
Qed.
