(** Reasoning about driver computations for arbitrary bus behaviour. *)
From Verif Require Export Exec BytesFacts.

(** ** What a computation can touch, where it can panic, what it can return *)
Fixpoint ptree {A} (B : N -> N -> Prop) (W : site -> Prop) (G : A -> Prop) (p : prog A) : Prop :=
  match p with
  | Ret a => G a
  | Panic w => W w
  | Spin => True
  | BusRead b a d k => B b a /\ forall got r, length got = length d -> ptree B W G (k (got, r))
  | BusWrite b a d k => B b a /\ forall r, ptree B W G (k r)
  end.

Lemma ptree_bind {A C} B W (G : A -> Prop) (G' : C -> Prop) p f :
  ptree B W G p -> (forall a, G a -> ptree B W G' (f a)) -> ptree B W G' (bind p f).
Proof.
  induction p as [a|w| |b a d k IH|b a d k IH]; cbn; intros H Hf; auto.
  - destruct H as [Hb H]. split; auto.
  - destruct H as [Hb H]. split; auto.
Qed.

Lemma ptree_mono {A} (B B' : N -> N -> Prop) (W W' : site -> Prop) (G G' : A -> Prop) p :
  (forall b a, B b a -> B' b a) -> (forall w, W w -> W' w) -> (forall a, G a -> G' a) ->
  ptree B W G p -> ptree B' W' G' p.
Proof.
  intros HB HW HG. induction p as [a|w| |b a d k IH|b a d k IH]; cbn; intros H; auto;
    destruct H; split; auto.
Qed.

Lemma ptree_true {A} B W (G : A -> Prop) p : ptree B W G p -> ptree B W (fun _ => True) p.
Proof. apply ptree_mono; auto. Qed.

Lemma ptree_and {A} B W (G G' : A -> Prop) p :
  ptree B W G p -> ptree B W G' p -> ptree B W (fun a => G a /\ G' a) p.
Proof.
  induction p as [a|w| |b a d k IH|b a d k IH]; cbn; intros H H'; auto;
    destruct H, H'; split; auto.
Qed.

Lemma ptree_exec {A} B W (G : A -> Prop) p tr o :
  ptree B W G p -> exec p tr o ->
  (forall ev, In ev tr -> match ev with ERead b a _ _ | EWrite b a _ _ => B b a end) /\
  match o with Done a => G a | Panicked w => W w | _ => True end.
Proof.
  intros H E. revert H. induction E; cbn; intros HT; try (now split; [intros ? []|]).
  - destruct HT as [Hb HT]. destruct (IHE (HT _ _ H)) as [I1 I2].
    split; [|exact I2]. intros ev [<-|Hin]; [exact Hb|now apply I1].
  - destruct HT as [Hb HT]. destruct (IHE (HT _)) as [I1 I2].
    split; [|exact I2]. intros ev [<-|Hin]; [exact Hb|now apply I1].
Qed.

(** ** Errors end the call *)
Fixpoint estop {A} (E : A -> option berr) (p : prog A) : Prop :=
  match p with
  | Ret a => E a = None
  | Panic _ | Spin => True
  | BusRead _ _ d k =>
      (forall got, length got = length d -> estop E (k (got, Ok tt))) /\
      (forall got e, length got = length d -> exists a, k (got, Err e) = Ret a /\ E a = Some e)
  | BusWrite _ _ _ k =>
      estop E (k (Ok tt)) /\ (forall e, exists a, k (Err e) = Ret a /\ E a = Some e)
  end.

Lemma estop_bind {A C} (E : A -> option berr) (E' : C -> option berr) p f :
  estop E p ->
  (forall a, E a = None -> estop E' (f a)) ->
  (forall a e, E a = Some e -> exists c, f a = Ret c /\ E' c = Some e) ->
  estop E' (bind p f).
Proof.
  induction p as [a|w| |b a d k IH|b a d k IH]; cbn; intros H Hn Hs; auto.
  - destruct H as [H1 H2]. split.
    + intros got L. auto.
    + intros got e L. destruct (H2 got e L) as (a0 & Ek & Ea). rewrite Ek. cbn. auto.
  - destruct H as [H1 H2]. split; auto.
    intros e. destruct (H2 e) as (a0 & Ek & Ea). rewrite Ek. cbn. auto.
Qed.

Definition call_ok (ev : event) : Prop := ev_result ev = Ok tt.

(** the shape of any execution of such a computation: a failing access is the last one, and
    the result reports it *)
Definition stops_at_error {A} (E : A -> option berr) (tr : list event) (o : outcome A) : Prop :=
  match o with
  | Done a =>
      match E a with
      | None => Forall call_ok tr
      | Some e => exists tr0 ev, tr = tr0 ++ [ev] /\ Forall call_ok tr0 /\ ev_result ev = Err e
      end
  | Panicked _ | Looping => Forall call_ok tr
  | Cut => Forall call_ok tr \/
           exists tr0 ev e, tr = tr0 ++ [ev] /\ Forall call_ok tr0 /\ ev_result ev = Err e
  end.

Lemma stops_cons {A} (E : A -> option berr) ev tr o :
  call_ok ev -> stops_at_error E tr o -> stops_at_error E (ev :: tr) o.
Proof.
  intros Hev H. destruct o as [a|w| |]; cbn in *; auto.
  - destruct (E a); auto. destruct H as (tr0 & ev' & -> & H1 & H2).
    exists (ev :: tr0), ev'. split; [reflexivity|]. auto.
  - destruct H as [H|(tr0 & ev' & e & -> & H1 & H2)]; [left; auto|right].
    exists (ev :: tr0), ev', e. split; [reflexivity|]. auto.
Qed.

Lemma exec_Ret_inv {A} (a : A) tr o : exec (Ret a) tr o -> tr = [] /\ (o = Done a \/ o = Cut).
Proof. inversion 1; subst; auto. Qed.

Lemma estop_exec {A} (E : A -> option berr) p tr o :
  estop E p -> exec p tr o -> stops_at_error E tr o.
Proof.
  intros H X. revert H. induction X; cbn [estop]; intros HT.
  - left. constructor.
  - cbn. rewrite HT. constructor.
  - constructor.
  - constructor.
  - destruct HT as [H1 H2]. destruct r as [[]|e].
    + apply stops_cons; [reflexivity|]. auto.
    + destruct (H2 got e H) as (a & Ek & Ea). rewrite Ek in X.
      apply exec_Ret_inv in X as [-> [-> | ->]]; cbn.
      * rewrite Ea. exists [], (ERead blk addr got (Err e)). auto.
      * right. exists [], (ERead blk addr got (Err e)), e. auto.
  - destruct HT as [H1 H2]. destruct r as [[]|e].
    + apply stops_cons; [reflexivity|]. auto.
    + destruct (H2 e) as (a & Ek & Ea). rewrite Ek in X.
      apply exec_Ret_inv in X as [-> [-> | ->]]; cbn.
      * rewrite Ea. exists [], (EWrite blk addr data (Err e)). auto.
      * right. exists [], (EWrite blk addr data (Err e)), e. auto.
Qed.

(** ** Executions of sequential composition *)
Definition cast {A B} (o : outcome A) : outcome B :=
  match o with Done _ => Cut | Panicked w => Panicked w | Looping => Looping | Cut => Cut end.

Lemma exec_bind_inv {A B} (p : prog A) (f : A -> prog B) tr o :
  exec (bind p f) tr o ->
  (exists tr1 a tr2, tr = tr1 ++ tr2 /\ exec p tr1 (Done a) /\ exec (f a) tr2 o) \/
  (exists o', exec p tr o' /\ (forall a, o' <> Done a) /\ o = cast o').
Proof.
  revert tr o. induction p as [a|w| |b a d k IH|b a d k IH]; cbn; intros tr o H.
  - left. exists [], a, tr. repeat split; auto. constructor.
  - right. inversion H; subst.
    + exists Cut. repeat split; try constructor. congruence.
    + exists (Panicked w). repeat split; try constructor. congruence.
  - right. inversion H; subst.
    + exists Cut. repeat split; try constructor. congruence.
    + exists Looping. repeat split; try constructor. congruence.
  - inversion H; subst.
    + right. exists Cut. repeat split; try constructor. congruence.
    + match goal with X : exec (bind _ _) _ _ |- _ => apply IH in X; rename X into HX end.
      destruct HX as [(tr1 & x & tr2 & -> & H1 & H2) | (o' & H1 & H2 & ->)].
      * left. eexists (_ :: tr1), x, tr2. split; [reflexivity|]. split; [constructor; eauto|auto].
      * right. exists o'. split; [constructor; auto|auto].
  - inversion H; subst.
    + right. exists Cut. repeat split; try constructor. congruence.
    + match goal with X : exec (bind _ _) _ _ |- _ => apply IH in X; rename X into HX end.
      destruct HX as [(tr1 & x & tr2 & -> & H1 & H2) | (o' & H1 & H2 & ->)].
      * left. eexists (_ :: tr1), x, tr2. split; [reflexivity|]. split; [constructor; eauto|auto].
      * right. exists o'. split; [constructor; auto|auto].
Qed.

Lemma exec_bind_done {A B} (p : prog A) (f : A -> prog B) tr b :
  exec (bind p f) tr (Done b) ->
  exists tr1 a tr2, tr = tr1 ++ tr2 /\ exec p tr1 (Done a) /\ exec (f a) tr2 (Done b).
Proof.
  intros H. apply exec_bind_inv in H as [H|(o' & H1 & H2 & E)]; [exact H|].
  destruct o'; cbn in E; try discriminate.
Qed.

Lemma exec_bind_intro {A B} (p : prog A) (f : A -> prog B) tr1 a tr2 o :
  exec p tr1 (Done a) -> exec (f a) tr2 o -> exec (bind p f) (tr1 ++ tr2) o.
Proof.
  intros H. remember (Done a) as oa eqn:Eo. revert a Eo.
  induction H; intros a0 Eo H2; try discriminate; cbn.
  - injection Eo as ->. exact H2.
  - constructor; eauto.
  - constructor; eauto.
Qed.

(** ** Exact executions, answered successfully *)
(** [answers p tr a]: the execution of [p] in which every access succeeded, ending in [a] *)
Lemma bind_ret_r {A} (p : prog A) : forall tr o, exec (bind p Ret) tr o <-> exec p tr o.
Proof.
  induction p as [a|w| |b a d k IH|b a d k IH]; cbn; intros tr o; try tauto;
    split; inversion 1; subst; constructor; auto; now apply IH.
Qed.
