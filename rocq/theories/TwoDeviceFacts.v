From Verif Require Export PoolFacts TwoDevices.
From Verif Require Import History.

Fixpoint keep (f : nat -> bool) (l : list (nat * handle)) : list (nat * handle) :=
  match l with [] => [] | (h, x) :: l' => if f h then (h, x) :: keep f l' else keep f l' end.
Definition filt (f : nat -> bool) (a : app) : app := mkApp (dev a) (keep f (handles a)) (fresh a).

Lemma keep_lookup f h l : f h = true -> lookup h (keep f l) = lookup h l.
Proof.
  intros Hf. induction l as [|[i x] l IH]; [reflexivity|]. cbn.
  destruct (f i) eqn:E; cbn; [now rewrite IH|].
  destruct (Nat.eqb_spec i h) as [->|]; [congruence|]. exact IH.
Qed.
Lemma keep_remove f h l : keep f (remove h l) = remove h (keep f l).
Proof.
  induction l as [|[i x] l IH]; [reflexivity|]. cbn.
  destruct (Nat.eqb_spec i h) as [->|Hn]; destruct (f _) eqn:E; cbn; rewrite ?E; cbn; auto.
  - now rewrite Nat.eqb_refl.
  - destruct (Nat.eqb_spec i h); [contradiction|]. now rewrite IH.
Qed.
Lemma keep_update f h v l : f h = true -> keep f (update h v l) = update h v (keep f l).
Proof.
  intros Hf. induction l as [|[i x] l IH]; [reflexivity|]. cbn.
  destruct (Nat.eqb_spec i h) as [->|Hn]; cbn.
  - rewrite Hf. cbn. now rewrite Nat.eqb_refl.
  - destruct (f i) eqn:E; cbn; [|exact IH].
    destruct (Nat.eqb_spec i h); [contradiction|]. now rewrite IH.
Qed.
Lemma keep_other_remove f h l : f h = false -> keep f (remove h l) = keep f l.
Proof.
  intros Hf. induction l as [|[i x] l IH]; [reflexivity|]. cbn.
  destruct (Nat.eqb_spec i h) as [->|Hn]; [now rewrite Hf|]. cbn. now rewrite IH.
Qed.
Lemma keep_other_update f h v l : f h = false -> keep f (update h v l) = keep f l.
Proof.
  intros Hf. induction l as [|[i x] l IH]; [reflexivity|]. cbn.
  destruct (Nat.eqb_spec i h) as [->|Hn]; cbn; [now rewrite Hf|]. now rewrite IH.
Qed.
Lemma keep_app f l1 l2 : keep f (l1 ++ l2) = keep f l1 ++ keep f l2.
Proof. induction l1 as [|[h x] l1 IH]; cbn; [auto|]. destruct (f h); cbn; now rewrite IH. Qed.
Lemma keep_ext f g l : (forall h x, In (h, x) l -> f h = g h) -> keep f l = keep g l.
Proof.
  induction l as [|[h x] l IH]; intros H; cbn; [auto|].
  rewrite (H h x) by (left; auto). rewrite IH; [reflexivity|]. intros. eapply H. right. eauto.
Qed.

(** the ways a call can change the handle table *)
Definition table_change (a : app) (o : op) (r : app * out) : Prop :=
  (handles (fst r) = handles a /\ fresh (fst r) = fresh a) \/
  (exists x, handles (fst r) = handles a ++ [(fresh a, x)] /\ fresh (fst r) = S (fresh a)) \/
  (exists h, op_handle o = Some h /\ fresh (fst r) = fresh a /\
     (handles (fst r) = remove h (handles a) \/ exists v x, lookup h (handles a) = Some x /\ handles (fst r) = update h v (handles a))).

Lemma exec_map {A B} (p : prog A) (f : A -> B) tr x :
  exec (bind p (fun r => Ret (f r))) tr (Done x) -> exists r, exec p tr (Done r) /\ x = f r.
Proof.
  intros X. apply exec_bind_done in X as (tr1 & a & tr2 & -> & X1 & X2).
  apply exec_Ret_inv in X2 as [-> [E|E]]; [|discriminate]. injection E as ->.
  rewrite app_nil_r. eauto.
Qed.
Lemma exec_map_intro {A B} (p : prog A) (f : A -> B) tr r :
  exec p tr (Done r) -> exec (bind p (fun r => Ret (f r))) tr (Done (f r)).
Proof.
  intros X. rewrite <- (app_nil_r tr). eapply exec_bind_intro; [exact X|]. constructor.
Qed.

Ltac ret_inv X := apply exec_Ret_inv in X as [-> [X|X]]; [injection X as ->|discriminate X].

Lemma step_filter f fuel a o tr r :
  (forall h, op_handle o = Some h -> f h = true) -> f (fresh a) = true ->
  exec (step fuel a o) tr (Done r) ->
  exec (step fuel (filt f a) o) tr (Done (filt f (fst r), snd r)) /\ table_change a o r.
Proof.
  intros Ho Hf X.
  assert (Hfr : forall x, keep f [(fresh a, x)] = [(fresh a, x)]) by (intros x; cbn; now rewrite Hf).
  destruct o; cbn [step] in X |- *; cbn [filt dev handles fresh] in *;
    try (rewrite keep_lookup by (apply Ho; reflexivity)).
  all: repeat match type of X with
       | context [match lookup ?h ?l with _ => _ end] => destruct (lookup h l) as [[]|] eqn:L
       | context [match take_socket ?d with _ => _ end] => destruct (take_socket d) as [? []] eqn:T
       | context [match tcp_socket ?d with _ => _ end] => destruct (tcp_socket d) as [? []] eqn:T
       | context [match udp_socket ?d with _ => _ end] => destruct (udp_socket d) as [? []] eqn:T
       | context [match release_socket ?d ?s with _ => _ end] => destruct (release_socket d s) eqn:T
       end.
  all: try (ret_inv X; cbn [fst snd]; unfold grant, consume, filt; cbn [handles dev fresh];
            rewrite ?keep_app, ?Hfr, ?keep_remove;
            split; [constructor|unfold table_change; cbn [fst snd handles fresh op_handle]; eauto 8]).
  all: try (inversion X; fail).
  all: apply exec_map in X as (res0 & X & ->); cbn [fst snd]; unfold put, consume, filt; cbn [handles dev fresh];
       rewrite ?keep_remove, ?keep_update by (apply Ho; reflexivity);
       (split; [|unfold table_change; cbn [fst snd handles fresh op_handle]; eauto 9]).
  all: try (rewrite <- (app_nil_r tr); eapply exec_bind_intro; [exact X|constructor]).
  all: right; right; exists h; split; [reflexivity|]; split; [reflexivity|]; right; eauto.
Qed.

(** the invariant: each device sees its own handles as a program with one device would *)
Definition own (a : app2) (d : bool) (h : nat) : bool := Bool.eqb (issuer a h) d.
Definition view (a : app2) (d : bool) : app :=
  mkApp (devs a d) (keep (own a d) (handles2 a)) (fresh2 a).
Record inv2 (a : app2) : Prop := {
  i2_pool : forall d, pool_inv (view a d);
  i2_fresh : forall h x, In (h, x) (handles2 a) -> (h < fresh2 a)%nat
}.

Lemma view_change d d' a a' o out hs f :
  inv2 a -> (forall h, op_handle o = Some h -> issuer a h = d) ->
  table_change (mkApp (devs a d) (handles2 a) (fresh2 a)) o (mkApp a' hs f, out) ->
  d' <> d ->
  keep (fun h => Bool.eqb (if Nat.eqb h (fresh2 a) then d else issuer a h) d') hs
    = keep (own a d') (handles2 a) /\ (fresh2 a <= f)%nat.
Proof.
  intros I Ho T Hne.
  assert (Hb : Bool.eqb d d' = false) by (destruct d, d'; cbn; congruence).
  assert (Ext : forall l, (forall h x, In (h, x) l -> (h < fresh2 a)%nat) ->
    keep (fun h => Bool.eqb (if Nat.eqb h (fresh2 a) then d else issuer a h) d') l = keep (own a d') l).
  { intros l Hl. apply keep_ext. intros h x Hin. apply Hl in Hin. unfold own.
    destruct (Nat.eqb_spec h (fresh2 a)); [lia|reflexivity]. }
  unfold table_change in T. cbn [fst snd handles fresh] in T.
  destruct T as [[-> ->]|[(x & -> & ->)|(h & Eh & -> & T)]].
  - split; [|lia]. apply Ext. apply (i2_fresh _ I).
  - split; [|lia]. rewrite keep_app, Ext by (intros; eapply (i2_fresh _ I); eauto). cbn. rewrite Nat.eqb_refl, Hb. apply app_nil_r.
  - split; [|lia]. assert (Hh : own a d' h = false) by (unfold own; now rewrite (Ho _ Eh)).
    destruct T as [->|(v & y & L & ->)].
    + rewrite Ext; [now apply keep_other_remove|]. intros i x Hin. apply remove_in in Hin as [Hin _]. eapply (i2_fresh _ I); eauto.
    + rewrite Ext; [now apply keep_other_update|]. intros i x Hin.
      apply update_in in Hin as [Hin|[-> ->]]; [eapply (i2_fresh _ I); eauto|].
      apply lookup_in in L. eapply (i2_fresh _ I); eauto.
Qed.

Lemma in_keep f h x l : In (h, x) (keep f l) <-> In (h, x) l /\ f h = true.
Proof.
  induction l as [|[i y] l IH]; cbn; [tauto|]. destruct (f i) eqn:E; cbn; rewrite IH.
  - split; [intros [[= -> ->]|[? ?]]; auto|intros [[[= -> ->]|?] ?]; auto].
  - split; [tauto|]. intros [[[= -> ->]|?] ?]; [congruence|auto].
Qed.

Lemma pool_inv_fresh a f : (fresh a <= f)%nat -> pool_inv a -> pool_inv (mkApp (dev a) (handles a) f).
Proof.
  intros Hf I. constructor; cbn; try apply I. intros h x Hin. apply (pi_fresh _ I) in Hin. lia.
Qed.

Lemma step2_inv fuel a d o tr r :
  inv2 a -> (forall h, op_handle o = Some h -> issuer a h = d) ->
  exec (step2 fuel a d o) tr (Done r) -> inv2 (fst r).
Proof.
  intros I Ho X. unfold step2 in X. apply exec_map in X as ([[dv hs f] out] & X & ->). cbn [fst snd dev handles fresh].
  set (iss := fun h => if Nat.eqb h (fresh2 a) then d else issuer a h).
  assert (F1 : forall h, op_handle o = Some h -> Bool.eqb (iss h) d = true).
  { intros h Hh. unfold iss. destruct (Nat.eqb h (fresh2 a)); [apply eqb_reflx|rewrite (Ho h Hh); apply eqb_reflx]. }
  assert (F2 : Bool.eqb (iss (fresh2 a)) d = true) by (unfold iss; rewrite Nat.eqb_refl; apply eqb_reflx).
  destruct (step_filter (fun h => Bool.eqb (iss h) d) fuel (mkApp (devs a d) (handles2 a) (fresh2 a)) o tr _ F1 F2 X) as (Y & T).
  assert (V : filt (fun h => Bool.eqb (iss h) d) (mkApp (devs a d) (handles2 a) (fresh2 a)) = view a d).
  { unfold filt, view. cbn. f_equal. apply keep_ext. intros h x Hin. apply (i2_fresh _ I) in Hin.
    unfold own, iss. destruct (Nat.eqb_spec h (fresh2 a)); [lia|reflexivity]. }
  rewrite V in Y. apply exec_step_post in Y; [|apply I]. destruct Y as (P & _). cbn [fst snd filt dev handles fresh] in P.
  constructor; cbn [handles2 fresh2 issuer devs].
  - intros d'. unfold view. cbn [handles2 fresh2 issuer devs]. destruct (Bool.eqb d' d) eqn:E.
    + apply eqb_prop in E as ->. exact P.
    + assert (d' <> d) by (intros ->; rewrite eqb_reflx in E; discriminate).
      destruct (view_change d d' a _ _ _ _ _ I Ho T H) as [Ek Hf]. match goal with |- context [keep ?g hs] => change (keep g hs) with (keep (fun h : nat => eqb (if (h =? fresh2 a)%nat then d else issuer a h) d') hs) end. rewrite Ek.
      exact (pool_inv_fresh (view a d') f Hf (i2_pool _ I d')).
  - unfold table_change in T. cbn [fst snd handles fresh] in T. intros h x Hin.
    destruct T as [[-> ->]|[(y & -> & ->)|(h0 & Eh & -> & T)]].
    + eapply (i2_fresh _ I); eauto.
    + apply in_app_iff in Hin as [Hin|[[= <- <-]|[]]]; [apply (i2_fresh _ I) in Hin; lia|lia].
    + destruct T as [->|(v & y & L & ->)].
      * apply remove_in in Hin as [Hin _]. eapply (i2_fresh _ I); eauto.
      * apply update_in in Hin as [Hin|[-> ->]]; [eapply (i2_fresh _ I); eauto|]. apply lookup_in in L. eapply (i2_fresh _ I); eauto.
Qed.

Lemma inv2_new h1 h2 : inv2 (app2_new h1 h2).
Proof.
  constructor; cbn; [|intros ? ? []]. intros []; apply (pool_inv_new).
Qed.

(** every call in the program is made on the device that issued the handle *)
Fixpoint own_device (fuel : nat) (a : app2) (ops : list (bool * op)) : Prop :=
  match ops with
  | [] => True
  | (d, o) :: ops' =>
      (forall h, op_handle o = Some h -> issuer a h = d) /\ forall tr r, exec (step2 fuel a d o) tr (Done r) -> own_device fuel (fst r) ops'
  end.

Lemma run_ops2_inv fuel ops : forall a tr r,
  inv2 a -> own_device fuel a ops -> exec (run_ops2 fuel a ops) tr (Done r) -> inv2 (fst r).
Proof.
  induction ops as [|[d o] ops IH]; intros a tr r I O X.
  - cbn in X. ret_inv X. exact I.
  - cbn [run_ops2] in X. apply exec_bind_done in X as (tr1 & q & tr2 & -> & X1 & X2).
    apply exec_bind_done in X2 as (tr3 & qs & tr4 & -> & X3 & X4). ret_inv X4. cbn [fst].
    destruct O as [O1 O2]. eapply IH; [eapply step2_inv; eauto|eauto|exact X3].
Qed.

Lemma own_no_handle fuel ops : Forall (fun o => op_handle (snd o) = None) ops -> forall a, own_device fuel a ops.
Proof.
  induction 1 as [|[d o] ops H _ IH]; intros a; cbn [own_device]; [exact I|]. split; [|intros; apply IH].
  cbn [snd] in H. rewrite H. discriminate.
Qed.

Lemma run_ops_length : forall fuel ops a tr a' outs,
  exec (run_ops fuel a ops) tr (Done (a', outs)) -> length outs = length ops.
Proof.
  intros fuel. induction ops as [|o ops IH]; intros a tr a' outs X.
  - cbn in X. apply exec_Ret_inv in X as [_ [X|X]]; [|discriminate]. now injection X as -> ->.
  - apply exec_run_ops_cons in X as (t1 & t2 & r & rs & -> & _ & X2 & E). injection E as -> ->.
    destruct rs as [c os]. cbn. f_equal. eapply IH; eauto.
Qed.

Lemma app_eq_len {A} (p1 o1 p2 o2 : list A) :
  length p1 = length o1 -> p1 ++ p2 = o1 ++ o2 -> p1 = o1 /\ p2 = o2.
Proof.
  revert o1. induction p1 as [|p p1 IH]; intros [|q o1]; cbn; try discriminate; [auto|].
  intros L E. injection E as -> E. injection L as L. apply IH in E as [-> ->]; auto.
Qed.

(** C18 *)
Lemma suspend_insert :
  forall fuel a ops1 ops2 tr a' o1 o2, length o1 = length ops1 ->
    (exec (run_ops fuel a (ops1 ++ ops2)) tr (Done (a', o1 ++ o2)) <->
     exec (run_ops fuel a (ops1 ++ OpSuspend :: ops2)) tr (Done (a', o1 ++ RUnit :: o2))).
Proof.
  intros fuel a ops1 ops2 tr a' o1 o2 L.
  assert (S : forall b tr o, exec (run_ops fuel b (OpSuspend :: ops2)) tr (Done (a', o)) <->
    exists o', o = RUnit :: o' /\ exec (run_ops fuel b ops2) tr (Done (a', o'))).
  { intros b tr0 o. split.
    - intros X. apply exec_run_ops_cons in X as (t1 & t2 & r & rs & -> & X1 & X2 & E).
      cbn in X1. apply exec_Ret_inv in X1 as [-> [X1|X1]]; [|discriminate]. injection X1 as ->.
      injection E as -> ->. destruct rs, b as [[? ?] ? ?]. cbn in *. eauto.
    - intros (o' & -> & X). destruct b as [[? ?] ? ?]. cbn [run_ops step].
      replace tr0 with ([] ++ tr0) by reflexivity. eapply exec_bind_intro; [constructor|].
      rewrite <- (app_nil_r tr0). eapply exec_bind_intro; [exact X|]. constructor. }
  split; intros X; apply run_ops_app in X as (tr1 & a1 & p1 & tr2 & p2 & -> & X1 & X2 & E).
  - cbn [fst snd] in *. pose proof (run_ops_length _ _ _ _ _ _ X1) as L1.
    apply app_eq_len in E as [-> ->]; [|congruence].
    eapply run_ops_app_intro; [exact X1|]. apply S. eauto.
  - cbn [fst snd] in *. apply S in X2 as (o' & -> & X2).
    pose proof (run_ops_length _ _ _ _ _ _ X1) as L1.
    apply app_eq_len in E as [-> E]; [|congruence]. injection E as ->.
    eapply run_ops_app_intro; [exact X1|exact X2].
Qed.
