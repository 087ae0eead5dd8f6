(** Consequences of [HistoryFacts] in the form the properties use. *)
From Verif Require Export HistoryFacts.
From Verif Require Import Datasheet History.

Definition program (fuel : nat) (ho : host) (ops : list op) (tr : list event) (a : app) (outs : list out) : Prop :=
  exec (run_ops fuel (app_new ho) ops) tr (Done (a, outs)).

Lemma program_inv fuel ho ops tr a outs :
  program fuel ho ops tr a outs ->
  pool_inv a /\ length outs = length ops /\
  (forallb (fun oo => negb (leaks oo)) (combine ops outs) = true ->
   length (handles a) + sum (map given_back (combine ops outs)) = sum (map gained outs))%nat /\
  (free_count (ds_sockets (dev a)) + sum (map gained outs)
   = 8 + sum (map given_back (combine ops outs)))%nat.
Proof.
  intros X. destruct (exec_run_ops_inv _ _ _ _ _ _ (pool_inv_new ho) X) as (I & L & L2 & C).
  exact (conj I (conj L (conj L2 C))).
Qed.

Lemma inv_unique a : pool_inv a ->
  forall h1 x1 h2 x2, In (h1, x1) (handles a) -> In (h2, x2) (handles a) -> h1 <> h2 ->
  index (handle_socket x1) <> index (handle_socket x2).
Proof.
  intros I h1 x1 h2 x2 H1 H2 Hne E. apply Hne.
  pose proof (pi_idx _ I) as ND. unfold idxs in ND.
  apply in_split in H1 as (l1 & l2 & El). rewrite El in ND, H2.
  rewrite map_app in ND. cbn in ND. apply NoDup_remove_2 in ND.
  apply in_app_iff in H2. cbn in H2. destruct H2 as [H2|[[= -> ->]|H2]]; [|reflexivity|]; exfalso; apply ND;
    apply in_app_iff; [left|right]; apply in_map_iff; exists (h2, x2); split; auto; symmetry; exact E.
Qed.

(** how the three allocating calls answer *)
Definition alloc_ok (o : op) (n : nat) (s : Socket) : option (handle * out) :=
  match o with
  | OpTakeSocket => Some (HSock s, RSocket (Some n))
  | OpTcpSocket => Some (HTcp (mkTcp s), RTcpSocket (Ok n))
  | OpUdpSocket => Some (HUdp (mkUdp s None (49849 + index s)), RUdpSocket (Ok n))
  | _ => None
  end.
Definition alloc_none (o : op) : option out :=
  match o with
  | OpTakeSocket => Some (RSocket None)
  | OpTcpSocket => Some (RTcpSocket (Err TNoMoreSockets))
  | OpUdpSocket => Some (RUdpSocket (Err UNoMoreSockets))
  | _ => None
  end.

Lemma alloc_step fuel a o no :
  pool_inv a -> alloc_none o = Some no ->
  (free_count (ds_sockets (dev a)) = 0%nat -> step fuel a o = Ret (a, no)) /\
  (free_count (ds_sockets (dev a)) <> 0%nat ->
   exists i x r d, i < 8 /\ N.testbit (ds_sockets (dev a)) i = true /\
     (forall j, j < i -> N.testbit (ds_sockets (dev a)) j = false) /\
     alloc_ok o (fresh a) (socket_new i) = Some (x, r) /\
     step fuel a o = Ret (mkApp d (handles a ++ [(fresh a, x)]) (S (fresh a)), r) /\
     ds_host d = ds_host (dev a)).
Proof.
  intros I Hn.
  assert (T : (free_count (ds_sockets (dev a)) = 0%nat -> take_socket (dev a) = (dev a, None)) /\
    (free_count (ds_sockets (dev a)) <> 0%nat -> exists i, i < 8 /\
       N.testbit (ds_sockets (dev a)) i = true /\
       (forall j, j < i -> N.testbit (ds_sockets (dev a)) j = false) /\
       take_socket (dev a) = (mkDS (ds_host (dev a)) (N.clearbit (ds_sockets (dev a)) i), Some (socket_new i)))).
  { unfold take_socket. change [0; 1; 2; 3; 4; 5; 6; 7] with all8.
    destruct (first_free all8 (ds_sockets (dev a))) as [i|] eqn:F.
    - split.
      + intros C. apply first_free8_some in F as (Hi & Hb & _). unfold free_count in C.
        rewrite (proj1 (count_zero _ _) C) in Hb; [discriminate|now apply in_all8].
      + intros _. apply first_free8_some in F as (Hi & Hb & Hj). exists i. auto.
    - split; [reflexivity|]. intros C. exfalso. apply C. apply count_zero. now apply first_free_none. }
  destruct T as [T0 T1].
  destruct o; try discriminate Hn; injection Hn as <-; cbn [step]; unfold tcp_socket, udp_socket; split;
    try (intros C; rewrite (T0 C); now rewrite app_eta);
    intros C; destruct (T1 C) as (i & Hi & Hb & Hj & ->);
    exists i; eexists; eexists; eexists; repeat split; eauto.
Qed.

(** ** Bus errors, in explicit form *)
Definition reports_bus_errors {A} (E : A -> option berr) (p : prog A) : Prop :=
  forall tr oc, exec p tr oc ->
    (* a failing access is the last one, and it is what the call reports *)
    (forall tr1 ev tr2 e, tr = tr1 ++ ev :: tr2 -> ev_result ev = Err e ->
       tr2 = [] /\ (oc = Cut \/ exists a, oc = Done a /\ E a = Some e)) /\
    (* a bus error is reported only after an access that failed with it *)
    (forall a e, oc = Done a -> E a = Some e ->
       exists tr1 ev, tr = tr1 ++ [ev] /\ ev_result ev = Err e).

Lemma Forall_mid {A} (P : A -> Prop) l1 x l2 : Forall P (l1 ++ x :: l2) -> P x.
Proof. intros H. apply Forall_app in H as [_ H]. now inversion H. Qed.

Lemma last_unique {A} (P : A -> Prop) (l1 : list A) x l2 (l0 : list A) y :
  l1 ++ x :: l2 = l0 ++ [y] -> Forall P l0 -> ~ P x -> l2 = [] /\ x = y.
Proof.
  intros E F N. destruct l2 as [|z l2 _] using rev_ind.
  - apply app_inj_tail in E as [_ E]. auto.
  - exfalso. apply N. rewrite app_comm_cons, app_assoc in E. apply app_inj_tail in E as [<- _].
    eapply Forall_mid. exact F.
Qed.

Lemma estop_reports {A} (E : A -> option berr) p : estop E p -> reports_bus_errors E p.
Proof.
  intros H tr oc X. apply (estop_exec _ _ _ _ H) in X.
  assert (N : forall ev e, ev_result ev = Err e -> ~ call_ok ev) by (unfold call_ok; congruence).
  split.
  - intros tr1 ev tr2 e -> He. destruct oc as [a|w| |]; cbn in X.
    + destruct (E a) eqn:Ea.
      * destruct X as (tr0 & ev' & Et & F & He').
        destruct (last_unique call_ok _ _ _ _ _ Et F (N _ _ He)) as [-> ->].
        split; auto. right. exists a. split; auto. congruence.
      * apply Forall_mid in X. now apply N in He.
    + apply Forall_mid in X. now apply N in He.
    + apply Forall_mid in X. now apply N in He.
    + destruct X as [X|(tr0 & ev' & e' & Et & F & He')].
      * apply Forall_mid in X. now apply N in He.
      * destruct (last_unique call_ok _ _ _ _ _ Et F (N _ _ He)) as [-> _]. auto.
  - intros a e -> Ea. cbn in X. rewrite Ea in X. destruct X as (tr0 & ev & -> & _ & He). eauto.
Qed.
