(** The sockets that are allocated although no handle of them is left: which they are after any
    program. *)
From Verif Require Export PoolFacts.
From Verif Require Import Datasheet History.

Notation anyb := (fun _ _ : N => True).
Notation anyw := (fun _ : site => True).
Lemma pt_any {A} (p : prog A) : ptree anyb anyw (fun _ => True) p.
Proof. induction p as [a|w| |b a d k IH|b a d k IH]; cbn [ptree]; auto. Qed.
Lemma pt_weak {A} B W (G : A -> Prop) p : ptree B W G p -> ptree anyb anyw G p.
Proof. apply ptree_mono; auto. Qed.

Definition lost (a : History.app) (j : N) : Prop := N.testbit (ds_sockets (dev a)) j = false /\ ~ In j (idxs (handles a)).
(** the call left the socket [j] without a handle *)
Definition loses (a : History.app) (o : op) (r : out) (j : N) : Prop :=
  leaks (o, r) = true /\ exists h y, op_handle o = Some h /\ lookup h (handles a) = Some y /\ index (handle_socket y) = j.
Definition lost_after (a : History.app) (o : op) (r : History.app * out) : Prop :=
  forall j, j < 8 -> (lost (fst r) j <-> lost a j \/ loses a o (snd r) j).

Lemma lost_same a o a' r : ds_sockets (dev a') = ds_sockets (dev a) -> idxs (handles a') = idxs (handles a) -> leaks (o, r) = false ->
  lost_after a o (a', r).
Proof. intros E1 E2 H j Hj. unfold lost, loses. cbn [fst snd]. rewrite E1, E2, H. intuition discriminate. Qed.
Lemma lost_grant a o d x r i : pool_inv a -> first_free all8 (ds_sockets (dev a)) = Some i ->
  ds_sockets d = N.clearbit (ds_sockets (dev a)) i -> handle_socket x = socket_new i -> leaks (o, r) = false -> lost_after a o (grant a d x, r).
Proof.
  intros I F E Hx H j Hj. apply first_free8_some in F as (Hi & Hb & _). unfold lost, loses, grant, idxs. cbn [fst snd dev handles]. rewrite E, H, map_app, in_app_iff.
  assert (Ei : hidx (fresh a, x) = i) by (unfold hidx; cbn [snd]; rewrite Hx; now apply socket_blocks). cbn [map In]. rewrite Ei.
  destruct (N.eq_dec i j) as [<- |Hn].
  - rewrite Hb. split; [intros [_ Q]; elim Q; auto|intros [[Q _]|[Q _]]; discriminate Q].
  - rewrite N.clearbit_neq by assumption. split; [intros [B Q]; left; split; [exact B|]; intros K; apply Q; auto|].
    intros [[B Q]|[Q _]]; [|discriminate Q]. split; [exact B|]. intros [K|[K|[]]]; [now apply Q|contradiction].
Qed.
Lemma idxs_remove a h x : pool_inv a -> lookup h (handles a) = Some x ->
  forall j, In j (idxs (remove h (handles a))) <-> In j (idxs (handles a)) /\ j <> index (handle_socket x).
Proof.
  intros I L j. pose proof (lookup_in _ _ _ L) as Lx. unfold idxs. split.
  - intros H. apply in_map_iff in H as ([k y] & <- & H). apply remove_in in H as [H Hk]. split; [apply in_map_iff; eauto|].
    exact (inv_unique a I k y h x H Lx Hk).
  - intros [H Hj]. apply in_map_iff in H as ([k y] & <- & H). apply in_map_iff. exists (k, y). split; [reflexivity|]. apply HistoryFacts.in_remove; [exact H|].
    intros ->. apply Hj. apply (in_lookup _ _ _ (pi_ids _ I)) in H. unfold hidx. cbn [snd]. congruence.
Qed.
Lemma remove_none h l : lookup h l = None -> remove h l = l.
Proof. induction l as [|[i y] l IH]; cbn [lookup remove]; [reflexivity|]. destruct (Nat.eqb i h); [discriminate|]. intros H. now rewrite IH. Qed.
Lemma lost_drop a o h x r : pool_inv a -> op_handle o = Some h -> lookup h (handles a) = Some x -> leaks (o, r) = true ->
  lost_after a o (consume a (dev a) h, r).
Proof.
  intros I Ho L H j Hj. destruct (pi_lookup _ _ _ I L) as (i & Hi & Ei & Bi). destruct (socket_blocks i Hi) as (_ & _ & _ & Ix).
  unfold lost, loses, consume. cbn [fst snd dev handles]. rewrite (idxs_remove a h x I L), H, Ei, Ix. split.
  - intros [B Q]. destruct (N.eq_dec j i) as [-> |Hn]; [right; split; [reflexivity|]; exists h, x; rewrite Ei; auto|]. left. split; [exact B|]. intros K. apply Q. auto.
  - intros [[B Q]|(_ & h' & y & Ho' & L' & Ey)]; [split; [exact B|]; tauto|].
    assert (h' = h) as -> by congruence. assert (y = x) as -> by congruence. rewrite Ei, Ix in Ey. subst j. split; [exact Bi|]. tauto.
Qed.
Lemma lost_release a o h x d r : pool_inv a -> lookup h (handles a) = Some x -> release_socket (dev a) (handle_socket x) = Some d -> leaks (o, r) = false ->
  lost_after a o (consume a d h, r).
Proof.
  intros I L R H j Hj. destruct (pi_lookup _ _ _ I L) as (i & Hi & Ei & Bi). destruct (socket_blocks i Hi) as (_ & _ & _ & Ix).
  unfold release_socket in R. rewrite Ei, Ix in R. destruct (N.ltb_spec i 8); [|lia]. injection R as <-.
  unfold lost, loses, consume. cbn [fst snd dev handles ds_sockets]. rewrite (idxs_remove a h x I L), H, Ei, Ix.
  destruct (N.eq_dec i j) as [<- |Hn].
  - rewrite N.setbit_eq. split; [intros [Q _]; discriminate Q|]. intros [[_ Q]|[Q _]]; [|discriminate Q]. elim Q. apply lookup_in in L.
    unfold idxs. apply in_map_iff. exists (h, x). split; [|exact L]. unfold hidx. cbn [snd]. now rewrite Ei.
  - rewrite N.setbit_neq by assumption. split; [intros [B Q]; left; split; [exact B|]; intros K; apply Q; auto|]. intros [[B Q]|[Q _]]; [tauto|discriminate Q].
Qed.
Lemma lost_close {E} a h x (p : prog (res unit E)) (mk : res unit E -> out) o :
  pool_inv a -> op_handle o = Some h -> lookup h (handles a) = Some x ->
  (forall e, leaks (o, mk (Err e)) = true) -> leaks (o, mk (Ok tt)) = false ->
  ptree anyb anyw (lost_after a o)
    (do r <- (try a0 <- p else (fun e => (dev a, Err e)) ;;
              match release_socket (dev a) (handle_socket x) with
              | Some d' => Ret (d', Ok tt)
              | None => Panic P_set_bit
              end) ;; Ret (consume a (fst r) h, mk (snd r))).
Proof.
  intros I Ho L HL HK.
  eapply ptree_bind with (G := fun r => (r = (dev a, snd r) /\ (exists e, snd r = Err e)) \/
      (snd r = Ok tt /\ release_socket (dev a) (handle_socket x) = Some (fst r))).
  - eapply ptree_tryw; [apply pt_any| |].
    + intros u _. destruct (release_ok _ _ _ I L) as (d & R). rewrite R. cbn. right. auto.
    + cbn. left. eauto.
  - intros [d r] [[Eq (e & Ee)]|[Er Rl]]; cbn [fst snd] in *; subst; cbn [ptree].
    + injection Eq as ->. eapply lost_drop; eauto.
    + eapply lost_release; eauto.
Qed.
Lemma pt_lost fuel a o : pool_inv a -> ptree anyb anyw (lost_after a o) (step fuel a o).
Proof.
  intros I.
  assert (P : forall h x v r, lookup h (handles a) = Some x -> handle_socket v = handle_socket x -> leaks (o, r) = false -> lost_after a o (put a h v, r)).
  { intros h x v r L E K. apply lost_same; [reflexivity| |exact K]. unfold put. cbn [handles]. eapply update_idxs; eauto. }
  destruct o; cbn [step]; try (destruct (lookup h (handles a)) as [[s|t|u]|] eqn:L); try (cbn [ptree]; apply lost_same; reflexivity).
  - unfold take_socket. change [0; 1; 2; 3; 4; 5; 6; 7] with all8. destruct (first_free all8 _) as [i|] eqn:F; cbn [ptree]; [|apply lost_same; reflexivity].
    eapply lost_grant; [exact I|exact F| | |]; reflexivity.
  - destruct (release_socket (dev a) s) eqn:R; cbn [ptree]; [|exact Logic.I]. eapply lost_release; [exact I|exact L|exact R|reflexivity].
  - unfold tcp_socket, take_socket. change [0; 1; 2; 3; 4; 5; 6; 7] with all8. destruct (first_free all8 _) as [i|] eqn:F; cbn [ptree]; [|apply lost_same; reflexivity].
    eapply lost_grant; [exact I|exact F| | |]; reflexivity.
  - eapply ptree_map; [apply pt_any|]. intros; apply lost_same; reflexivity.
  - eapply ptree_map; [apply pt_any|]. intros; apply lost_same; reflexivity.
  - eapply ptree_map; [apply pt_any|]. intros; apply lost_same; reflexivity.
  - apply (lost_close a h (HTcp t) (tcp_socket_close t) RTcpClose); auto.
  - unfold udp_socket, take_socket. change [0; 1; 2; 3; 4; 5; 6; 7] with all8. destruct (first_free all8 _) as [i|] eqn:F; cbn [ptree]; [|apply lost_same; reflexivity].
    eapply lost_grant; [exact I|exact F| | |]; reflexivity.
  - eapply ptree_map; [eapply pt_weak, (pt_udp_connect u anyw)|]. intros r Hr. eapply P; eauto.
  - eapply ptree_map; [eapply pt_weak, (pt_udp_bind u anyw)|]. intros r Hr. eapply P; eauto.
  - eapply ptree_map; [apply pt_any|]. intros; apply lost_same; reflexivity.
  - eapply ptree_map; [eapply pt_weak, (pt_udp_send_to u anyw)|]. intros r [Hr _]. eapply P; eauto.
  - eapply ptree_map; [apply pt_any|]. intros; apply lost_same; reflexivity.
  - apply (lost_close a h (HUdp u) (udp_socket_close u) RUdpUnit); auto.
  - eapply lost_drop; eauto.
  - eapply lost_drop; eauto.
  - eapply lost_drop; eauto.
  - cbn [ptree]. intros j Hj. unfold lost, loses, consume. cbn [fst snd dev handles op_handle]. rewrite (remove_none _ _ L).
    split; [auto|]. intros [Q|(_ & h' & y & [= <-] & L' & _)]; [exact Q|congruence].
  - eapply ptree_map; [apply pt_any|]. intros; apply lost_same; reflexivity.
  - eapply ptree_map; [eapply pt_weak, (pt_udp_set_port u anyw)|]. intros r Hr. eapply P; eauto.
  - eapply ptree_map; [apply pt_any|]. intros; apply lost_same; reflexivity.
Qed.

(** ** Over a program *)
(** some call of the program left the socket [j] without a handle *)
Definition socket_lost (fuel : nat) (a0 : History.app) (ops : list op) (tr : list event) (a : History.app) (outs : list out) (j : N) : Prop :=
  exists ops1 o ops2 tr1 tr2 tr3 a1 a2 outs1 r outs2,
    ops = ops1 ++ o :: ops2 /\ tr = tr1 ++ tr2 ++ tr3 /\ outs = outs1 ++ r :: outs2 /\
    exec (run_ops fuel a0 ops1) tr1 (Done (a1, outs1)) /\ exec (step fuel a1 o) tr2 (Done (a2, r)) /\
    exec (run_ops fuel a2 ops2) tr3 (Done (a, outs2)) /\ leaks (o, r) = true /\
    exists h y, op_handle o = Some h /\ lookup h (handles a1) = Some y /\ index (handle_socket y) = j.
Lemma exec_lost fuel a o tr r : pool_inv a -> exec (step fuel a o) tr (Done r) -> lost_after a o r.
Proof. intros I X. exact (proj2 (ptree_exec _ _ _ _ _ _ (pt_lost fuel a o I) X)). Qed.
Lemma run_lost fuel ops : forall a tr a' outs, pool_inv a -> exec (run_ops fuel a ops) tr (Done (a', outs)) ->
  forall j, j < 8 -> (lost a' j <-> lost a j \/ socket_lost fuel a ops tr a' outs j).
Proof.
  induction ops as [|o ops IH]; intros a tr a' outs I X j Hj.
  - cbn [run_ops] in X. apply exec_Ret_inv in X as [_ [[= -> ->]|E]]; [|discriminate E]. split; [auto|].
    intros [Q|(ops1 & o & ops2 & _ & _ & _ & _ & _ & _ & _ & _ & E & _)]; [exact Q|]. destruct ops1; discriminate E.
  - apply exec_run_ops_cons in X as (tr1 & tr2 & [a1 r] & [a2 outs2] & -> & X1 & X2 & [= -> ->]). cbn [fst snd] in X2.
    pose proof (exec_lost _ _ _ _ _ I X1 j Hj) as S. cbn [fst snd] in S.
    pose proof (exec_step_post _ _ _ _ _ I X1) as (I1 & _). cbn [fst] in I1.
    rewrite (IH a1 tr2 a2 outs2 I1 X2 j Hj), S. cbn [fst snd]. split.
    + intros [[Q|(Lk & h & y & Q)]|(ops1 & o' & ops2 & t1 & t2 & t3 & b1 & b2 & u1 & r' & u2 & -> & -> & -> & Y1 & Y2 & Y3 & Q)]; [auto| |]; right.
      * exists [], o, ops, [], tr1, tr2, a, a1, [], r, outs2. do 3 (split; [reflexivity|]). split; [constructor|].
        split; [exact X1|]. split; [exact X2|]. split; [exact Lk|]. exists h, y. exact Q.
      * exists (o :: ops1), o', ops2, (tr1 ++ t1), t2, t3, b1, b2, (r :: u1), r', u2. split; [reflexivity|]. split; [now rewrite app_assoc|]. split; [reflexivity|].
        split; [|auto]. cbn [run_ops]. eapply exec_bind_intro; [exact X1|]. cbn [fst snd]. rewrite <- (app_nil_r t1).
        eapply exec_bind_intro; [exact Y1|]. cbn [fst snd]. constructor.
    + intros [Q|(ops1 & o' & ops2 & t1 & t2 & t3 & b1 & b2 & u1 & r' & u2 & E1 & E2 & E3 & Y1 & Y2 & Y3 & Q)]; [auto|].
      rewrite <- S, <- (IH a1 tr2 a2 outs2 I1 X2 j Hj).
      destruct (exec_run_ops_inv _ _ _ _ _ _ I Y1) as (Ib1 & _). pose proof (exec_step_post _ _ _ _ _ Ib1 Y2) as (Ib2 & _). cbn [fst] in Ib2.
      destruct (exec_lost _ _ _ _ _ Ib1 Y2 j Hj) as [_ K]. specialize (K (or_intror Q)). cbn [fst] in K.
      clear IH S X1 X2 I1. revert Y3 K Ib2. clear - Hj. revert b2 t3 a2 u2. induction ops2 as [|o ops IH]; intros b2 t3 a2 u2 Y K Ib.
      * cbn [run_ops] in Y. apply exec_Ret_inv in Y as [_ [[= -> ->]|E]]; [exact K|discriminate E].
      * apply exec_run_ops_cons in Y as (t1 & t2 & [b1 r] & [b u] & -> & Y1 & Y2 & [= -> ->]). cbn [fst snd] in Y2.
        pose proof (exec_step_post _ _ _ _ _ Ib Y1) as (Ib1 & _). destruct (exec_lost _ _ _ _ _ Ib Y1 j Hj) as [_ K1].
        exact (IH b1 t2 b u Y2 (K1 (or_introl K)) Ib1).
Qed.
Lemma lost_new ho j : j < 8 -> ~ lost (app_new ho) j.
Proof.
  intros Hj [B _]. assert (H : forallb (fun k => N.testbit (ds_sockets (dev (app_new ho))) k) all8 = true) by reflexivity.
  rewrite forallb_forall in H. rewrite (H j) in B; [discriminate B|now apply in_all8].
Qed.
(** allocated: a live handle, or lost *)
Lemma taken_iff fuel ho ops tr a outs : program fuel ho ops tr a outs -> forall j, j < 8 ->
  (N.testbit (ds_sockets (dev a)) j = false <->
   (exists h y, In (h, y) (handles a) /\ index (handle_socket y) = j) \/ socket_lost fuel (app_new ho) ops tr a outs j).
Proof.
  intros X j Hj. pose proof (run_lost fuel ops (app_new ho) tr a outs (pool_inv_new ho) X j Hj) as E.
  destruct (program_inv _ _ _ _ _ _ X) as (I & _).
  assert (D : In j (idxs (handles a)) <-> exists h y, In (h, y) (handles a) /\ index (handle_socket y) = j).
  { unfold idxs. rewrite in_map_iff. split; [intros ([h y] & <- & H); exists h, y; auto|intros (h & y & H & <-); exists (h, y); auto]. }
  rewrite <- D. split.
  - intros B. destruct (in_dec N.eq_dec j (idxs (handles a))) as [Q|Q]; [left; exact Q|right].
    destruct (proj1 E (conj B Q)) as [Z|Z]; [elim (lost_new ho j Hj Z)|exact Z].
  - intros [Q|Q]; [|exact (proj1 (proj2 E (or_intror Q)))].
    unfold idxs in Q. apply in_map_iff in Q as ([h y] & <- & Q). destruct (pi_socket _ I _ _ Q) as (i & Hi & Ei & Bi).
    unfold hidx. cbn [snd]. rewrite Ei. destruct (socket_blocks i Hi) as (_ & _ & _ & ->). exact Bi.
Qed.
