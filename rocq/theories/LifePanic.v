(** Which calls of the whole life of a chip (Life.v) can abort the program, and where. *)
From Verif Require Import LifeFacts LifeWire SpiFacts ExecFacts.

Definition life_panics (q : lop) (w : site) : Prop :=
  match q with
  | LCall o => step_panics o w
  | LRawCall (RwRead _) => w = P_raw_assert
  | _ => False
  end.

Notation anyb := (fun _ _ : N => True).
Notation PP W p := (ptree anyb W (fun _ => True) p).
Lemma pp_any {A} B W G (p : prog A) : ptree B W G p -> PP W p.
Proof. apply ptree_mono; auto. Qed.
Lemma pp_none {A} B W G (p : prog A) : ptree B (fun _ => False) G p -> PP W p.
Proof. apply ptree_mono; auto. intros w []. Qed.
Lemma pp_map {A C} W (p : prog A) (f : A -> C) : PP W p -> PP W (bind p (fun x => Ret (f x))).
Proof. intros H. eapply ptree_bind; [exact H|]. intros; exact Logic.I. Qed.
Lemma pp_bind {A C} W (p : prog A) (f : A -> prog C) : PP W p -> (forall x, PP W (f x)) -> PP W (bind p f).
Proof. intros H K. eapply ptree_bind; [exact H|]. intros; apply K. Qed.

Lemma good_release a h y : good (handles a) -> lookup h (handles a) = Some y -> exists d, release_socket (dev a) (handle_socket y) = Some d.
Proof.
  intros G L. destruct (good_lookup _ _ _ G L) as (i & Hi & E). unfold release_socket. rewrite E.
  change (index (socket_new i)) with i. apply N.ltb_lt in Hi. rewrite Hi. eauto.
Qed.
Lemma pp_step fuel a o : good (handles a) -> PP (step_panics o) (step fuel a o).
Proof.
  intros G. destruct o; cbn [step]; try (destruct (lookup h (handles a)) as [[s|t|u]|] eqn:L); try exact Logic.I.
  - destruct (take_socket (dev a)) as [? []]; exact Logic.I.
  - destruct (good_release _ _ _ G L) as (d & R). cbn [handle_socket] in R. rewrite R. exact Logic.I.
  - destruct (tcp_socket (dev a)) as [? []]; exact Logic.I.
  - apply pp_map. eapply pp_any, (pt_tcp_connect t).
  - apply pp_map. eapply pp_any, (pt_tcp_send t).
  - apply pp_map. eapply pp_any, (pt_tcp_receive t).
  - apply pp_map. unfold tcp_close. apply pp_bind; [eapply pp_any, (pt_tcp_socket_close t)|]. intros [x|er]; [|exact Logic.I].
    destruct (good_release _ _ _ G L) as (d & R). cbn [handle_socket] in R. rewrite R. exact Logic.I.
  - destruct (udp_socket (dev a)) as [? []]; exact Logic.I.
  - apply pp_map. eapply pp_any, (pt_udp_connect u).
  - apply pp_map. eapply pp_any, (pt_udp_bind u).
  - apply pp_map. eapply pp_any, (pt_udp_send_all u).
  - apply pp_map. eapply pp_any, (pt_udp_send_to u).
  - apply pp_map. eapply pp_any, (pt_udp_receive u). reflexivity.
  - apply pp_map. unfold udp_close. apply pp_bind; [eapply pp_any, (pt_udp_socket_close u)|]. intros [x|er]; [|exact Logic.I].
    destruct (good_release _ _ _ G L) as (d & R). cbn [handle_socket] in R. rewrite R. exact Logic.I.
  - apply pp_map. eapply pp_any, pt_run_devop.
  - apply pp_map. eapply pp_any, (pt_udp_set_port u).
  - apply pp_map. eapply pp_any, (pt_run_sockop s).
Qed.
Lemma pp_raw_step fuel d o : PP (life_panics (LRawCall o)) (raw_step fuel d o).
Proof.
  destruct o; cbn [raw_step]; apply pp_map.
  - eapply pp_any, (pt_raw_interrupts d _ which).
  - eapply pp_any, (pt_raw_interrupts d _ x00).
  - eapply pp_any, (pt_raw_interrupts d _ x00).
  - eapply pp_any, (pt_raw_read_frame d _ fuel frame). reflexivity.
  - eapply pp_any, (pt_raw_write_frame d _ fuel frame).
Qed.
Lemma pp_lstep chk fuel l q : wired l -> PP (life_panics q) (lstep chk fuel l q).
Proof.
  intros [G _].
  assert (Z : forall W d, PP W (dev_reset d)) by (intros; eapply pp_any, (pt_dev_reset d)).
  unfold lstep. destruct q as [u|k m|mc|o|o| | | |k|k], (ph l) as [|d|k'|rd|] eqn:P; try exact Logic.I;
    try solve [destruct (nth_error (asleep l) k); exact Logic.I].
  - apply pp_map. destruct u; eapply pp_any; [exact (pt_run_devop QResetDevice _)|exact (pt_run_devop (QSetMode m) _)|exact (pt_run_devop QVersion _)
      |exact (pt_run_devop (QSetRetryTimeout r) _)|exact (pt_run_devop QRetryTimeout _)|exact (pt_run_devop (QSetRetryCount n) _)|exact (pt_run_devop QRetryCount _)].
  - apply pp_bind; [destruct k; eapply pp_any, (pt_init_state _)|]. intros [d|x]; exact Logic.I.
  - apply pp_bind; [eapply pp_any, (pt_initialize_macraw _)|]. intros [d|x]; exact Logic.I.
  - apply pp_map, (pp_step fuel (mkApp d (lhandles l) (lfresh l)) o G).
  - destruct (nth_error (asleep l) k') as [d|]; [|exact Logic.I]. apply pp_map, (pp_step fuel (mkApp d (lhandles l) (lfresh l)) o G).
  - apply pp_map, pp_raw_step.
  - apply pp_bind; [apply Z|]. intros [[]|x]; exact Logic.I.
  - destruct (nth_error (asleep l) k') as [d|]; [|exact Logic.I]. apply pp_bind; [apply Z|]. intros [[]|x]; exact Logic.I.
Qed.

(** a life that aborts does so in one of its calls, all calls before which came to an end *)
Lemma life_abort chk fuel : forall ops l tr w, wired l -> exec (run_life chk fuel l ops) tr (Panicked w) ->
  exists before q after t1 t2 l1 outs, ops = before ++ q :: after /\ tr = t1 ++ t2 /\
    exec (run_life chk fuel l before) t1 (Done (l1, outs)) /\ wired l1 /\ exec (lstep chk fuel l1 q) t2 (Panicked w).
Proof.
  induction ops as [|q ops IH]; intros l tr w W X; cbn [run_life] in X; [inversion X|].
  apply exec_bind_inv in X as [(t1 & [l1 out] & t2 & -> & X1 & X2)|(o & X1 & N & E)].
  - pose proof (ptree_exec _ _ _ _ _ _ (pt_lstep chk fuel l q W) X1) as [_ W1]. cbn [fst] in W1.
    apply exec_bind_inv in X2 as [(u1 & r & u2 & -> & Y1 & Y2)|(o & Y & N & E)]; [inversion Y2|].
    destruct o; try discriminate E. injection E as <-. cbn [fst] in Y.
    destruct (IH _ _ _ W1 Y) as (bf & q' & af & u1 & u2 & l2 & outs & -> & -> & Z1 & W2 & Z2).
    exists (q :: bf), q', af, (t1 ++ u1), u2, l2, (out :: outs).
    split; [reflexivity|]. split; [apply app_assoc|]. split; [|auto]. cbn [run_life].
    eapply exec_bind_intro; [exact X1|]. cbn [fst]. rewrite <- (app_nil_r u1). eapply exec_bind_intro; [exact Z1|]. constructor.
  - destruct o; try discriminate E. injection E as <-.
    exists [], q, ops, [], tr, l, []. repeat split; auto; [constructor|apply W|apply W].
Qed.
(** the call that aborts *)
Lemma lstep_abort chk fuel l q tr w : wired l -> exec (lstep chk fuel l q) tr (Panicked w) ->
  (exists i h b u, i < 8 /\ q = LCall (OpUdpReceive h b) /\ u_socket u = socket_new i /\ exec (udp_receive fuel u b) tr (Panicked w)) \/
  (exists b, q = LRawCall (RwRead b) /\ exec (raw_read_frame fuel (mkRaw (socket_new 0)) b) tr (Panicked w)).
Proof.
  intros W X. pose proof (ptree_exec _ _ _ _ _ _ (pp_lstep chk fuel l q W) X) as [_ S].
  assert (M : forall A C (p : prog A) (f : A -> C) t, exec (bind p (fun x => Ret (f x))) t (Panicked w) -> exec p t (Panicked w)).
  { intros A C p f t Y. apply exec_bind_inv in Y as [(t1 & x & t2 & _ & _ & Y)|(o & Y & _ & E)]; [inversion Y|].
    destruct o; try discriminate E. injection E as <-. exact Y. }
  destruct W as [G RO].
  assert (U : forall d h b t, exec (step fuel (mkApp d (lhandles l) (lfresh l)) (OpUdpReceive h b)) t (Panicked w) ->
    exists i u, i < 8 /\ u_socket u = socket_new i /\ exec (udp_receive fuel u b) t (Panicked w)).
  { intros d h b t Y. cbn [step handles] in Y. destruct (lookup h (lhandles l)) as [[s|x|u]|] eqn:L; try solve [inversion Y].
    apply M in Y. destruct (good_lookup _ _ _ G L) as (i & Hi & E). exists i, u. auto. }
  destruct q as [| | |o|o| | | | |]; cbn [life_panics] in S; try contradiction.
  - destruct o; cbn [step_panics] in S; try contradiction. left. unfold lstep in X.
    destruct (ph l) as [|d|k|rd|]; try solve [inversion X].
    + apply M, U in X as (i & u & X). exists i. eexists _, _, u. intuition eauto.
    + destruct (nth_error (asleep l) k); [|inversion X]. apply M, U in X as (i & u & X). exists i. eexists _, _, u. intuition eauto.
  - destruct o; try contradiction. right. unfold lstep in X. destruct (ph l) as [|d|k|rd|]; try solve [inversion X].
    apply M in X. cbn [raw_step] in X. apply M in X. eexists. split; [reflexivity|].
    destruct rd as [s]. cbn [raw_socket] in RO. now subst s.
Qed.
