(** C18 and C20 over the whole life of a chip: devices put away and woken up; the number
    [UdpSocket::index] answers. *)
From Verif Require Import Life LifeFacts LifeWire LifeCalls Asleep ProgFacts Cases Properties_life.

(** ** C18 *)
(** A device put away with [deactivate] is the same when it is activated again, whatever the
    program did meanwhile with the bus and with other devices, put away before or after it; only
    it must not have been woken up itself ([n] is its place among the inactive devices, and those
    put away before it stay put away by value, so that the place stays the same). *)
Theorem C18_put_away :
  forall chk fuel l ops d tr l' outs, ph l = Up d ->
    let n := length (asleep l) in
    (forall j, In (LWakeRef j) ops -> j <> n) -> (forall j, In (LWake j) ops -> (n < j)%nat) ->
    exec (run_life chk fuel l (LSleep :: ops ++ [LWake n])) tr (Done (l', outs)) -> ph l' = Up d.
Proof.
  intros chk fuel l ops d tr l' outs Hp n H1 H2 X.
  assert (F : Forall (leaves n) ops) by (apply Forall_forall; intros q Hq; destruct q; cbn [leaves]; auto).
  cbn [run_life] in X. apply exec_bind_done in X as (t1 & r & t2 & -> & X1 & X). unfold lstep in X1. rewrite Hp in X1.
  apply exec_Ret_inv in X1 as [-> [X1|X1]]; [|discriminate]. injection X1 as ->. cbn [fst snd] in X.
  apply exec_bind_done in X as (t3 & rs & t4 & -> & X2 & X). apply exec_Ret_inv in X as [-> [X|X]]; [|discriminate]. injection X as -> ->.
  destruct (life_app _ _ _ _ _ _ _ X2) as (ta & la & oa & tb & ob & -> & Y1 & Y2 & E).
  assert (K : nth_error (asleep la) n = Some d).
  { eapply kept_asleep; [exact F| |exact Y1|]; [discriminate|]. cbn [asleep]. rewrite nth_error_app2, Nat.sub_diag by reflexivity. now destruct d. }
  cbn [run_life] in Y2. apply exec_bind_done in Y2 as (t5 & r & t6 & -> & Y2 & Y3). unfold lstep in Y2. rewrite K in Y2.
  assert (Q : r = (mkLife (Up d) (lhandles la) (lfresh la) (drop_nth n (asleep la)), LMade)).
  { destruct d, (ph la); apply exec_Ret_inv in Y2 as [_ [Y2|Y2]]; try discriminate Y2; now injection Y2 as ->. }
  subst r. apply exec_bind_done in Y3 as (t7 & r & t8 & -> & Y3 & Y4). apply exec_Ret_inv in Y3 as [-> [Y3|Y3]]; [|discriminate].
  injection Y3 as ->. apply exec_Ret_inv in Y4 as [-> [Y4|Y4]]; [|discriminate]. injection Y4 as Y4 _. now rewrite Y4.
Qed.
Print Assumptions C18_put_away.

(** Calls on a device activated by reference, and then activating it by value: as the same calls
    on the device activated by value, on every bus.  The device ends up the same, the answers are
    the same, and so is every abort, loop and bus access. *)
Theorem C18_by_reference :
  forall chk fuel l k calls, nth_error (asleep l) k <> None ->
  forall tr,
    (forall l' outs, exec (run_life chk fuel l (LWakeRef k :: map LCall calls ++ [LSleep; LWake k])) tr (Done (l', LMade :: outs ++ [LMade; LMade])) <->
                     exec (run_life chk fuel l (LWake k :: map LCall calls)) tr (Done (l', LMade :: outs))) /\
    (forall w, exec (run_life chk fuel l (LWakeRef k :: map LCall calls ++ [LSleep; LWake k])) tr (Panicked w) <->
               exec (run_life chk fuel l (LWake k :: map LCall calls)) tr (Panicked w)) /\
    (exec (run_life chk fuel l (LWakeRef k :: map LCall calls ++ [LSleep; LWake k])) tr Looping <->
     exec (run_life chk fuel l (LWake k :: map LCall calls)) tr Looping).
Proof.
  intros chk fuel l k calls Hk tr. destruct (nth_error (asleep l) k) as [d|] eqn:Nk; [clear Hk|now elim Hk].
  assert (A : peq (run_life chk fuel l (LWakeRef k :: map LCall calls ++ [LSleep; LWake k]))
                  (bind (run_life chk fuel l (LWake k :: map LCall calls)) (fun r => Ret (fst r, snd r ++ [LMade; LMade])))).
  { cbn [run_life]. assert (E1 : lstep chk fuel l (LWakeRef k) = Ret (mkLife (UpRef k) (lhandles l) (lfresh l) (asleep l), LMade)).
    { unfold lstep. rewrite Nk. now destruct (ph l). }
    assert (E2 : lstep chk fuel l (LWake k) = Ret (mkLife (Up d) (lhandles l) (lfresh l) (drop_nth k (asleep l)), LMade)).
    { unfold lstep. rewrite Nk. destruct d. now destruct (ph l). }
    rewrite E1, E2. cbn [bind fst snd].
    eapply peq_trans; [apply peq_bind_l, ref_calls; exact Nk|]. eapply peq_trans; [apply peq_assoc|].
    eapply peq_trans; [|apply peq_sym, peq_assoc]. apply peq_bind. intros x. apply peq_refl. }
  set (p := run_life chk fuel l (LWakeRef k :: _)) in *. set (q := run_life chk fuel l (LWake k :: _)) in *. clearbody p q.
  split; [|split].
  - intros l' outs. rewrite (A tr _). split; intros X.
    + apply exec_bind_done in X as (t1 & r & t2 & -> & X1 & X). apply exec_Ret_inv in X as [-> [X|X]]; [|discriminate].
      destruct r as [l1 o1]. injection X as -> E. cbn [snd] in E. change (LMade :: outs ++ [LMade; LMade]) with ((LMade :: outs) ++ [LMade; LMade]) in E.
      apply app_inv_tail in E as <-. rewrite app_nil_r. exact X1.
    + rewrite <- (app_nil_r tr). eapply exec_bind_intro; [exact X|]. constructor.
  - intros w. rewrite (A tr _). split; intros X.
    + apply exec_bind_inv in X as [(t1 & r & t2 & -> & X1 & X)|(o' & X & No & E)]; [apply exec_Ret_inv in X as [_ [X|X]]; discriminate X|].
      destruct o'; cbn [cast] in E; try discriminate E. now injection E as ->.
    + exact (exec_bind_stop _ _ _ _ X ltac:(discriminate)).
  - rewrite (A tr _). split; intros X.
    + apply exec_bind_inv in X as [(t1 & r & t2 & -> & X1 & X)|(o' & X & No & E)]; [apply exec_Ret_inv in X as [_ [X|X]]; discriminate X|].
      destruct o'; cbn [cast] in E; try discriminate E. exact X.
    + exact (exec_bind_stop _ _ _ _ X ltac:(discriminate)).
Qed.
Print Assumptions C18_by_reference.
(** two devices with a TCP and a UDP socket each, put away; the second is used by reference, with
    the first asleep; then the first is woken up, and hands out its next socket *)
Example C18_case_life : exists l s,
  run quiet (run_life true 5 life_new
    [LInit home_setup home_mode; LCall OpTcpSocket; LCall OpUdpSocket; LSleep; LNew; LInit home_setup home_mode; LCall OpTcpSocket; LSleep;
     LWakeRef 1; LCall OpUdpSocket; LCall OpUdpSocket; LSleep; LWake 0; LCall OpUdpSocket; LSleep; LWake 0; LCall OpUdpSocket]) sys0 = (Done l, s) /\
  map (fun p => (fst p, index (handle_socket (snd p)))) (lhandles (fst l)) = [(0%nat, 0); (1%nat, 1); (2%nat, 0); (3%nat, 1); (4%nat, 2); (5%nat, 2); (6%nat, 3)].
Proof. eexists _, _. split; [apply run_snd; vm_compute; reflexivity|]. reflexivity. Qed.

(** ** C20 *)
(** Over a whole life, a call on a UDP handle touches the three blocks of the socket whose number
    [index] answers, and no other. *)
Theorem C20_index :
  forall chk fuel ops tr0 l outs, exec (run_life chk fuel life_new ops) tr0 (Done (l, outs)) ->
  forall o h u tr oc, op_handle o = Some h -> lookup h (lhandles l) = Some (HUdp u) -> exec (lstep chk fuel l (LCall o)) tr oc ->
  forall ev, In ev tr -> udp_index u < 8 /\
    (ev_block ev = 4 * udp_index u + 1 \/ ev_block ev = 4 * udp_index u + 2 \/ ev_block ev = 4 * udp_index u + 3).
Proof.
  intros chk fuel ops tr0 l outs X0 o h u tr oc Ho Hl X ev Hin. destruct (life_wired _ _ _ _ _ _ X0) as [G _].
  assert (S : forall d tr oc, exec (step fuel (mkApp d (lhandles l) (lfresh l)) o) tr oc -> In ev tr -> udp_index u < 8 /\
    (ev_block ev = 4 * udp_index u + 1 \/ ev_block ev = 4 * udp_index u + 2 \/ ev_block ev = 4 * udp_index u + 3)).
  { clear - G Ho Hl. intros d tr oc X Hin.
    destruct (ptree_exec _ _ _ _ _ _ (good_step fuel (mkApp d (lhandles l) (lfresh l)) o G) X) as [HB _]. specialize (HB ev Hin).
    assert (S : step_blk (mkApp d (lhandles l) (lfresh l)) o (ev_block ev) (match ev with ERead _ ad _ _ | EWrite _ ad _ _ => ad end))
      by (destruct ev; exact HB). clear HB.
    unfold step_blk in S. rewrite Ho in S. destruct S as (x & L & S & _). cbn [handles] in L. rewrite Hl in L. injection L as <-.
    destruct (good_lookup _ _ _ G Hl) as (i & Hi & E). cbn [handle_socket] in E, S. rewrite E in S.
    destruct (socket_blocks i Hi) as (E1 & E2 & E3 & E4). unfold udp_index. rewrite E, E4. rewrite E1, E2, E3 in S. split; [exact Hi|exact S]. }
  assert (B : forall d f tr oc, exec (bind (step fuel (mkApp d (lhandles l) (lfresh l)) o) (fun r => Ret (f r : life * lout))) tr oc -> In ev tr ->
    exists tr' oc', exec (step fuel (mkApp d (lhandles l) (lfresh l)) o) tr' oc' /\ In ev tr').
  { clear. intros d f tr oc X Hin. apply exec_bind_inv in X as [(t1 & r & t2 & -> & X1 & X)|(o' & X & _)]; [|eauto].
    apply exec_Ret_inv in X as [-> _]. rewrite app_nil_r in Hin. eauto. }
  unfold lstep in X. destruct (ph l) as [|d|k|rd|].
  2: { destruct (B _ (fun r => (mkLife (Up (dev (fst r))) (handles (fst r)) (fresh (fst r)) (asleep l), LOut (snd r))) _ _ X Hin) as (t' & o' & Y & Yi). eauto. }
  2: destruct (nth_error (asleep l) k) as [d|].
  2: { destruct (B _ (fun r => (mkLife (UpRef k) (handles (fst r)) (fresh (fst r)) (set_nth k (dev (fst r)) (asleep l)), LOut (snd r))) _ _ X Hin) as (t' & o' & Y & Yi). eauto. }
  all: apply exec_Ret_inv in X as [-> _]; destruct Hin.
Qed.
Print Assumptions C20_index.
Example C20_case_index : exists l outs s, run quiet (run_life true 5 life_new
    [LInit home_setup home_mode; LCall OpTcpSocket; LCall OpUdpSocket; LCall OpUdpSocket; LCall (OpUdpBind 2 5000)]) sys0 = (Done (l, outs), s) /\
  (exists u, lookup 2 (lhandles l) = Some (HUdp u) /\ udp_index u = 2) /\ sr (socks (s_chip s) 2) = SOCK_UDP.
Proof. eexists _, _, _. split; [apply run_snd; vm_compute; reflexivity|]. split; [eexists; split; reflexivity|]. reflexivity. Qed.
