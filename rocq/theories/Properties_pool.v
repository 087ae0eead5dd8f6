(** Properties C14-C20, C22, C23: the socket pool, which blocks are touched, bus errors, panics.
    Everything here holds for arbitrary bus behaviour ([exec]).

    [program fuel ho ops tr a outs]: a program that initialised a device (host settings [ho]) and
    made the calls [ops]; the bus accesses were [tr], the calls returned [outs], and the
    application now owns the handles in [a]. *)
From Verif Require Import TwoDeviceFacts LeakFacts ExecFacts Datasheet History.

(** C14 *)
Theorem C14_unique :
  forall fuel ho ops tr a outs, program fuel ho ops tr a outs ->
    (forall h x, In (h, x) (handles a) ->
       index (handle_socket x) < 8 /\ handle_socket x = socket_new (index (handle_socket x))) /\
    (forall h1 x1 h2 x2, In (h1, x1) (handles a) -> In (h2, x2) (handles a) -> h1 <> h2 ->
       index (handle_socket x1) <> index (handle_socket x2)).
Proof.
  intros fuel ho ops tr a outs X. destruct (program_inv _ _ _ _ _ _ X) as (I & _). split.
  - intros h x Hin. destruct (pi_socket _ I _ _ Hin) as (i & Hi & E & _). now rewrite E.
  - exact (inv_unique a I).
Qed.
Print Assumptions C14_unique.
(** three handles, the middle one closed and its slot reused *)
Definition pool_ops : list op := [OpTcpSocket; OpUdpSocket; OpTakeSocket; OpUdpClose 1; OpTcpSocket].
Definition ok_bus : list (list byte * res unit berr) := repeat ([], Ok tt) 2.
Example C14_case : exists tr a outs, program 5 Dhcp pool_ops tr a outs /\
  map (fun hx => (fst hx, index (handle_socket (snd hx)))) (handles a) = [(0%nat, 0); (2%nat, 2); (3%nat, 1)].
Proof.
  destruct (replay (run_ops 5 (app_new Dhcp) pool_ops) ok_bus) as [tr o] eqn:E.
  pose proof (replay_eq _ _ _ _ E) as X. vm_compute in E. injection E as <- <-.
  eexists _, _, _. split; [exact X|reflexivity].
Qed.

(** C15.  [alloc_none]/[alloc_ok] list the answers of take_socket, TcpClientStack::socket and
    UdpClientStack::socket.  Whether the call succeeds is determined by how many sockets the
    program was given and gave back; the call makes no bus access and changes nothing else.  In
    programs that drop no handle without a successful close, the index returned is the least one
    that no live handle has. *)
Theorem C15_allocation :
  forall fuel ho ops tr a outs, program fuel ho ops tr a outs ->
  let given := sum (map gained outs) in
  let returned := sum (map given_back (combine ops outs)) in
  (length (handles a) <= 8)%nat /\
  forall o none, alloc_none o = Some none ->
    ((given = 8 + returned)%nat -> step fuel a o = Ret (a, none)) /\
    ((given <> 8 + returned)%nat ->
       (given < 8 + returned)%nat /\
       exists i x r d, i < 8 /\
         alloc_ok o (fresh a) (socket_new i) = Some (x, r) /\
         step fuel a o = Ret (mkApp d (handles a ++ [(fresh a, x)]) (S (fresh a)), r) /\
         ds_host d = ds_host (dev a) /\
         (forall h y, In (h, y) (handles a) -> index (handle_socket y) <> i) /\
         (forallb (fun oo => negb (leaks oo)) (combine ops outs) = true ->
          forall j, j < i -> exists h y, In (h, y) (handles a) /\ index (handle_socket y) = j)).
Proof.
  intros fuel ho ops tr a outs X given returned.
  destruct (program_inv _ _ _ _ _ _ X) as (I & _ & Lk & C). fold given returned in Lk, C.
  split; [now apply live_le8|]. intros o none Hn.
  destruct (alloc_step fuel a o none I Hn) as [A0 A1]. split.
  - intros E. apply A0. lia.
  - intros E. split; [lia|]. destruct A1 as (i & x & r & d & Hi & Hb & Hj & H1 & H2 & H3); [lia|].
    exists i, x, r, d. split; [exact Hi|]. split; [exact H1|]. split; [exact H2|]. split; [exact H3|]. split.
    + intros h y Hin E1. destruct (pi_socket _ I _ _ Hin) as (k & Hk & Ek & Bk). rewrite Ek in E1.
      cbn in E1. congruence.
    + intros F j Hlt. specialize (Hj j Hlt). apply exact_pool in Hj; [|exact I|specialize (Lk F); lia|lia].
      apply in_map_iff in Hj as ([h y] & Ey & Hin). exists h, y. auto.
Qed.
Print Assumptions C15_allocation.
Example C15_case : exists tr a outs, program 5 Dhcp pool_ops tr a outs /\
  sum (map gained outs) = 4%nat /\ sum (map given_back (combine pool_ops outs)) = 1%nat /\
  forallb (fun oo => negb (leaks oo)) (combine pool_ops outs) = true.
Proof.
  destruct (replay (run_ops 5 (app_new Dhcp) pool_ops) ok_bus) as [tr o] eqn:E.
  pose proof (replay_eq _ _ _ _ E) as X. vm_compute in E. injection E as <- <-.
  eexists _, _, _. split; [exact X|repeat split].
Qed.
(** eight sockets, then none left *)
Example C15_case_none : exists a outs,
  program 5 Dhcp (repeat OpTcpSocket 8) [] a outs /\ sum (map gained outs) = 8%nat /\
  step 5 a OpUdpSocket = Ret (a, RUdpSocket (Err UNoMoreSockets)).
Proof.
  destruct (replay (run_ops 5 (app_new Dhcp) (repeat OpTcpSocket 8)) []) as [tr o] eqn:E.
  pose proof (replay_eq _ _ _ _ E) as X. vm_compute in E. injection E as <- <-.
  eexists _, _. split; [exact X|repeat split].
Qed.

(** For every program, those that lose handles included: a socket is taken if a live handle has
    it, or if some call of the program dropped its handle or failed to close it.  The call fails
    when all eight are taken, and otherwise returns the least one that is not. *)
Theorem C15_lowest :
  forall fuel ho ops tr a outs, program fuel ho ops tr a outs ->
  let taken j := (exists h y, In (h, y) (handles a) /\ index (handle_socket y) = j) \/ socket_lost fuel (app_new ho) ops tr a outs j in
  forall o none, alloc_none o = Some none ->
    ((forall j, j < 8 -> taken j) /\ step fuel a o = Ret (a, none)) \/
    exists i x r d, i < 8 /\ ~ taken i /\ (forall j, j < i -> taken j) /\
      alloc_ok o (fresh a) (socket_new i) = Some (x, r) /\
      step fuel a o = Ret (mkApp d (handles a ++ [(fresh a, x)]) (S (fresh a)), r).
Proof.
  intros fuel ho ops tr a outs X taken o none Hn. pose proof (taken_iff _ _ _ _ _ _ X) as T. fold taken in T.
  destruct (program_inv _ _ _ _ _ _ X) as (I & _). destruct (alloc_step fuel a o none I Hn) as [A0 A1].
  destruct (Nat.eq_dec (free_count (ds_sockets (dev a))) 0) as [C|C].
  - left. split; [|exact (A0 C)]. intros j Hj. apply T; [exact Hj|]. unfold free_count in C. apply (proj1 (count_zero _ _) C). now apply in_all8.
  - right. destruct (A1 C) as (i & x & r & d & Hi & Hb & Hj & H1 & H2 & _). exists i, x, r, d.
    split; [exact Hi|]. split; [intros Q; apply T in Q; [congruence|exact Hi]|]. split; [intros j Hl; apply T; [lia|auto]|]. auto.
Qed.
Print Assumptions C15_lowest.
(** socket 0 is lost by a failed close, socket 1 is given back, socket 2 is live *)
Example C15_lowest_case : exists tr a outs,
  program 5 Dhcp [OpTcpSocket; OpUdpSocket; OpTakeSocket; OpTcpClose 0; OpUdpClose 1] tr a outs /\
  outs = [RTcpSocket (Ok 0%nat); RUdpSocket (Ok 1%nat); RSocket (Some 2%nat); RTcpClose (Err (TOther 7)); RUdpUnit (Ok tt)] /\
  exists a', step 5 a OpTcpSocket = Ret (a', RTcpSocket (Ok 3%nat)) /\ map (fun hx => (fst hx, index (handle_socket (snd hx)))) (handles a') = [(2%nat, 2); (3%nat, 1)].
Proof.
  destruct (replay (run_ops 5 (app_new Dhcp) [OpTcpSocket; OpUdpSocket; OpTakeSocket; OpTcpClose 0; OpUdpClose 1]) [([], Err 7); ([], Ok tt); ([], Ok tt)]) as [tr o] eqn:E.
  pose proof (replay_eq _ _ _ _ E) as X. vm_compute in E. injection E as <- <-.
  eexists _, _, _. split; [exact X|]. split; [reflexivity|]. eexists. split; reflexivity.
Qed.

(** C16.  Full statement: a close returns the socket to the pool whatever happens on the bus.
    It does when it returns Ok; a close that fails consumes the handle and keeps the socket
    allocated for ever. *)
Theorem C16_close_partial :
  forall fuel ho ops tr a outs, program fuel ho ops tr a outs ->
    (* as long as every close succeeded and no handle was dropped, a socket is available
       whenever fewer than eight handles are live *)
    forallb (fun oo => negb (leaks oo)) (combine ops outs) = true ->
    (length (handles a) < 8)%nat ->
    forall o none, alloc_none o = Some none ->
      exists a' r i x, alloc_ok o (fresh a) (socket_new i) = Some (x, r) /\ step fuel a o = Ret (a', r).
Proof.
  intros fuel ho ops tr a outs X F L o none Hn.
  destruct (program_inv _ _ _ _ _ _ X) as (I & _ & Lk & C). specialize (Lk F).
  destruct (alloc_step fuel a o none I Hn) as [_ A1].
  destruct A1 as (i & x & r & d & Hi & Hb & Hj & H1 & H2 & H3); [lia|]. eauto 10.
Qed.
Print Assumptions C16_close_partial.
Example C16_case : exists tr a outs, program 5 Dhcp pool_ops tr a outs /\
  forallb (fun oo => negb (leaks oo)) (combine pool_ops outs) = true /\ (length (handles a) < 8)%nat.
Proof.
  destruct (replay (run_ops 5 (app_new Dhcp) pool_ops) ok_bus) as [tr o] eqn:E.
  pose proof (replay_eq _ _ _ _ E) as X. vm_compute in E. injection E as <- <-.
  eexists _, _, _. split; [exact X|]. split; [reflexivity|]. cbn. lia.
Qed.

(** after eight failed closes no handle is live, and no socket can be opened any more *)
Definition leak_ops : list op :=
  concat (map (fun h => [OpTcpSocket; OpTcpClose h]) [0; 1; 2; 3; 4; 5; 6; 7]%nat).
Theorem C16_close_refuted :
  exists tr a outs, program 5 Dhcp leak_ops tr a outs /\ handles a = [] /\
    step 5 a OpTcpSocket = Ret (a, RTcpSocket (Err TNoMoreSockets)).
Proof.
  destruct (replay (run_ops 5 (app_new Dhcp) leak_ops) (repeat ([], Err 7) 8)) as [tr o] eqn:E.
  pose proof (replay_eq _ _ _ _ E) as X. vm_compute in E. injection E as <- <-.
  eexists _, _, _. split; [exact X|]. split; reflexivity.
Qed.
Print Assumptions C16_close_refuted.

(** C17, the pool side; the effect on the chip is [C17_reset_chip] *)
Theorem C17_reset :
  forall fuel ho ops tr a outs, program fuel ho ops tr a outs ->
    let given := sum (map gained outs) in
    let returned := sum (map given_back (combine ops outs)) in
    (given <> returned -> dev_reset (dev a) = Ret (Err SocketsNotReleased)) /\
    (given = returned -> forall tr' oc, exec (dev_reset (dev a)) tr' oc ->
       (tr' = [] /\ oc = Cut) \/
       exists r, tr' = [EWrite BSB_COMMON MR [x80] r] /\
         (oc = Cut \/ oc = Done match r with Ok _ => Ok tt | Err e => Err (RsOther e) end)).
Proof.
  intros fuel ho ops tr a outs X given returned.
  destruct (program_inv _ _ _ _ _ _ X) as (I & _ & _ & C). fold given returned in C.
  unfold dev_reset, any_allocated. destruct (N.eqb_spec (ds_sockets (dev a)) 255) as [E|E].
  - apply (free_all a I) in E. split; [intros H; lia|]. intros _ tr' oc Y. cbn [negb] in Y.
    unfold try_, reset_device, write_frame in Y. cbn in Y. inversion Y; subst; [auto|right].
    exists r. match goal with H : exec _ _ _ |- _ => rename H into Z end.
    destruct r as [[]|e]; apply exec_Ret_inv in Z as [-> Z]; split; auto; destruct Z as [-> | ->]; auto.
  - cbn [negb]. split; [reflexivity|]. intros H. exfalso. apply E. apply (free_all a I). lia.
Qed.
Print Assumptions C17_reset.
Example C17_case : exists tr a outs, program 5 Dhcp [OpTcpSocket; OpTcpClose 0] tr a outs /\
  sum (map gained outs) = sum (map given_back (combine [OpTcpSocket; OpTcpClose 0] outs)) /\
  sum (map gained outs) = 1%nat.
Proof.
  destruct (replay (run_ops 5 (app_new Dhcp) [OpTcpSocket; OpTcpClose 0]) ok_bus) as [tr o] eqn:E.
  pose proof (replay_eq _ _ _ _ E) as X. vm_compute in E. injection E as <- <-.
  eexists _, _, _. split; [exact X|]. split; reflexivity.
Qed.

(** C18: inserting a deactivate/activate pair anywhere changes nothing else *)
Theorem C18_suspend :
  forall fuel a ops1 ops2 tr a' o1 o2, length o1 = length ops1 ->
    (exec (run_ops fuel a (ops1 ++ ops2)) tr (Done (a', o1 ++ o2)) <->
     exec (run_ops fuel a (ops1 ++ OpSuspend :: ops2)) tr (Done (a', o1 ++ RUnit :: o2))).
Proof. exact suspend_insert. Qed.
Print Assumptions C18_suspend.
Example C18_case : exists tr a outs,
  program 5 Dhcp ([OpTcpSocket; OpUdpSocket] ++ OpSuspend :: [OpTcpClose 0; OpTakeSocket]) tr a outs /\
  outs = [RTcpSocket (Ok 0%nat); RUdpSocket (Ok 1%nat)] ++ RUnit :: [RTcpClose (Ok tt); RSocket (Some 2%nat)].
Proof.
  destruct (replay (run_ops 5 (app_new Dhcp)
    ([OpTcpSocket; OpUdpSocket] ++ OpSuspend :: [OpTcpClose 0; OpTakeSocket])) ok_bus) as [tr o] eqn:E.
  pose proof (replay_eq _ _ _ _ E) as X. vm_compute in E. injection E as <- <-.
  eexists _, _, _. split; [exact X|reflexivity].
Qed.

(** C19.  Full statement: uniqueness holds with two devices whatever the program does with the
    handles.  False: releasing a handle of one device into the other frees the wrong slot.  It
    holds if every call uses a handle on the device that issued it. *)
Theorem C19_two_devices_partial :
  forall fuel h1 h2 ops tr a outs,
    own_device fuel (app2_new h1 h2) ops ->
    exec (run_ops2 fuel (app2_new h1 h2) ops) tr (Done (a, outs)) ->
    forall i x j y, In (i, x) (handles2 a) -> In (j, y) (handles2 a) -> i <> j ->
      issuer a i = issuer a j -> index (handle_socket x) <> index (handle_socket y).
Proof.
  intros fuel h1 h2 ops tr a outs O X i x j y Hi Hj Hne Hs.
  pose proof (run_ops2_inv _ _ _ _ _ (inv2_new h1 h2) O X) as I. cbn [fst] in I.
  apply (inv_unique _ (i2_pool _ I (issuer a i)) i x j y); auto; cbn; apply in_keep; split; auto;
    unfold own; [apply eqb_reflx|rewrite Hs; apply eqb_reflx].
Qed.
Print Assumptions C19_two_devices_partial.
Example C19_case :
  own_device 5 (app2_new Dhcp Dhcp) [(true, OpTcpSocket); (false, OpTcpSocket); (true, OpTcpSocket)] /\
  exists a outs, exec (run_ops2 5 (app2_new Dhcp Dhcp)
    [(true, OpTcpSocket); (false, OpTcpSocket); (true, OpTcpSocket)]) [] (Done (a, outs)) /\
    map (fun hx => (issuer a (fst hx), index (handle_socket (snd hx)))) (handles2 a)
      = [(true, 0); (false, 0); (true, 1)].
Proof.
  split; [apply own_no_handle; repeat constructor|].
  destruct (replay (run_ops2 5 (app2_new Dhcp Dhcp)
    [(true, OpTcpSocket); (false, OpTcpSocket); (true, OpTcpSocket)]) []) as [tr o] eqn:E.
  pose proof (replay_eq _ _ _ _ E) as X. vm_compute in E. injection E as <- <-.
  eexists _, _. split; [exact X|reflexivity].
Qed.

Theorem C19_two_devices_refuted :
  exists ops a outs,
    exec (run_ops2 5 (app2_new Dhcp Dhcp) ops) [] (Done (a, outs)) /\
    exists i x j y, In (i, x) (handles2 a) /\ In (j, y) (handles2 a) /\ i <> j /\
      issuer a i = true /\ issuer a j = true /\ index (handle_socket x) = index (handle_socket y).
Proof.
  exists [(true, OpTcpSocket); (false, OpTakeSocket); (true, OpReleaseSocket 1); (true, OpTcpSocket)].
  destruct (replay (run_ops2 5 (app2_new Dhcp Dhcp)
    [(true, OpTcpSocket); (false, OpTakeSocket); (true, OpReleaseSocket 1); (true, OpTcpSocket)]) [])
    as [tr o] eqn:E.
  pose proof (replay_eq _ _ _ _ E) as X. vm_compute in E. injection E as <- <-.
  eexists _, _. split; [exact X|].
  exists 0%nat, (HTcp (mkTcp (socket_new 0))), 2%nat, (HTcp (mkTcp (socket_new 0))).
  cbn. repeat split; auto.
Qed.
Print Assumptions C19_two_devices_refuted.

(** C20 *)
Theorem C20_blocks :
  forall fuel ho ops tr0 a outs, program fuel ho ops tr0 a outs ->
  forall o tr oc, exec (step fuel a o) tr oc ->
  forall ev, In ev tr ->
    match op_handle o with
    | Some h => exists x, lookup h (handles a) = Some x /\
        let i := index (handle_socket x) in
        ev_block ev = BSB_REG i \/ ev_block ev = BSB_TX i \/ ev_block ev = BSB_RX i
    | None => (exists q, o = OpDevice q) /\ ev_block ev = BSB_COMMON
    end.
Proof.
  intros fuel ho ops tr0 a outs X o tr oc Y ev Hin.
  destruct (program_inv _ _ _ _ _ _ X) as (I & _).
  destruct (ptree_exec _ _ _ _ _ _ (pt_step fuel a o I) Y) as [HB _]. specialize (HB ev Hin).
  assert (S : step_blk a o (ev_block ev) (match ev with ERead _ ad _ _ | EWrite _ ad _ _ => ad end))
    by (destruct ev; exact HB). clear HB.
  unfold step_blk in S. destruct (op_handle o) as [h|].
  - destruct S as (x & L & S & _). exists x. split; [exact L|].
    destruct (pi_lookup _ _ _ I L) as (i & Hi & E & _). rewrite E in *.
    destruct (socket_blocks i Hi) as (E1 & E2 & E3 & E4). rewrite E4. rewrite E1, E2, E3 in S. exact S.
  - destruct o; try contradiction. split; [eauto|apply S].
Qed.
Print Assumptions C20_blocks.
Example C20_case : exists a outs tr,
  program 5 Dhcp [OpTcpSocket; OpUdpSocket] [] a outs /\
  exec (step 5 a (OpUdpBind 1 7)) tr Cut /\ map ev_block tr = [5; 5; 5].
Proof.
  destruct (replay (run_ops 5 (app_new Dhcp) [OpTcpSocket; OpUdpSocket]) []) as [tr o] eqn:E.
  pose proof (replay_eq _ _ _ _ E) as X. vm_compute in E. injection E as <- <-.
  match type of X with exec _ _ (Done (?a, _)) => set (a0 := a) in * end.
  destruct (replay (step 5 a0 (OpUdpBind 1 7)) (repeat ([], Ok tt) 3)) as [tr o] eqn:E.
  pose proof (replay_eq _ _ _ _ E) as Y. vm_compute in E. injection E as <- <-.
  eexists _, _, _. split; [exact X|]. split; [exact Y|reflexivity].
Qed.

(** the calls outside the history: device reset, host refresh, initialisation, MACRAW *)
Theorem C20_blocks_other :
  (forall d tr oc, exec (dev_reset d) tr oc -> forall ev, In ev tr -> ev_block ev = BSB_COMMON) /\
  (forall h tr oc, exec (refresh h) tr oc -> forall ev, In ev tr -> ev_block ev = BSB_COMMON) /\
  (forall chk h m tr oc, exec (initialize_with_host chk h m) tr oc ->
     forall ev, In ev tr -> ev_block ev = BSB_COMMON) /\
  (forall m tr oc, exec (initialize_macraw m) tr oc ->
     forall ev, In ev tr -> ev_block ev = BSB_COMMON \/ exists i, i < 8 /\ ev_block ev = BSB_REG i) /\
  (forall fuel buf tr oc, exec (raw_read_frame fuel (mkRaw (socket_new 0)) buf) tr oc ->
     forall ev, In ev tr -> ev_block ev = BSB_REG 0 \/ ev_block ev = BSB_TX 0 \/ ev_block ev = BSB_RX 0) /\
  (forall fuel buf tr oc, exec (raw_write_frame fuel (mkRaw (socket_new 0)) buf) tr oc ->
     forall ev, In ev tr -> ev_block ev = BSB_REG 0 \/ ev_block ev = BSB_TX 0 \/ ev_block ev = BSB_RX 0).
Proof.
  repeat split.
  - intros d tr oc X ev Hin. destruct (ptree_exec _ _ _ _ _ _ (pt_dev_reset d (fun _ => True)) X) as [H _].
    specialize (H ev Hin). destruct ev; apply H.
  - intros d tr oc X ev Hin. destruct (ptree_exec _ _ _ _ _ _ (pt_refresh (fun _ => True) d) X) as [H _].
    specialize (H ev Hin). destruct ev; apply H.
  - intros c h m tr oc X ev Hin.
    destruct (ptree_exec _ _ _ _ _ _ (pt_initialize_with_host (fun _ => True) c h m) X) as [H _].
    specialize (H ev Hin). destruct ev; apply H.
  - intros m tr oc X ev Hin.
    destruct (ptree_exec _ _ _ _ _ _ (pt_initialize_macraw (fun _ => True) m) X) as [H _].
    specialize (H ev Hin). destruct ev; apply H.
  - intros fuel buf tr oc X ev Hin.
    destruct (ptree_exec _ _ _ _ _ _ (pt_raw_read_frame (mkRaw (socket_new 0)) (fun _ => True) fuel buf I) X) as [H _].
    specialize (H ev Hin). destruct ev; apply H.
  - intros fuel buf tr oc X ev Hin.
    destruct (ptree_exec _ _ _ _ _ _ (pt_raw_write_frame (mkRaw (socket_new 0)) (fun _ => True) fuel buf) X) as [H _].
    specialize (H ev Hin). destruct ev; apply H.
Qed.
Print Assumptions C20_blocks_other.
Example C20_other_case : exists tr oc,
  exec (raw_read_frame 5 (mkRaw (socket_new 0)) [x00; x00; x00]) tr oc /\ map ev_block tr = [1; 1; 1; 3; 3; 1; 1].
Proof.
  destruct (replay (raw_read_frame 5 (mkRaw (socket_new 0)) [x00; x00; x00])
    [([x00; x05], Ok tt); ([x00; x05], Ok tt); ([xff; xff], Ok tt); ([x00; x05], Ok tt);
     ([x01; x02; x03], Ok tt); ([], Ok tt); ([], Err 9)]) as [tr o] eqn:E.
  pose proof (replay_eq _ _ _ _ E) as Y. vm_compute in E. injection E as <- <-.
  eexists _, _. split; [exact Y|reflexivity].
Qed.

(** C22: [out_berr], [eb], [ei], [er] extract the bus error from a result *)
Theorem C22_bus_errors :
  (forall fuel a o, reports_bus_errors (fun r => out_berr (snd r)) (step fuel a o)) /\
  (forall d, reports_bus_errors er (dev_reset d)) /\
  (forall h, reports_bus_errors (fun r => eb (snd r)) (refresh h)) /\
  (forall chk h m, reports_bus_errors ei (initialize_with_host chk h m)) /\
  (forall m, reports_bus_errors ei (initialize_macraw m)) /\
  (forall fuel d buf, reports_bus_errors (fun r => eb (snd r)) (raw_read_frame fuel d buf)) /\
  (forall fuel d buf, reports_bus_errors eb (raw_write_frame fuel d buf)) /\
  (forall d w, reports_bus_errors eb (raw_enable_interrupts d w)) /\
  (forall d, reports_bus_errors eb (raw_disable_interrupts d)) /\
  (forall d, reports_bus_errors eb (raw_clear_interrupts d)).
Proof.
  split; [intros; apply estop_reports, es_step|].
  split; [intros; apply estop_reports, es_dev_reset|].
  split; [intros; apply estop_reports, es_refresh|].
  split; [intros; apply estop_reports, es_initialize_with_host|].
  split; [intros; apply estop_reports, es_initialize_macraw|].
  split; [intros; apply estop_reports, es_raw_read_frame|].
  split; [intros; apply estop_reports, es_raw_write_frame|].
  split; [intros; apply estop_reports, es_raw_enable|].
  split; [intros; apply estop_reports, es_raw_disable|].
  intros; apply estop_reports, es_raw_clear.
Qed.
Print Assumptions C22_bus_errors.
(** the third access of a bind fails *)
Example C22_case : exists a outs tr r,
  program 5 Dhcp [OpUdpSocket] [] a outs /\
  exec (step 5 a (OpUdpBind 0 7)) tr (Done r) /\ length tr = 3%nat /\ out_berr (snd r) = Some 42.
Proof.
  destruct (replay (run_ops 5 (app_new Dhcp) [OpUdpSocket]) []) as [tr o] eqn:E.
  pose proof (replay_eq _ _ _ _ E) as X. vm_compute in E. injection E as <- <-.
  match type of X with exec _ _ (Done (?a, _)) => set (a0 := a) in * end.
  destruct (replay (step 5 a0 (OpUdpBind 0 7)) [([], Ok tt); ([], Ok tt); ([], Err 42)]) as [tr o] eqn:E.
  pose proof (replay_eq _ _ _ _ E) as Y. vm_compute in E. injection E as <- <-.
  eexists _, _, _, _. split; [exact X|]. split; [exact Y|]. split; reflexivity.
Qed.

(** C23.  Full statement: no call aborts the program.  Proved for all calls but UDP receive
    (see C51) and MACRAW read_frame (see C54); decoding a PHY configuration is C09. *)
Theorem C23_no_panic_partial :
  (forall fuel ho ops tr0 a outs, program fuel ho ops tr0 a outs ->
   forall o tr w, exec (step fuel a o) tr (Panicked w) -> exists h buf, o = OpUdpReceive h buf) /\
  (forall d tr w, ~ exec (dev_reset d) tr (Panicked w)) /\
  (forall h tr w, ~ exec (refresh h) tr (Panicked w)) /\
  (forall chk h m tr w, ~ exec (initialize_with_host chk h m) tr (Panicked w)) /\
  (forall m tr w, ~ exec (initialize_macraw m) tr (Panicked w)) /\
  (forall fuel d buf tr w, ~ exec (raw_write_frame fuel d buf) tr (Panicked w)) /\
  (forall d which tr w, ~ exec (raw_enable_interrupts d which) tr (Panicked w)) /\
  (forall d tr w, ~ exec (raw_disable_interrupts d) tr (Panicked w)) /\
  (forall d tr w, ~ exec (raw_clear_interrupts d) tr (Panicked w)).
Proof.
  split; [|repeat split].
  - intros fuel ho ops tr0 a outs X o tr w Y. destruct (program_inv _ _ _ _ _ _ X) as (I & _).
    destruct (ptree_exec _ _ _ _ _ _ (pt_step fuel a o I) Y) as [_ S].
    destruct o; cbn in S; try contradiction. eauto.
  - intros d tr w X. exact (proj2 (ptree_exec _ (fun _ => False) _ _ _ _ (pt_dev_reset d _) X)).
  - intros h tr w X. exact (proj2 (ptree_exec _ (fun _ => False) _ _ _ _ (pt_refresh _ h) X)).
  - intros c h m tr w X. exact (proj2 (ptree_exec _ (fun _ => False) _ _ _ _ (pt_initialize_with_host _ c h m) X)).
  - intros m tr w X. exact (proj2 (ptree_exec _ (fun _ => False) _ _ _ _ (pt_initialize_macraw _ m) X)).
  - intros fuel d buf tr w X. exact (proj2 (ptree_exec _ (fun _ => False) _ _ _ _ (pt_raw_write_frame d _ fuel buf) X)).
  - intros d wh tr w X.
    exact (proj2 (ptree_exec _ (fun _ => False) _ _ _ _ (proj1 (pt_raw_interrupts d _ wh)) X)).
  - intros d tr w X.
    exact (proj2 (ptree_exec _ (fun _ => False) _ _ _ _ (proj1 (proj2 (pt_raw_interrupts d _ x00))) X)).
  - intros d tr w X.
    exact (proj2 (ptree_exec _ (fun _ => False) _ _ _ _ (proj2 (proj2 (pt_raw_interrupts d _ x00))) X)).
Qed.
Print Assumptions C23_no_panic_partial.

Theorem C23_no_panic_refuted :
  (* a datagram longer than the buffer *)
  (exists a outs tr w, program 5 Dhcp [OpUdpSocket] [] a outs /\
     exec (step 5 a (OpUdpReceive 0 [x00; x00])) tr (Panicked w)) /\
  (* a received size of one byte *)
  (exists tr w, exec (raw_read_frame 5 (mkRaw (socket_new 0)) [x00]) tr (Panicked w)).
Proof.
  split.
  - destruct (replay (run_ops 5 (app_new Dhcp) [OpUdpSocket]) []) as [tr o] eqn:E.
    pose proof (replay_eq _ _ _ _ E) as X. vm_compute in E. injection E as <- <-.
    match type of X with exec _ _ (Done (?a, _)) => set (a0 := a) in * end.
    destruct (replay (step 5 a0 (OpUdpReceive 0 [x00; x00]))
      [([x22], Ok tt); ([x04], Ok tt); ([x00; x0b], Ok tt); ([x00; x0b], Ok tt); ([x00; x00], Ok tt);
       ([x0a; x00; x00; x01; x00; x35; x00; x03], Ok tt)]) as [tr o] eqn:E.
    pose proof (replay_eq _ _ _ _ E) as Y. vm_compute in E. injection E as <- <-.
    eexists _, _, _, _. split; [exact X|exact Y].
  - destruct (replay (raw_read_frame 5 (mkRaw (socket_new 0)) [x00])
      [([x00; x01], Ok tt); ([x00; x01], Ok tt); ([x00; x00], Ok tt); ([x00], Ok tt)]) as [tr o] eqn:E.
    pose proof (replay_eq _ _ _ _ E) as Y. vm_compute in E. injection E as <- <-.
    eexists _, _. exact Y.
Qed.
Print Assumptions C23_no_panic_refuted.
