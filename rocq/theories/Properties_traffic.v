(** C78: how much bus traffic a call can cause. *)
From Verif Require Import Traffic ExecFacts.
From Verif Require Import Datasheet.

(** ** C78 *)
(** Whatever the bus answers, wherever the call is cut off, and however often it polls
    ([fuel] bounds the rounds of each waiting loop): the number of writes does not depend on the
    polling - waiting only reads - and each round costs at most two reads.  The bounds are the
    tables [most_writes] and [most_calls] in Traffic.v.  The UDP sends go round once per chunk;
    they need a chip that never answers a free size of zero. *)
Theorem C78_traffic :
  forall fuel0 ho ops0 tr0 a outs0 fuel o tr oc,
    exec (run_ops fuel0 (app_new ho) ops0) tr0 (Done (a, outs0)) ->
    exec (step fuel a o) tr oc ->
    (udp_sending o = true -> always_room tr) ->
    (writes tr <= most_writes o)%nat /\ (length tr <= most_calls fuel o)%nat.
Proof.
  intros fuel0 ho ops0 tr0 a outs0 fuel o tr oc X0 X R. assert (I : pool_inv a) by (eapply exec_run_ops_inv; [apply pool_inv_new|exact X0]).
  destruct (udp_sending o) eqn:E.
  - eapply exec_costs; [exact X|now apply c_step_udp|exact (R eq_refl)].
  - eapply (exec_costs (fun _ _ _ => True)); [exact X|now apply c_step_other|auto].
Qed.
Print Assumptions C78_traffic.

(** Initialisation, and the calls of a MACRAW device. *)
Theorem C78_traffic_init :
  (forall assertion ho m tr oc, exec (initialize_with_host assertion ho m) tr oc -> (writes tr <= 6 /\ length tr <= 7)%nat) /\
  (forall mc tr oc, exec (initialize_macraw mc) tr oc -> (writes tr <= 20 /\ length tr <= 20)%nat) /\
  (forall fuel d o tr oc, exec (raw_step fuel d o) tr oc ->
     (writes tr <= most_raw_writes o)%nat /\ (length tr <= most_raw_calls fuel o)%nat).
Proof.
  split; [|split].
  - intros assertion ho m tr oc X. eapply (exec_costs (fun _ _ _ => True)); [exact X|apply c_init|auto].
  - intros mc tr oc X. eapply (exec_costs (fun _ _ _ => True)); [exact X|apply c_init_raw|auto].
  - intros fuel [s] o tr oc X. eapply (exec_costs (fun _ _ _ => True)); [exact X|apply c_raw_step|auto].
Qed.
Print Assumptions C78_traffic_init.

(** The most expensive connect: the socket is not ready, is reopened, and the peer refuses after
    three polls; the bounds are met. *)
Definition one_tcp : History.app := mkApp (mkDS Dhcp 0xFE) [(0%nat, HTcp (mkTcp (socket_new 0)))] 1.
Ltac ok_write := eapply (exec_write _ _ _ _ (Ok tt)).
Ltac ok_read l := eapply (exec_read _ _ _ _ l (Ok tt)); [reflexivity|].
Example C78_case : exists tr0,
  exec (run_ops 5 (app_new Dhcp) [OpTcpSocket]) tr0 (Done (one_tcp, [RTcpSocket (Ok 0%nat)])) /\
  exists tr, exec (step 3 one_tcp (OpTcpConnect 0 (V4 (Addr4 (Ip4 x0a x00 x00 x02) 80)))) tr (Done (one_tcp, RTcpConnect (Ok tt))) /\
    writes tr = 23%nat /\ length tr = 27%nat.
Proof.
  exists []. split; [constructor|]. eexists. split.
  - do 6 ok_write. ok_read [x1c]. do 10 ok_write. ok_read [x15]. ok_read [x15]. ok_read [x00]. do 7 ok_write. constructor.
  - split; reflexivity.
Qed.

(** The condition for UDP is needed: on a bus that answers a free size of zero after a chunk,
    and room again a moment later, the call sends empty datagrams for ever. *)
Definition one_udp : History.app := mkApp (mkDS Dhcp 0xFE) [(0%nat, HUdp (mkUdp (socket_new 0) (Some (Addr4 (Ip4 x0a x00 x00 x02) 80)) 7))] 1.
(** two bytes, the chip has room for one at a time, and each takes two polls *)
Example C78_udp_case : exists tr, exec (step 2 one_udp (OpUdpSend 0 [x61; x62])) tr (Done (one_udp, RUdpSend (Ok tt))) /\
  always_room tr /\ writes tr = 8%nat /\ most_writes (OpUdpSend 0 [x61; x62]) = 8%nat.
Proof.
  eexists. split; [|split].
  - ok_read [x22]. ok_read [x00; x01].
    do 2 (ok_read [x22]; ok_read [x00; x01]; ok_read [x00; x00]; do 3 ok_write; ok_read [x00; x00]; ok_read [x00; x01]; ok_read [x00; x01]; ok_read [x00; x01];
      ok_read [x10]; ok_write; ok_read [x00; x01]). constructor.
  - intros blk a got H i Hi -> Ha. subst a.
    repeat (destruct H as [H|H]; [first [discriminate H | injection H as ? ?; subst; now vm_compute | injection H as ? ? ?; subst; discriminate]|]). destruct H.
  - split; reflexivity.
Qed.

Definition is_send (ev : event) : bool :=
  match ev with EWrite _ a [c] _ => (a =? Sn_CR) && (b2n c =? CR_SEND) | _ => false end.
Definition sends (tr : list event) : nat := length (filter is_send tr).
Lemma sends_cons ev tr : sends (ev :: tr) = ((if is_send ev then 1 else 0) + sends tr)%nat.
Proof. unfold sends. cbn [filter]. now destruct is_send. Qed.
Lemma exec_bind_loop {A B} (p : prog A) (f : A -> prog B) tr o : exec p tr o -> o = Looping -> exec (bind p f) tr Looping.
Proof. induction 1; intros E; try discriminate E; cbn [bind]; constructor; auto. Qed.
Lemma empty_loop k n : exists tr,
  exec (udp_send_loop n (S k) (mkUdp (socket_new 0) (Some (Addr4 (Ip4 x0a x00 x00 x02) 80)) 7) [x61; x62] 0 1) tr Looping /\ sends tr = n.
Proof.
  induction n as [|n [tr [X E]]].
  - exists []. split; [constructor|reflexivity].
  - eexists. split.
    + ok_read [x22]. ok_read [x08; x00]. ok_read [x00; x01]. do 3 ok_write. ok_read [x00; x01]. ok_read [x00; x01]. ok_read [x10]. ok_write. ok_read [x00; x00]. exact X.
    + rewrite !sends_cons, E. reflexivity.
Qed.
Theorem C78_room_needed :
  forall n, exists tr, exec (step (S n) one_udp (OpUdpSend 0 [x61; x62])) tr Looping /\ sends tr = S n.
Proof.
  intros n. destruct (empty_loop n n) as (tr & X & E). eexists. split.
  - ok_read [x22]. ok_read [x00; x01]. ok_read [x22]. ok_read [x08; x00]. ok_read [x00; x00]. do 3 ok_write. ok_read [x00; x01]. ok_read [x00; x01]. ok_read [x10]. ok_write. ok_read [x00; x00].
    apply (exec_bind_loop _ _ _ _ X eq_refl).
  - rewrite !sends_cons, E. reflexivity.
Qed.
Print Assumptions C78_room_needed.
