(** C117: a program that passes on what it receives on one of two TCP connections to the other, both ways. *)
From Verif Require Import Dotted.
From Verif Require Import LifeFacts TcpLimits Cases TcpSession TcpSend TcpReceive FrameFacts.
From Verif Require Import Datasheet.
From Verif Require Properties_stream Properties_echo.

(** One call for the direction from handle [h] to handle [h']: receive when nothing is left to be
    passed on, otherwise send what is left.  Answers the buffer, what is left now and, if the call
    failed, what it answered. *)
Definition serve (fuel : nat) (a : History.app) (h h' : nat) (buf over : list byte) : prog (History.app * list byte * list byte * option out) :=
  match over with
  | [] =>
      do r <- step fuel a (OpTcpReceive h buf) ;;
      match snd r with
      | RTcpReceive buf' (Ok k) => Ret (fst r, buf', take k buf', None)
      | o => Ret (fst r, buf, [], Some o)
      end
  | _ =>
      do r <- step fuel a (OpTcpSend h' over) ;;
      match snd r with
      | RTcpSend (Ok k) => Ret (fst r, buf, drop k over, None)
      | o => Ret (fst r, buf, over, Some o)
      end
  end.
(** Calls for the one direction and the other as [turns] says; the first that fails ends it. *)
Fixpoint relay (turns : list bool) (fuel : nat) (a : History.app) (h h' : nat) (buf over back : list byte)
  : prog (History.app * list byte * list byte * option out) :=
  match turns with
  | [] => Ret (a, over, back, None)
  | true :: turns' =>
      do r <- serve fuel a h h' buf over ;;
      match r with
      | (a', buf', over', None) => relay turns' fuel a' h h' buf' over' back
      | (a', _, over', Some o) => Ret (a', over', back, Some o)
      end
  | false :: turns' =>
      do r <- serve fuel a h' h buf back ;;
      match r with
      | (a', buf', back', None) => relay turns' fuel a' h h' buf' over back'
      | (a', _, back', Some o) => Ret (a', over, back', Some o)
      end
  end.

(** both connections up, and all that was received is what was sent on and what is left *)
Definition linked (e : env) (fuel h : nat) (i : N) (r : addr4) (x : sock) (h' : nat) (i' : N) (r' : addr4) (x' : sock) (a : History.app) (s : sys) (over back : list byte) : Prop :=
  exists acc del acc' del', tcp_session e fuel h i r x acc del a s /\ tcp_session e fuel h' i' r' x' acc' del' a s /\ acc' ++ over = del /\ acc ++ back = del'.
Lemma linked_sym e fuel h i r x h' i' r' x' a s over back : linked e fuel h i r x h' i' r' x' a s over back -> linked e fuel h' i' r' x' h i r x a s back over.
Proof. intros (acc & del & acc' & del' & T & T' & E & E'). exists acc', del', acc, del. auto. Qed.
(** what went out of socket [i'] since [x'] is the start of what came in at socket [i] *)
Definition gone (i i' : N) (r' : addr4) (x' : sock) (s : sys) : Prop :=
  exists l rest, sent (sk i' s) = sent x' ++ l /\ Forall (to_peer i' r') l /\ rxlog (sk i s) = payload l ++ rest.
Lemma linked_gone e fuel h i r x h' i' r' x' a s over back : linked e fuel h i r x h' i' r' x' a s over back ->
  exists l, sent (sk i' s) = sent x' ++ l /\ Forall (to_peer i' r') l /\ rxlog (sk i s) = payload l ++ over ++ pending (sk i s).
Proof.
  intros (acc & del & acc' & del' & T & T' & E & E'). destruct (session_facts _ _ _ _ _ _ _ _ _ _ T) as (_ & _ & _ & (_ & _ & _ & _ & L & _)).
  destruct (session_facts _ _ _ _ _ _ _ _ _ _ T') as (_ & _ & _ & (_ & _ & _ & _ & _ & l & S1 & S2 & S3)). exists l. split; [exact S1|]. split; [exact S3|].
  rewrite L, S2, <- E, <- app_assoc. reflexivity.
Qed.
Lemma other_call e fuel h i r x acc del a s o oc s' : tcp_session e fuel h i r x acc del a s -> op_handle o <> Some h -> o <> OpDevice QResetDevice ->
  run e (step fuel a o) s = (oc, s') -> session_inv i r x acc del (sk i s').
Proof.
  intros T H1 H2 R. destruct (session_facts _ _ _ _ _ _ _ _ _ _ T) as (Hi & I & L & S).
  pose proof (run_spares e i _ (FrameFacts.spares_step fuel a o h _ i I L eq_refl H1 H2) s) as N. rewrite R in N. exact (session_sevs i Hi r x acc del _ _ N S).
Qed.
Lemma serves e fuel h i r x h' i' r' x' a s buf over back o s' : h <> h' -> linked e fuel h i r x h' i' r' x' a s over back ->
  run e (serve fuel a h h' buf over) s = (o, s') -> (forall a' b' l' last, o = Done (a', b', l', Some last) -> out_berr last = None) ->
  (exists buf' over' last, o = Done (a, buf', over', last) /\ linked e fuel h i r x h' i' r' x' a s' over' back) \/
  (o = Looping /\ gone i i' r' x' s' /\ gone i' i r x s').
Proof.
  intros Hh (acc & del & acc' & del' & T & T' & E & E') R NB. unfold serve in R. destruct over as [|b0 over0]; rewrite run_bind in R.
  - rewrite app_nil_r in E. destruct (run e (step fuel a (OpTcpReceive h buf)) s) as [o1 s1] eqn:R1. cbn [fst snd] in R.
    assert (N1 : forall a' out, o1 = Done (a', out) -> out_berr out = None).
    { intros a' ou ->. destruct (out_berr ou) as [b|] eqn:Eb; [|reflexivity]. exfalso. destruct ou as [| | | | | |b1 [k|y]| | | | | | |]; cbn [snd fst] in R; try discriminate Eb; cbn [run] in R; injection R as <- _;
        specialize (NB _ _ _ _ eq_refl); congruence. }
    assert (Hn : op_handle (OpTcpReceive h buf) <> Some h') by (cbn [op_handle]; congruence).
    destruct (Properties_echo.echo_receive _ _ _ _ _ _ _ _ _ _ _ _ _ T R1 N1) as [(k & buf' & ->)|([-> | ->] & S)]; cbn [fst snd] in R.
    + cbn [run] in R. injection R as <- <-. left. exists buf', (take k buf'), None. split; [reflexivity|].
      pose proof (session_next e fuel h i r x acc del a s (OpTcpReceive h buf) a _ s1 T Logic.I R1 (fun _ => eq_refl)) as T1. cbn [accepted1 delivered1] in T1. rewrite Nat.eqb_refl, app_nil_r in T1.
      pose proof (session_next e fuel h' i' r' x' acc' del' a s (OpTcpReceive h buf) a _ s1 T' Logic.I R1 (fun H => False_ind _ (Hn H))) as T1'. cbn [accepted1 delivered1] in T1'.
      destruct (Nat.eqb_spec h h') as [|_]; [contradiction|]. rewrite !app_nil_r in T1'.
      eexists acc, _, acc', del'. split; [exact T1|]. split; [exact T1'|]. rewrite E. auto.
    + cbn [run] in R. injection R as <- <-. left. eexists buf, [], _. split; [reflexivity|].
      pose proof (session_next e fuel h i r x acc del a s (OpTcpReceive h buf) a _ s1 T Logic.I R1 (fun _ => eq_refl)) as T1. cbn [accepted1 delivered1] in T1. rewrite !app_nil_r in T1.
      pose proof (session_next e fuel h' i' r' x' acc' del' a s (OpTcpReceive h buf) a _ s1 T' Logic.I R1 (fun H => False_ind _ (Hn H))) as T1'. cbn [accepted1 delivered1] in T1'. rewrite !app_nil_r in T1'.
      exists acc, del, acc', del'. rewrite app_nil_r. auto.
    + injection R as <- <-. right. split; [reflexivity|].
      pose proof (other_call _ _ _ _ _ _ _ _ _ _ _ _ _ T' Hn ltac:(discriminate) R1) as S'.
      destruct S as (_ & _ & _ & _ & L & l & A1 & A2 & A3). destruct S' as (_ & _ & _ & _ & L' & l' & B1 & B2 & B3). split.
      * exists l', (pending (sk i s1)). rewrite B2, E. auto.
      * exists l, (back ++ pending (sk i' s1)). rewrite A2, app_assoc, E'. auto.
  - set (over := b0 :: over0) in *. destruct (run e (step fuel a (OpTcpSend h' over)) s) as [o1 s1] eqn:R1. cbn [fst snd] in R.
    assert (N1 : forall a' out, o1 = Done (a', out) -> out_berr out = None).
    { intros a' ou ->. destruct (out_berr ou) as [b|] eqn:Eb; [|reflexivity]. exfalso. destruct ou as [| | | | |[k|y]| | | | | | | |]; cbn [snd fst] in R; try discriminate Eb; cbn [run] in R; injection R as <- _;
        specialize (NB _ _ _ _ eq_refl); congruence. }
    assert (Hn : op_handle (OpTcpSend h' over) <> Some h) by (cbn [op_handle]; congruence).
    destruct (Properties_echo.echo_send _ _ _ _ _ _ _ _ _ _ _ _ _ T' R1 N1) as [(k & -> & Hk)|[(-> & S)|(-> & k & Lg & l & A1 & A2 & A3)]]; cbn [fst snd] in R.
    + cbn [run] in R. injection R as <- <-. left. exists buf, (drop k over), None. split; [reflexivity|].
      pose proof (session_next e fuel h' i' r' x' acc' del' a s (OpTcpSend h' over) a _ s1 T' Logic.I R1 (fun _ => eq_refl)) as T1. cbn [accepted1 delivered1] in T1. rewrite Nat.eqb_refl, app_nil_r in T1.
      pose proof (session_next e fuel h i r x acc del a s (OpTcpSend h' over) a _ s1 T Logic.I R1 (fun H => False_ind _ (Hn H))) as T2. cbn [accepted1 delivered1] in T2.
      destruct (Nat.eqb_spec h' h) as [|_]; [congruence|]. rewrite !app_nil_r in T2.
      eexists acc, del, _, del'. split; [exact T2|]. split; [exact T1|]. split; [|exact E']. rewrite <- app_assoc. unfold take, drop. now rewrite firstn_skipn.
    + cbn [run] in R. injection R as <- <-. left. eexists buf, over, _. split; [reflexivity|].
      pose proof (session_next e fuel h' i' r' x' acc' del' a s (OpTcpSend h' over) a _ s1 T' Logic.I R1 (fun _ => eq_refl)) as T1. cbn [accepted1 delivered1] in T1. rewrite !app_nil_r in T1.
      pose proof (session_next e fuel h i r x acc del a s (OpTcpSend h' over) a _ s1 T Logic.I R1 (fun H => False_ind _ (Hn H))) as T2. cbn [accepted1 delivered1] in T2. rewrite !app_nil_r in T2.
      exists acc, del, acc', del'. auto.
    + injection R as <- <-. right. split; [reflexivity|].
      pose proof (other_call _ _ _ _ _ _ _ _ _ _ _ _ _ T Hn ltac:(discriminate) R1) as (_ & _ & _ & _ & L & l0 & B1 & B2 & B3). split.
      * exists l, (skipn k over ++ pending (sk i s1)). split; [exact A1|]. split; [exact A3|]. rewrite L, A2, <- E, <- (firstn_skipn k over) at 1. now rewrite <- !app_assoc.
      * exists l0, (back ++ pending (sk i' s1)). split; [exact B1|]. split; [exact B3|]. rewrite Lg, B2, app_assoc, E'. reflexivity.
Qed.

(** ** C117 *)
(** [h] and [h'] are connected; of what came on either so far, all but [over] and [back] has been
    accepted by sends on the other.  Whatever the network does, in whatever order the program serves
    the two directions and whatever the sizes of the pieces: in both directions, all that one peer has
    sent is, in order, what has gone to the other peer, what the program still has to pass on, and
    what waits in the chip.  While a call waits for the network too, what has gone to the one peer is
    the start of what the other has sent. *)
Definition passed_on (i i' : N) (r' : addr4) (x' : sock) (s : sys) (left : option (list byte)) : Prop :=
  exists l rest, sent (socks (s_chip s) i') = sent x' ++ l /\
    Forall (fun p => p_sport p = 49849 + i' /\ p_ip p = dotted (a_ip r') /\ p_dport p = a_port r') l /\
    rxlog (socks (s_chip s) i) = concat (map p_data l) ++ rest /\
    match left with Some b => rest = b ++ pending (socks (s_chip s) i) | None => True end.
Theorem C117_relay : forall turns e fuel h i r x h' i' r' x' acc del acc' del' a s buf over back o s',
  tcp_session e fuel h i r x acc del a s -> tcp_session e fuel h' i' r' x' acc' del' a s -> h <> h' ->
  acc' ++ over = del -> acc ++ back = del' ->
  run e (relay turns fuel a h h' buf over back) s = (o, s') ->
  (forall a' o1 o2 last, o = Done (a', o1, o2, Some last) -> out_berr last = None) ->
  (exists over' back' last, o = Done (a, over', back', last) /\ passed_on i i' r' x' s' (Some over') /\ passed_on i' i r x s' (Some back')) \/
  (o = Looping /\ passed_on i i' r' x' s' None /\ passed_on i' i r x s' None).
Proof.
  assert (Main : forall turns e fuel h i r x h' i' r' x' a s buf over back o s', linked e fuel h i r x h' i' r' x' a s over back -> h <> h' ->
    run e (relay turns fuel a h h' buf over back) s = (o, s') ->
    (forall a' o1 o2 last, o = Done (a', o1, o2, Some last) -> out_berr last = None) ->
    (exists over' back' last, o = Done (a, over', back', last) /\ linked e fuel h i r x h' i' r' x' a s' over' back') \/
    (o = Looping /\ gone i i' r' x' s' /\ gone i' i r x s')).
  { induction turns as [|[] turns IH]; intros e fuel h i r x h' i' r' x' a s buf over back o s' K Hh R NB; cbn [relay] in R.
    - cbn [run] in R. injection R as <- <-. left. eauto.
    - rewrite run_bind in R. destruct (run e (serve fuel a h h' buf over) s) as [o1 s1] eqn:R1. cbn [fst snd] in R.
      assert (N1 : forall a' b' l' last, o1 = Done (a', b', l', Some last) -> out_berr last = None).
      { intros a' b' l' last ->. cbn [run] in R. injection R as <- _. eapply NB; reflexivity. }
      destruct (serves _ _ _ _ _ _ _ _ _ _ _ _ _ _ _ _ _ Hh K R1 N1) as [(buf' & over' & last & -> & K1)|(-> & G)].
      + destruct last as [w|]; [cbn [run] in R; injection R as <- <-; left; eauto|]. exact (IH _ _ _ _ _ _ _ _ _ _ _ _ _ _ _ _ _ K1 Hh R NB).
      + injection R as <- <-. right. auto.
    - rewrite run_bind in R. destruct (run e (serve fuel a h' h buf back) s) as [o1 s1] eqn:R1. cbn [fst snd] in R.
      assert (N1 : forall a' b' l' last, o1 = Done (a', b', l', Some last) -> out_berr last = None).
      { intros a' b' l' last ->. cbn [run] in R. injection R as <- _. eapply NB; reflexivity. }
      destruct (serves _ _ _ _ _ _ _ _ _ _ _ _ _ _ _ _ _ (not_eq_sym Hh) (linked_sym _ _ _ _ _ _ _ _ _ _ _ _ _ _ K) R1 N1) as [(buf' & over' & last & -> & K1)|(-> & G & G')].
      + apply linked_sym in K1. destruct last as [w|]; [cbn [run] in R; injection R as <- <-; left; eauto|]. exact (IH _ _ _ _ _ _ _ _ _ _ _ _ _ _ _ _ _ K1 Hh R NB).
      + injection R as <- <-. right. auto. }
  intros turns e fuel h i r x h' i' r' x' acc del acc' del' a s buf over back o s' T T' Hh E E' R NB.
  assert (K : linked e fuel h i r x h' i' r' x' a s over back) by (exists acc, del, acc', del'; auto).
  destruct (Main _ _ _ _ _ _ _ _ _ _ _ _ _ _ _ _ _ _ K Hh R NB) as [(over' & back' & last & -> & K1)|(-> & (l & rest & A) & (l' & rest' & B))].
  - left. exists over', back', last. split; [reflexivity|]. split.
    + destruct (linked_gone _ _ _ _ _ _ _ _ _ _ _ _ _ _ K1) as (l & A1 & A2 & A3). exists l, (over' ++ pending (sk i s')). split; [exact A1|]. split; [exact A2|]. split; [exact A3|reflexivity].
    + destruct (linked_gone _ _ _ _ _ _ _ _ _ _ _ _ _ _ (linked_sym _ _ _ _ _ _ _ _ _ _ _ _ _ _ K1)) as (l & A1 & A2 & A3). exists l, (back' ++ pending (sk i' s')). split; [exact A1|]. split; [exact A2|]. split; [exact A3|reflexivity].
  - right. split; [reflexivity|]. split; [exists l, rest|exists l', rest']; tauto.
Qed.
Print Assumptions C117_relay.

(** Two connections.  "abc" comes on the first and goes out of the second in two segments; "de" comes
    on the second and goes out of the first; then "f" comes on the first and is still in hand. *)
Definition peer2 : addr4 := Addr4 (Ip4 x0a x00 x00 x03) 80.
Definition app2 : History.app := mkApp (mkDS Dhcp 252) [(0%nat, HTcp (mkTcp (socket_new 0))); (1%nat, HTcp (mkTcp (socket_new 1)))] 2.
Definition between : env := script
  [(20%nat, [EvEstablished 0]); (40%nat, [EvEstablished 1]); (41%nat, [EvTcpData 0 [x61; x62; x63]; EvTcpData 1 [x64; x65]]);
   (70%nat, [EvTransmit 1 2]); (71%nat, [EvTransmit 1 1; EvSendOk 1]); (100%nat, [EvTransmit 0 9; EvSendOk 0]); (101%nat, [EvTcpData 0 [x66]])].
Definition first_up : sys := snd (run between (step 30 app2 (OpTcpConnect 0 (V4 Properties_stream.peer))) sys0).
Definition both_up : sys := snd (run between (step 30 app2 (OpTcpConnect 1 (V4 peer2))) first_up).
Lemma first_session : tcp_session between 30 0 0 Properties_stream.peer (socks (s_chip first_up) 0) [] [] app2 both_up.
Proof.
  exists Dhcp, sys0, [OpTcpSocket; OpTcpSocket], app2, [RTcpSocket (Ok 0%nat); RTcpSocket (Ok 1%nat)], sys0, (mkTcp (socket_new 0)), first_up, [OpTcpConnect 1 (V4 peer2)], [RTcpConnect (Ok tt)].
  split; [reflexivity|]. split; [reflexivity|]. split; [reflexivity|].
  split; [right; left; vm_compute; reflexivity|]. split; [right; left; vm_compute; reflexivity|]. split; [reflexivity|].
  split. { unfold first_up. apply Properties_stream.run_snd. vm_compute. reflexivity. }
  split; [reflexivity|].
  split.
  { cbn [run_ops]. rewrite run_bind. assert (E : run between (step 30 app2 (OpTcpConnect 1 (V4 peer2))) first_up = (Done (app2, RTcpConnect (Ok tt)), both_up)) by (unfold both_up; apply Properties_stream.run_snd; vm_compute; reflexivity).
    rewrite E. reflexivity. }
  split; [constructor; [discriminate|constructor]|]. split; [|split; reflexivity]. cbn. repeat split; try discriminate.
Qed.
Lemma second_session : tcp_session between 30 1 1 peer2 (socks (s_chip both_up) 1) [] [] app2 both_up.
Proof.
  exists Dhcp, sys0, [OpTcpSocket; OpTcpSocket; OpTcpConnect 0 (V4 Properties_stream.peer)], app2, [RTcpSocket (Ok 0%nat); RTcpSocket (Ok 1%nat); RTcpConnect (Ok tt)], first_up, (mkTcp (socket_new 1)), both_up, [], [].
  split.
  { assert (E : run between (step 30 app2 (OpTcpConnect 0 (V4 Properties_stream.peer))) sys0 = (Done (app2, RTcpConnect (Ok tt)), first_up)) by (unfold first_up; apply Properties_stream.run_snd; vm_compute; reflexivity).
    exact (run_ops_snoc between 30 _ [OpTcpSocket; OpTcpSocket] (app_new Dhcp) sys0 app2 [RTcpSocket (Ok 0%nat); RTcpSocket (Ok 1%nat)] sys0 _ _ _ eq_refl E). }
  split; [reflexivity|]. split; [reflexivity|].
  split; [right; left; vm_compute; reflexivity|]. split; [right; left; vm_compute; reflexivity|]. split; [reflexivity|].
  split. { unfold both_up. apply Properties_stream.run_snd. vm_compute. reflexivity. }
  split; [reflexivity|]. split; [reflexivity|]. split; [constructor|]. split; [exact Logic.I|]. split; reflexivity.
Qed.
Example C117_case : exists x x' s s', tcp_session between 30 0 0 Properties_stream.peer x [] [] app2 s /\ tcp_session between 30 1 1 peer2 x' [] [] app2 s /\
  run between (relay [true; true; false; false; true] 30 app2 0 1 (zeros 8) [] []) s = (Done (app2, [x66], [], None), s') /\
  map p_data (sent (socks (s_chip s') 1)) = [[x61; x62]; [x63]] /\ map p_data (sent (socks (s_chip s') 0)) = [[x64; x65]].
Proof.
  exists (socks (s_chip first_up) 0), (socks (s_chip both_up) 1), both_up. eexists.
  split; [exact first_session|]. split; [exact second_session|]. split; [|split].
  - apply Properties_stream.run_snd. vm_compute. reflexivity.
  - vm_compute. reflexivity.
  - vm_compute. reflexivity.
Qed.
