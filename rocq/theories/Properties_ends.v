(** C97: a whole program comes to its end when the network answers. *)
From Verif Require Import Life LifeWire Liveness Datasheet Ends Cases.

(** From whatever state the chip was found in, whatever objects the program makes, resets, puts to
    sleep and wakes up, and whatever the bus does: if from now on no connection is lost and no SEND
    given up, no peer accepts and closes between two bytes on the bus, and the decision about a
    connection, a transmission and the report of its completion are never more than W bus bytes
    away, then no call is still polling after 2W + 1 rounds, or after one round per byte of the
    largest buffer (16 KiB) and of the data given to a UDP send: the program comes to its end, or
    aborts (which calls can: C23).  Without one of the four conditions a call may wait for
    ever: C33, C37, C56, C62. *)
Theorem C97_program_ends e chk fuel ops s W :
  (forall i t b, i < 8 -> (s_tick s <= t)%nat -> ~ In (EvDropped i b) (happens e t) /\ ~ In (EvSendTimeout i b) (happens e t)) ->
  (forall i t, i < 8 -> (s_tick s <= t)%nat -> In (EvEstablished i) (happens e t) -> ~ In (EvPeerFin i) (happens e t)) ->
  (forall i t, i < 8 -> (s_tick s <= t)%nat -> exists t', (t <= t' < t + W)%nat /\
     (In (EvEstablished i) (happens e t') \/ In (EvConnectFailed i) (happens e t'))) ->
  (forall i t, i < 8 -> (s_tick s <= t)%nat -> exists t', (t <= t' < t + W)%nat /\ In (EvTransmit i 65535) (happens e t')) ->
  (forall i t, i < 8 -> (s_tick s <= t)%nat -> exists t', (t <= t' < t + W)%nat /\ In (EvSendOk i) (happens e t')) ->
  (2 * W < fuel)%nat -> (N.to_nat 16384 < fuel)%nat ->
  (forall h r d, In (LCall (OpUdpSend h d)) ops \/ In (LCall (OpUdpSendTo h r d)) ops -> (length d <= fuel)%nat) ->
  exists s', (exists r, run e (run_life chk fuel life_new ops) s = (Done r, s')) \/
    (exists w, run e (run_life chk fuel life_new ops) s = (Panicked w, s')).
Proof.
  intros H1 H2 H3 H4 H5 F1 F2 F3.
  set (l := flat_map (fun i => [EvConnectFailed i; EvTransmit i 65535; EvSendOk i]) [0; 1; 2; 3; 4; 5; 6; 7]).
  assert (L : forall ev, In ev l -> exists i, In ev [EvConnectFailed i; EvTransmit i 65535; EvSendOk i]).
  { intros ev Hin. apply in_flat_map in Hin as (i & _ & Hin). eauto. }
  assert (L' : forall i ev, i < 8 -> In ev [EvConnectFailed i; EvTransmit i 65535; EvSendOk i] -> In ev l).
  { intros i ev Hi Hin. apply in_flat_map. exists i. split; [|exact Hin]. cbn [In].
    assert (X : i = 0 \/ i = 1 \/ i = 2 \/ i = 3 \/ i = 4 \/ i = 5 \/ i = 6 \/ i = 7) by lia. intuition auto. }
  assert (An : answers (from_now e s l) W).
  { intros i Hi. cbn [from_now happens]. split; [|split; [|split; [|split]]].
    - intros t b. destruct (Nat.leb_spec (s_tick s) t) as [G|G]; [now apply H1|].
      split; intros X; apply L in X as (j & [X|[X|[X|[]]]]); discriminate X.
    - intros t. destruct (Nat.leb_spec (s_tick s) t) as [G|G]; [now apply H2|].
      intros _ X. apply L in X as (j & [X|[X|[X|[]]]]); discriminate X.
    - intros t. destruct (Nat.leb_spec (s_tick s) t) as [G|G].
      + destruct (H3 i t Hi G) as (t' & Ht & Hin). exists t'. split; [exact Ht|]. rewrite (proj2 (Nat.leb_le _ _)) by lia. exact Hin.
      + exists t. split; [destruct (H3 i (s_tick s) Hi (Nat.le_refl _)) as (t' & Ht & _); lia|]. rewrite (proj2 (Nat.leb_gt _ _)) by lia.
        right. apply (L' i); [exact Hi|now left].
    - intros t. destruct (Nat.leb_spec (s_tick s) t) as [G|G].
      + destruct (H4 i t Hi G) as (t' & Ht & Hin). exists t'. split; [exact Ht|]. rewrite (proj2 (Nat.leb_le _ _)) by lia. exact Hin.
      + exists t. split; [destruct (H4 i (s_tick s) Hi (Nat.le_refl _)) as (t' & Ht & _); lia|]. rewrite (proj2 (Nat.leb_gt _ _)) by lia.
        apply (L' i); [exact Hi|right; now left].
    - intros t. destruct (Nat.leb_spec (s_tick s) t) as [G|G].
      + destruct (H5 i t Hi G) as (t' & Ht & Hin). exists t'. split; [exact Ht|]. rewrite (proj2 (Nat.leb_le _ _)) by lia. exact Hin.
      + exists t. split; [destruct (H5 i (s_tick s) Hi (Nat.le_refl _)) as (t' & Ht & _); lia|]. rewrite (proj2 (Nat.leb_gt _ _)) by lia.
        apply (L' i); [exact Hi|right; right; now left]. }
  assert (Pa : Forall (patient fuel W) ops).
  { apply Forall_forall. intros q Hq. split; [exact F1|]. split; [exact F2|]. destruct q; cbn [udp_bytes]; try apply Nat.le_0_l.
    destruct o as [|h| |h r|h d|h b|h| |h r|h pt|h d|h r d|h b|h|h| |q|h pt|h q]; try apply Nat.le_0_l; eapply (F3 h); [left|right]; exact Hq. }
  pose proof (life_ends (from_now e s l) W chk fuel An ops life_new s Pa wired_new (armed_new _)) as E.
  rewrite run_from_now in E. pose proof (run_never_cut e (run_life chk fuel life_new ops) s) as C.
  destruct (run e (run_life chk fuel life_new ops) s) as [[r|w| |] s'] eqn:R; cbn [fst] in *; exists s'; [eauto..|now elim E|now elim C].
  Unshelve. all: exact (V4 (Addr4 (Ip4 x00 x00 x00 x00) 0)).
Qed.
Print Assumptions C97_program_ends.

(** One transmission, one completion and one accepted connection every other byte, on every socket;
    a program that connects, sends and receives over TCP and UDP, with a bus error in the middle of
    the UDP send, puts the device to sleep, wakes it up, and starts again with raw frames. *)
Definition obliging : env :=
  mkEnv (fun t => flat_map (fun i => if Nat.even t then [EvEstablished i; EvTransmit i 65535] else [EvSendOk i]) [0; 1; 2; 3; 4; 5; 6; 7])
        (fun j => if Nat.eqb j 50 then Some (1%nat, 7) else None).
Definition busy_life : list lop :=
  let r := Addr4 (Ip4 x0a x00 x00 x02) 80 in
  [LInit (IManual (Mac x02 x00 x00 x00 x00 x01) (Ip4 x0a x00 x00 x01)) mode_default; LCall OpTcpSocket; LCall (OpTcpConnect 0 (V4 r));
   LCall (OpTcpSend 0 [x61; x62]); LCall (OpTcpReceive 0 [x00]); LCall OpUdpSocket; LCall (OpUdpConnect 1 (V4 r)); LCall (OpUdpSend 1 [x63; x64; x65]);
   LCall (OpUdpSendTo 1 (V4 r) [x66]); LSleep; LWake 0; LCall (OpUdpSend 1 [x67]); LNew; LInitRaw (Mac x02 x00 x00 x00 x00 x01);
   LRawCall (RwWrite [x68; x69]); LRawCall (RwRead [x00])].
Example C97_case :
  (forall i t b, i < 8 -> (0 <= t)%nat -> ~ In (EvDropped i b) (happens obliging t) /\ ~ In (EvSendTimeout i b) (happens obliging t)) /\
  (forall i t, i < 8 -> (0 <= t)%nat -> In (EvEstablished i) (happens obliging t) -> ~ In (EvPeerFin i) (happens obliging t)) /\
  (forall i t, i < 8 -> (0 <= t)%nat -> exists t', (t <= t' < t + 2)%nat /\
     (In (EvEstablished i) (happens obliging t') \/ In (EvConnectFailed i) (happens obliging t'))) /\
  (forall i t, i < 8 -> (0 <= t)%nat -> exists t', (t <= t' < t + 2)%nat /\ In (EvTransmit i 65535) (happens obliging t')) /\
  (forall i t, i < 8 -> (0 <= t)%nat -> exists t', (t <= t' < t + 2)%nat /\ In (EvSendOk i) (happens obliging t')) /\
  (forall h r d, In (LCall (OpUdpSend h d)) busy_life \/ In (LCall (OpUdpSendTo h r d)) busy_life -> (length d <= N.to_nat 16385)%nat) /\
  exists l, fst (run obliging (run_life true (N.to_nat 16385) life_new busy_life) sys0) =
    Done (l, [LInited (Ok tt); LOut (RTcpSocket (Ok 0%nat)); LOut (RTcpConnect (Ok tt)); LOut (RTcpSend (Ok 2)); LOut (RTcpReceive [x00] (Ok 0));
      LOut (RUdpSocket (Ok 1%nat)); LOut (RUdpUnit (Ok tt)); LOut (RUdpSend (Err (NbOther (UOther 7)))); LOut (RUdpSend (Ok tt)); LMade; LMade;
      LOut (RUdpSend (Ok tt)); LMade; LInited (Ok tt); LRaw (RwSent (Ok 2)); LRaw (RwFrame [x00] (Ok 0))]).
Proof.
  assert (I8 : forall i, i < 8 -> In i [0; 1; 2; 3; 4; 5; 6; 7]).
  { intros i Hi. cbn [In]. assert (X : i = 0 \/ i = 1 \/ i = 2 \/ i = 3 \/ i = 4 \/ i = 5 \/ i = 6 \/ i = 7) by lia. intuition auto. }
  assert (Ev : forall t ev, In ev (happens obliging t) -> exists i, In ev (if Nat.even t then [EvEstablished i; EvTransmit i 65535] else [EvSendOk i])).
  { intros t ev H. apply in_flat_map in H as (i & _ & H). eauto. }
  assert (Odd : forall t, Nat.even (S t) = negb (Nat.even t)) by (intros t; rewrite Nat.even_succ; symmetry; apply Nat.negb_even).
  split; [|split; [|split; [|split; [|split; [|split]]]]].
  - intros i t b _ _. split; intros H; apply Ev in H as (j & H); destruct (Nat.even t); repeat destruct H as [H|H]; try discriminate H; contradiction.
  - intros i t _ _ _ H. apply Ev in H as (j & H). destruct (Nat.even t); repeat destruct H as [H|H]; try discriminate H; contradiction.
  - intros i t Hi _. destruct (Nat.even t) eqn:E; [exists t|exists (S t)]; (split; [lia|]); left; apply in_flat_map; exists i; (split; [now apply I8|]);
      rewrite ?Odd, E; now left.
  - intros i t Hi _. destruct (Nat.even t) eqn:E; [exists t|exists (S t)]; (split; [lia|]); apply in_flat_map; exists i; (split; [now apply I8|]);
      rewrite ?Odd, E; right; now left.
  - intros i t Hi _. destruct (Nat.even t) eqn:E; [exists (S t)|exists t]; (split; [lia|]); apply in_flat_map; exists i; (split; [now apply I8|]);
      rewrite ?Odd, E; now left.
  - assert (X : Forall (fun q => (length (udp_bytes q) <= 3)%nat) busy_life) by (repeat constructor). rewrite Forall_forall in X.
    intros h r d [H|H]; apply X in H; cbn [udp_bytes] in H; lia.
  - eexists. vm_compute. reflexivity.
Qed.
