(** C119: programs that choose their calls by the answers. *)
From Verif Require Import Life LifeWire Liveness Datasheet Ends Cases Adaptive.
From Verif Require Properties_ends.

(** ** C119.  Most theorems speak of lists of calls.  A program looks at the answers of its calls and
    chooses the next call by them ([next], any function of the answers so far; any input from
    elsewhere can be part of it); [n] bounds the number of calls looked at, it may be any number.
    From any state, against any chip and network, such a program does what some list of calls does:
    the same outcome, the same final state; every call of the list is one it can choose, and when all
    return, exactly those it chooses by the answers they got. *)
Theorem C119_as_calls : forall e chk fuel next n l s, exists ops,
  run e (play (lstep chk fuel) next n l []) s = run e (run_life chk fuel l ops) s /\
  (length ops <= n)%nat /\ (forall o, In o ops -> exists seen, next seen = Some o) /\
  forall l' outs, fst (run e (play (lstep chk fuel) next n l []) s) = Done (l', outs) ->
    length outs = length ops /\ (forall k, (k < length ops)%nat -> nth_error ops k = next (firstn k outs)) /\
    ((length ops < n)%nat -> next outs = None).
Proof.
  intros e chk fuel next n l s.
  destruct (play_run (lstep chk fuel) (run_life chk fuel) (fun _ => eq_refl) (fun _ _ _ => eq_refl) e next n l [] s) as (ops & R & L & M & C).
  exists ops. split; [exact R|]. split; [exact L|]. split; [exact M|]. intros l' outs H. rewrite R in H. specialize (C _ _ H). clear - C.
  assert (G : forall seen, chosen next n seen ops outs -> length outs = length ops /\ (forall k, (k < length ops)%nat -> nth_error ops k = next (seen ++ firstn k outs)) /\
    ((length ops < n)%nat -> next (seen ++ outs) = None)).
  { clear C. intros seen. induction 1 as [seen|n seen E|n seen o out ops outs E C (I1 & I2 & I3)]; cbn [length].
    - split; [reflexivity|]. split; [intros k Hk; inversion Hk|intros Hk; inversion Hk].
    - split; [reflexivity|]. split; [intros k Hk; inversion Hk|]. now rewrite app_nil_r.
    - split; [now rewrite I1|]. split.
      + intros [|k] Hk; cbn [nth_error firstn]; [now rewrite app_nil_r|]. rewrite (I2 k) by lia. now rewrite <- app_assoc.
      + intros Hk. rewrite <- (I3 ltac:(lia)). now rewrite <- app_assoc. }
  exact (G [] C).
Qed.
Print Assumptions C119_as_calls.

(** Over an arbitrary bus likewise (so, by C115, over both SPI wires). *)
Theorem C119_any_bus : forall chk fuel next n l tr oc, exec (play (lstep chk fuel) next n l []) tr oc ->
  exists ops, exec (run_life chk fuel l ops) tr oc /\ (length ops <= n)%nat /\ forall o, In o ops -> exists seen, next seen = Some o.
Proof.
  intros chk fuel next n l tr oc X.
  destruct (play_exec (lstep chk fuel) (run_life chk fuel) (fun _ => eq_refl) (fun _ _ _ => eq_refl) next n l [] tr oc X) as (ops & Y & L & M & _). eauto.
Qed.
Print Assumptions C119_any_bus.

(** So whatever is true of every list of calls is true of every such program: for the whole life of a
    device, and for the calls on one device ([step], [run_ops]: what most of the theorems speak of). *)
Theorem C119_whatever_holds :
  (forall e chk fuel l s (P : outcome (life * list lout) * sys -> Prop), (forall ops, P (run e (run_life chk fuel l ops) s)) ->
     forall next n, P (run e (play (lstep chk fuel) next n l []) s)) /\
  (forall e fuel a s (P : outcome (History.app * list out) * sys -> Prop), (forall ops, P (run e (run_ops fuel a ops) s)) ->
     forall next n, P (run e (play (step fuel) next n a []) s)) /\
  (forall chk fuel l (P : list event -> outcome (life * list lout) -> Prop), (forall ops tr oc, exec (run_life chk fuel l ops) tr oc -> P tr oc) ->
     forall next n tr oc, exec (play (lstep chk fuel) next n l []) tr oc -> P tr oc) /\
  (forall fuel a (P : list event -> outcome (History.app * list out) -> Prop), (forall ops tr oc, exec (run_ops fuel a ops) tr oc -> P tr oc) ->
     forall next n tr oc, exec (play (step fuel) next n a []) tr oc -> P tr oc).
Proof.
  split; [|split; [|split]].
  - intros e chk fuel l s P H next n. destruct (C119_as_calls e chk fuel next n l s) as (ops & -> & _). apply H.
  - intros e fuel a s P H next n.
    destruct (play_run (step fuel) (run_ops fuel) (fun _ => eq_refl) (fun _ _ _ => eq_refl) e next n a [] s) as (ops & -> & _). apply H.
  - intros chk fuel l P H next n tr oc X. destruct (C119_any_bus _ _ _ _ _ _ _ X) as (ops & Y & _). eapply H, Y.
  - intros fuel a P H next n tr oc X.
    destruct (play_exec (step fuel) (run_ops fuel) (fun _ => eq_refl) (fun _ _ _ => eq_refl) next n a [] tr oc X) as (ops & Y & _). eapply H, Y.
Qed.
Print Assumptions C119_whatever_holds.

(** For instance C97: when the network answers, such a program comes to its end or aborts, however
    many calls it makes; [D] bounds the data it gives to one UDP send. *)
Theorem C119_ends e chk fuel next n s W D :
  (forall i t b, i < 8 -> (s_tick s <= t)%nat -> ~ In (EvDropped i b) (happens e t) /\ ~ In (EvSendTimeout i b) (happens e t)) ->
  (forall i t, i < 8 -> (s_tick s <= t)%nat -> In (EvEstablished i) (happens e t) -> ~ In (EvPeerFin i) (happens e t)) ->
  (forall i t, i < 8 -> (s_tick s <= t)%nat -> exists t', (t <= t' < t + W)%nat /\
     (In (EvEstablished i) (happens e t') \/ In (EvConnectFailed i) (happens e t'))) ->
  (forall i t, i < 8 -> (s_tick s <= t)%nat -> exists t', (t <= t' < t + W)%nat /\ In (EvTransmit i 65535) (happens e t')) ->
  (forall i t, i < 8 -> (s_tick s <= t)%nat -> exists t', (t <= t' < t + W)%nat /\ In (EvSendOk i) (happens e t')) ->
  (forall seen h r d, next seen = Some (LCall (OpUdpSend h d)) \/ next seen = Some (LCall (OpUdpSendTo h r d)) -> (length d <= D)%nat) ->
  (2 * W < fuel)%nat -> (N.to_nat 16384 < fuel)%nat -> (D <= fuel)%nat ->
  exists s', (exists r, run e (play (lstep chk fuel) next n life_new []) s = (Done r, s')) \/
    (exists w, run e (play (lstep chk fuel) next n life_new []) s = (Panicked w, s')).
Proof.
  intros H1 H2 H3 H4 H5 HD F1 F2 F3. destruct (C119_as_calls e chk fuel next n life_new s) as (ops & -> & _ & M & _).
  refine (Properties_ends.C97_program_ends e chk fuel ops s W H1 H2 H3 H4 H5 F1 F2 _).
  intros h r d [Hin|Hin]; destruct (M _ Hin) as (seen & E); (etransitivity; [eapply (HD seen h r d); auto|exact F3]).
Qed.
Print Assumptions C119_ends.

(** Set up; if that succeeds take a TCP socket and connect it; if that succeeds send; close the socket
    if either fails.  The peer accepts, or refuses (connect then says Ok too, C32, but send does not). *)
Definition careful (seen : list lout) : option lop :=
  match rev seen with
  | [] => Some (LInit (IManual (Mac x02 x00 x00 x00 x00 x01) (Ip4 x0a x00 x00 x01)) mode_default)
  | LInited (Ok _) :: _ => Some (LCall OpTcpSocket)
  | LOut (RTcpSocket (Ok h)) :: _ => Some (LCall (OpTcpConnect h (V4 (Addr4 (Ip4 x0a x00 x00 x02) 80))))
  | LOut (RTcpConnect (Ok _)) :: _ => Some (LCall (OpTcpSend 0 [x61; x62]))
  | LOut (RTcpConnect (Err _)) :: _ | LOut (RTcpSend (Err _)) :: _ => Some (LCall (OpTcpClose 0))
  | _ => None
  end.
Definition accepting : env := mkEnv (fun t => [EvEstablished 0; EvTransmit 0 65535; EvSendOk 0]) (fun _ => None).
Definition refusing : env := mkEnv (fun t => [EvConnectFailed 0]) (fun _ => None).
Example C119_case :
  (exists l, fst (run accepting (play (lstep true 30) careful 9 life_new []) sys0) =
     Done (l, [LInited (Ok tt); LOut (RTcpSocket (Ok 0%nat)); LOut (RTcpConnect (Ok tt)); LOut (RTcpSend (Ok 2))])) /\
  (exists l, fst (run refusing (play (lstep true 30) careful 9 life_new []) sys0) =
     Done (l, [LInited (Ok tt); LOut (RTcpSocket (Ok 0%nat)); LOut (RTcpConnect (Ok tt)); LOut (RTcpSend (Err (NbOther TNotConnected))); LOut (RTcpClose (Ok tt))])).
Proof. split; eexists; vm_compute; reflexivity. Qed.
