(** Whole programs over the SPI buses: lifting what is known about the driver to the wires. *)
From Verif Require Export SizeFacts SpiFacts ThreeWireFacts TcpSession RawSession.
From Verif Require Import ProgFacts Datasheet HistoryFacts RawHistory PipeSession ComFacts InitFacts.

(** ** A Device program is an initialisation and then a run of calls *)
Lemma run_device_ok e chk ho m fuel ops s a outs s' :
  run e (device_program chk ho m fuel ops) s = (Done (Ok (a, outs)), s') ->
  exists d s0, run e (initialize_with_host chk ho m) s = (Done (Ok d), s0) /\
    run e (run_ops fuel (mkApp d [] 0) ops) s0 = (Done (a, outs), s').
Proof.
  intros R. unfold device_program in R. apply run_try_ok in R as [(d & s0 & R1 & R)|(x & _ & [=])].
  apply run_bind_done in R as ([a' outs'] & s1 & R2 & R). cbn [run] in R. injection R as <- <- <-. eauto.
Qed.
Lemma run_device_intro e chk ho m fuel ops s a outs s' d s0 :
  run e (initialize_with_host chk ho m) s = (Done (Ok d), s0) ->
  run e (run_ops fuel (mkApp d [] 0) ops) s0 = (Done (a, outs), s') ->
  run e (device_program chk ho m fuel ops) s = (Done (Ok (a, outs)), s').
Proof.
  intros R1 R2. unfold device_program, try_. rewrite run_bind, R1. cbn [fst snd]. rewrite run_bind, R2. reflexivity.
Qed.
Lemma run_ops_app e fuel : forall ops0 ops a s a' outs0 outs s', length outs0 = length ops0 ->
  run e (run_ops fuel a (ops0 ++ ops)) s = (Done (a', outs0 ++ outs), s') ->
  exists a1 s1, run e (run_ops fuel a ops0) s = (Done (a1, outs0), s1) /\ run e (run_ops fuel a1 ops) s1 = (Done (a', outs), s').
Proof.
  induction ops0 as [|o ops0 IH]; intros ops a s a' [|u outs0] outs s' L R; try discriminate L.
  - exists a, s. split; [reflexivity|exact R].
  - cbn [List.app run_ops] in R. apply run_bind_done in R as ([a1 o1] & s1 & R1 & R).
    apply run_bind_done in R as ([a2 o2] & s2 & R2 & R). cbn [run fst snd] in *. injection R as <- <- E <-. subst o2.
    injection L as L. destruct (IH ops a1 s1 a2 outs0 outs s2 L R2) as (a3 & s3 & R3 & R4).
    exists a3, s3. split; [|exact R4]. cbn [run_ops]. rewrite run_bind, R1. cbn [fst snd]. rewrite run_bind, R3. reflexivity.
Qed.
Lemma run_ops_cons e fuel o ops a s a' out outs s' :
  run e (run_ops fuel a (o :: ops)) s = (Done (a', out :: outs), s') ->
  exists a1 s1, run e (step fuel a o) s = (Done (a1, out), s1) /\ run e (run_ops fuel a1 ops) s1 = (Done (a', outs), s').
Proof.
  cbn [run_ops]. intros R. apply run_bind_done in R as ([a1 o1] & s1 & R1 & R).
  apply run_bind_done in R as ([a2 o2] & s2 & R2 & R). cbn [run fst snd] in *. injection R as <- <- <- <-. eauto.
Qed.

(** ** Four-wire: what the wires carry is what [run] says *)
Lemma four_wire_device e chk ho m fuel ops s :
  spi_run e (over_four_wire (device_program chk ho m fuel ops)) (WaitHi, s) =
  let (o, s') := run (four_wire_env e) (device_program chk ho m fuel ops) s in (o, (WaitHi, s')).
Proof. eapply four_wire_sim. apply pt_device_program. Qed.
Lemma four_wire_device_done e chk ho m fuel ops s v st s' :
  spi_run e (over_four_wire (device_program chk ho m fuel ops)) (WaitHi, s) = (Done v, (st, s')) ->
  st = WaitHi /\ run (four_wire_env e) (device_program chk ho m fuel ops) s = (Done v, s').
Proof. rewrite four_wire_device. destruct (run _ _ s) as [o x]. intros [= -> <- ->]. auto. Qed.

(** a program that connected, seen as a session *)
Lemma device_session e chk ho m fuel h r ops0 ops s00 a outs0 outs s :
  run e (device_program chk ho m fuel (ops0 ++ OpTcpConnect h (V4 r) :: ops)) s00 =
    (Done (Ok (a, outs0 ++ RTcpConnect (Ok tt) :: outs)), s) ->
  length outs0 = length ops0 -> a_port r < 65536 -> Forall (leaves_open h) ops -> no_bus_error h ops outs ->
  exists i a1 s1, i < 8 /\ lookup h (handles a1) = Some (HTcp (mkTcp (socket_new i))) /\
    run e (device_program chk ho m fuel (ops0 ++ [OpTcpConnect h (V4 r)])) s00 =
      (Done (Ok (a1, outs0 ++ [RTcpConnect (Ok tt)])), s1) /\
    tcp_session e fuel h i r (sk i s1) (accepted h ops outs) (delivered h ops outs) a s.
Proof.
  intros R L Hr K NB. apply run_device_ok in R as (d & s0 & R0 & R).
  apply run_ops_app in R as (a0 & s1 & R1 & R); [|exact L]. apply run_ops_cons in R as (a1 & s2 & R2 & R3).
  pose proof (init_start e chk ho m s00 d s0 0 R0) as (Ip & _).
  pose proof (run_ops_inv e fuel ops0 _ _ _ _ _ Ip R1) as I1.
  assert (Hh : exists t, lookup h (handles a0) = Some (HTcp t)).
  { cbn [step] in R2. destruct (lookup h (handles a0)) as [[x|t|u]|] eqn:E; eauto; cbn [run] in R2; discriminate R2. }
  destruct Hh as (t & Lk). destruct (pi_lookup _ _ _ I1 Lk) as (i & Hi & Ei & _).
  destruct t as [t]. cbn [handle_socket t_socket] in Ei. subst t.
  assert (a1 = a0) as ->.
  { cbn [step] in R2. rewrite Lk in R2. apply run_bind_done in R2 as (x & s3 & _ & R2). cbn [run] in R2. now injection R2. }
  assert (Z : two_k (sk i s1)).
  { pose proof (ops_sizes e i fuel ops0 _ s0 Hi Ip (init_sizes e chk ho m s00 d s0 i R0)) as Z. now rewrite R1 in Z. }
  exists i, a0, s2. split; [exact Hi|]. split; [exact Lk|]. split.
  { eapply run_device_intro; [exact R0|]. eapply run_ops_snoc; eauto. }
  assert (Hd : exists ho', d = ds_new ho').
  { apply InitFacts.run_init in R0 as (? & ? & h' & _ & _ & _ & _ & _ & ->). eauto. }
  destruct Hd as (ho' & ->).
  exists ho', s0, ops0, a0, outs0, s1, (mkTcp (socket_new i)), s2, ops, outs.
  split; [exact R1|]. split; [exact Lk|]. split; [reflexivity|]. unfold valid_size, tx_size, rx_size. destruct Z as [Z1 Z2].
  unfold sk in Z1, Z2. rewrite Z1, Z2. split; [right; left; reflexivity|]. split; [right; left; reflexivity|].
  split; [exact Hr|]. split; [exact R2|]. split; [reflexivity|]. split; [exact R3|]. auto.
Qed.

(** the same for MACRAW programs *)
Lemma macraw_program_reached e mc fuel ops s outs s' :
  run e (macraw_program mc fuel ops) s = (Done (Ok outs), s') -> Forall raw_ok outs ->
  exists d s1, run e (initialize_macraw mc) s = (Done (Ok d), s1) /\ macraw_reached e mc fuel ops outs s1 s'.
Proof.
  intros R F. unfold macraw_program in R. apply run_try_ok in R as [(d & s1 & R1 & R)|(x & _ & [=])].
  apply run_bind_done in R as (outs' & s2 & R2 & R). cbn [run] in R. injection R as <- <-.
  exists d, s1. split; [exact R1|]. exists s, d. auto.
Qed.
Lemma four_wire_macraw_done e mc fuel ops s v st s' :
  spi_run e (over_four_wire (macraw_program mc fuel ops)) (WaitHi, s) = (Done v, (st, s')) ->
  st = WaitHi /\ run (four_wire_env e) (macraw_program mc fuel ops) s = (Done v, s').
Proof.
  rewrite (four_wire_sim e _ _ _ s (pt_macraw_program mc fuel ops)). destruct (run _ _ s) as [o x]. intros [= -> <- ->]. auto.
Qed.

(** initialisation always returns *)
Fixpoint returns {A} (p : prog A) : Prop :=
  match p with
  | Ret _ => True
  | Panic _ | Spin => False
  | BusRead _ _ _ k => forall r, returns (k r)
  | BusWrite _ _ _ k => forall r, returns (k r)
  end.
Lemma returns_bind {A B} (p : prog A) (f : A -> prog B) : returns p -> (forall a, returns (f a)) -> returns (bind p f).
Proof. induction p; cbn; auto. Qed.
Lemma returns_try {A E B} (p : prog (res A E)) (h : E -> B) (k : A -> prog B) : returns p -> (forall a, returns (k a)) -> returns (try_ p h k).
Proof. intros H Hk. apply returns_bind; [exact H|]. intros [a|x]; [apply Hk|exact I]. Qed.
Lemma run_returns {A} e (p : prog A) : returns p -> forall s, exists a s', run e p s = (Done a, s').
Proof.
  induction p as [a|w| |b a d k IH|b a d k IH]; cbn [returns run]; intros H s; try contradiction; eauto.
  - destruct (bus_read e b a d s). apply IH, H.
  - destruct (bus_write e b a d s). apply IH, H.
Qed.
Lemma returns_init assertion ho m : returns (initialize_with_host assertion ho m).
Proof.
  assert (W : forall b a d, returns (write_frame b a d)) by (cbn; auto).
  assert (WI : forall c a d h h' k, (forall x, returns (k x)) -> returns (write_if c a d h h' k)).
  { intros c a d h h' k H. unfold write_if. destruct c; [|apply H]. apply returns_try; [apply W|intros; apply H]. }
  assert (Rest : returns (initialize_with_host false ho m)).
  { unfold initialize_with_host. apply returns_try; [apply W|intros]. apply returns_try; [apply W|intros]. apply returns_bind.
    - destruct ho as [[] st c|]; cbn [refresh]; try exact I. apply returns_bind; [|intros; exact I]. unfold write_settings. repeat (apply WI; intros). exact I.
    - intros [h [u|er]]; exact I. }
  destruct assertion; [|exact Rest]. unfold initialize_with_host. apply returns_try; [|intros; exact Rest].
  unfold assert_chip_version, dev_version. apply returns_try.
  - apply returns_try; [|intros; exact I]. cbn. intros [g [u|er]]; exact I.
  - intros v. destruct (negb _); exact I.
Qed.
Lemma returns_macraw mc : returns (initialize_macraw mc).
Proof.
  assert (W : forall b a d, returns (write_frame b a d)) by (cbn; auto).
  unfold initialize_macraw, raw_new. cbn [raw_zero_buffers].
  repeat (apply returns_try; [first [apply W | repeat (apply returns_try; [apply W|intros]); exact I]|intros]). exact I.
Qed.
