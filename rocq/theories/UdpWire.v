(** Whole UDP programs: what every call of a session adds to the datagrams sent and received. *)
From Verif Require Import Dotted.
From Verif Require Export System UdpCalls.
From Verif Require Import ProgFacts Datasheet HistoryFacts.

(** ** For the statements *)
(** [pss]: the datagrams each call made the chip send.  A send of [buf] to [r] adds some of the
    2048-byte pieces of [buf], in order and each whole, addressed to [r]; when it returned Ok the
    last piece was tried.  No other call adds any.  [dest]/[port]: the remote last named for [h]
    and its local port, before the calls. *)
Inductive udp_sends (h : nat) : option addr4 -> N -> list op -> list out -> list (list packet) -> Prop :=
| us_nil dest port : udp_sends h dest port [] [] []
| us_send dest port o out ops outs pss r buf cs more ps :
    sends_buf h dest o r buf -> cut_into 2048 buf (cs ++ more) -> (out = RUdpSend (Ok tt) -> more = []) ->
    part ps (map (fun c => mkPacket port (dotted (a_ip r)) (a_port r) c) cs) ->
    udp_sends h (named1 h dest o) (bound1 h port o) ops outs pss ->
    udp_sends h dest port (o :: ops) (out :: outs) (ps :: pss)
| us_other dest port o out ops outs pss :
    (forall r buf, ~ sends_buf h dest o r buf) ->
    udp_sends h (named1 h dest o) (bound1 h port o) ops outs pss ->
    udp_sends h dest port (o :: ops) (out :: outs) ([] :: pss).
(** [gss]: the datagrams each call took out of the chip.  A receive that returned Ok took the
    one it returned, and dropped those of [lost]; no other call took any. *)
Inductive udp_gets (h : nat) : list op -> list out -> list (list dgram) -> Prop :=
| ug_nil : udp_gets h [] [] []
| ug_get buf buf' n r g lost ops outs gss :
    dotted (a_ip r) = g_ip g -> a_port r = g_port g -> take (len (g_data g)) buf' = g_data g ->
    len (g_data g) <= n <= len buf -> len buf' = len buf ->
    udp_gets h ops outs gss ->
    udp_gets h (OpUdpReceive h buf :: ops) (RUdpReceive buf' (Ok (n, V4 r)) :: outs) ((g :: lost) :: gss)
| ug_other o out ops outs gss :
    (forall buf buf' n r, o = OpUdpReceive h buf -> out <> RUdpReceive buf' (Ok (n, r))) ->
    udp_gets h ops outs gss ->
    udp_gets h (o :: ops) (out :: outs) ([] :: gss).
(** the call does not open the socket of [h] again *)
Definition stays_open (h : nat) (o : op) : Prop := forall r p, o <> OpUdpConnect h r /\ o <> OpUdpBind h p.

(** ** Cutting *)
Lemma cut_exists z : 0 < z -> forall n buf, (length buf <= n)%nat -> exists cs, cut_into z buf cs.
Proof.
  intros Hz. induction n as [|n IH]; intros buf Hn.
  - destruct buf; [|cbn in Hn; lia]. exists []. apply cut_nil.
  - destruct (N.eq_dec (len buf) 0) as [E|E]. { destruct buf; [|rewrite len_cons in E; lia]. exists []. apply cut_nil. }
    assert (L : len (take z buf) = N.min z (len buf)) by (rewrite len_take; lia).
    destruct (IH (drop z buf)) as (cs & C).
    { assert (len (drop z buf) < len buf) by (rewrite len_drop; lia). unfold len in *. lia. }
    exists (take z buf :: cs). rewrite <- (take_drop z buf) at 1. apply cut_cons; [lia| |exact C].
    destruct (N.le_gt_cases (len buf) z); [left; now apply drop_all|right; lia].
Qed.
Lemma cut_app z cs rest more : cut_so_far z cs rest -> cut_into z rest more -> cut_into z (concat cs ++ rest) (cs ++ more).
Proof.
  intros (C & F) (M1 & M2 & M3). destruct F as [-> |F].
  - destruct more as [|m more].
    + rewrite !app_nil_r. exact C.
    + exfalso. inversion M2; subst. cbn [concat] in M1. destruct m; [cbn in *; lia|discriminate].
  - split; [now rewrite concat_app, M1|]. split; [apply Forall_app; split; [apply C|exact M2]|].
    destruct more as [|m more]; [rewrite app_nil_r; apply C|]. rewrite removelast_app by discriminate. apply Forall_app. auto.
Qed.

(** ** One call *)
Lemma step_two_k e i fuel a o s a' out s' : i < 8 -> pool_inv a -> two_k (sk i s) -> run e (step fuel a o) s = (Done (a', out), s') -> two_k (sk i s').
Proof.
  intros Hi Ip T R. pose proof (ops_sizes e i fuel [o] a s Hi Ip T) as Z. cbn [run_ops] in Z. rewrite run_bind, R in Z.
  cbn [fst snd run_ops bind run] in Z. exact Z.
Qed.
Lemma two_k_size x : two_k x -> tx_size x = 2048.
Proof. intros (Z & _). unfold tx_size. rewrite Z. reflexivity. Qed.

Lemma sends_buf_dec h dest o : (exists r buf, sends_buf h dest o r buf) \/ (forall r buf, keeps_udp h o -> ~ sends_buf h dest o r buf).
Proof.
  destruct o as [|h'| |h' r'|h' d|h' b|h'| |h' r'|h' pt|h' d|h' r' d|h' b|h'|h'| |q|h' pt|h' q]; try (right; intros r buf _ B; inversion B; fail).
  - destruct (Nat.eq_dec h' h) as [->|N]; [|right; intros r buf _ B; inversion B; congruence].
    destruct dest as [r|]; [left; exists r, d; now constructor|right; intros r buf _ B; inversion B; discriminate].
  - destruct (Nat.eq_dec h' h) as [->|N]; [|right; intros r buf _ B; inversion B; congruence].
    destruct r' as [r|]; [|right; intros r buf _ B; inversion B]. destruct (N.lt_ge_cases (a_port r) 65536) as [Hr|Hr].
    + left. exists r, d. now constructor.
    + right. intros r' buf K B. cbn [keeps_udp] in K. lia.
Qed.
Lemma sends_out e fuel h i dest port a s o a' out s' : udp_session e fuel h i dest port a s -> keeps_udp h o -> two_k (sk i s) ->
  run e (step fuel a o) s = (Done (a', out), s') -> (op_handle o = Some h -> out_berr out = None) ->
  exists ps, sent (sk i s') = sent (sk i s) ++ ps /\
    forall ops outs pss, udp_sends h (named1 h dest o) (bound1 h port o) ops outs pss -> udp_sends h dest port (o :: ops) (out :: outs) (ps :: pss).
Proof.
  intros T K Z R NB. pose proof (two_k_size _ Z) as Zs. destruct (sends_buf_dec h dest o) as [(r & buf & B)|NS].
  - assert (Ho : op_handle o = Some h) by (destruct B; reflexivity).
    destruct (udp_send_call _ _ _ _ _ _ _ _ _ _ _ _ _ T B R) as [(a1 & [= <- ->] & C & _)|[(a1 & [= <- ->] & C & _)|([=] & _)]].
    { intros a1 ou [= <- <-]. auto. }
    + destruct C as (cs & ps & C1 & C2 & C3 & _). rewrite Zs in C1. exists ps. split; [exact C2|].
      intros ops outs pss U. eapply us_send with (cs := cs) (more := []); eauto. now rewrite app_nil_r.
    + destruct C as (cs & rest & ps & C1 & _ & C3 & C4 & C5 & _). rewrite Zs in C3. exists ps. split; [exact C4|].
      destruct (cut_exists 2048 ltac:(reflexivity) (length rest) rest (le_n _)) as (more & M).
      intros ops outs pss U. eapply us_send with (cs := cs) (more := more); eauto; [|discriminate]. rewrite C1. now apply cut_app.
  - destruct (udp_packets _ _ _ _ _ _ _ _ _ _ _ T K R) as (ps & S1 & _ & S3).
    { intros Ho a1 ou [= <- <-]. auto. }
    exists []. destruct ps as [|p ps].
    + split; [exact S1|]. intros ops outs pss U. apply us_other; [|exact U]. intros r buf. now apply NS.
    + exfalso. destruct S3 as (r & buf & B); [discriminate|]. now apply (NS r buf K).
Qed.

Lemma gets_out e fuel h i dest port a s o a' out s' q0 : udp_session e fuel h i dest port a s -> keeps_udp h o -> stays_open h o ->
  run e (step fuel a o) s = (Done (a', out), s') -> (op_handle o = Some h -> out_berr out = None) -> queue (sk i s) q0 ->
  exists gs left new, q0 ++ new = gs ++ left /\ queue (sk i s') left /\ rxlog (sk i s') = rxlog (sk i s) ++ records new /\ Forall wf_dgram new /\
    forall ops outs gss, udp_gets h ops outs gss -> udp_gets h (o :: ops) (out :: outs) (gs :: gss).
Proof.
  intros T K St R NB Q0. destruct (udp_session_facts _ _ _ _ _ _ _ _ T) as (Hi & Hp & I & L & U).
  assert (Grow : qgrow (sk i s) (sk i s') -> (forall buf buf' n r, o = OpUdpReceive h buf -> out <> RUdpReceive buf' (Ok (n, r))) ->
    exists gs left new, q0 ++ new = gs ++ left /\ queue (sk i s') left /\ rxlog (sk i s') = rxlog (sk i s) ++ records new /\ Forall wf_dgram new /\
    forall ops outs gss, udp_gets h ops outs gss -> udp_gets h (o :: ops) (out :: outs) (gs :: gss)).
  { intros G N. destruct (G q0 Q0) as (q' & Q1 & Q2). exists [], (q0 ++ q'), q'. split; [reflexivity|]. split; [exact Q1|]. split; [exact Q2|].
    split; [destruct Q1 as [_ Q1]; apply Forall_app in Q1; apply Q1|]. intros ops outs gss X. now apply ug_other. }
  assert (GS : forall y, sevs i (sk i s) y -> qgrow (sk i s) y).
  { intros y N q Qq. pose proof U as (U1 & _ & U3 & _). now apply (sevs_queue i); [| |apply U3|]. }
  assert (Dec : op_handle o = Some h \/ op_handle o <> Some h).
  { destruct (op_handle o) as [h'|]; [|right; discriminate]. destruct (Nat.eq_dec h' h) as [->|]; [left; reflexivity|right; congruence]. }
  destruct Dec as [E|E].
  2:{ apply Grow; [|intros; subst; now elim E]. assert (Hs : spares i (step fuel a o)) by (eapply spares_step; eauto; intros ->; exact K).
      pose proof (run_spares e i _ Hs s) as N. rewrite R in N. cbn [snd] in N. auto. }
  assert (Wp : wp (nofail e) (step fuel a o) (fun oc s' => forall v, oc = Done v -> qgrow (sk i s) (sk i s')) s -> qgrow (sk i s) (sk i s')).
  { intros W. refine (session_call _ e _ (fun oc s' => forall v, oc = Done v -> qgrow (sk i s) (sk i s')) s _ s' (es_step fuel a o) R _ W _ eq_refl).
    intros [a1 ou] [= <- <-]. auto. }
  pose proof (nofail_no_faults e) as NF. destruct (uinv_valid _ _ _ U) as (Vt & Vr & C & Id).
  assert (Same : qgrow (sk i s) (sk i s)) by (apply GS, sevs_refl).
  destruct o as [|h'| |h' r'|h' d|h' b|h'| |h' r'|h' pt|h' d|h' r' d|h' b|h'|h'| |q|h' pt|h' q]; cbn [op_handle] in E; try discriminate E; injection E as ->;
    cbn [keeps_udp] in K; try (now elim K);
    try (apply Grow; [|discriminate]; apply Wp; cbn [step]; rewrite L; unfold udp_handle; apply wp_ret; intros; exact Same).
  - exfalso. now destruct (St r' 0) as [X _].
  - exfalso. now destruct (St (V4 (Addr4 (Ip4 x00 x00 x00 x00) 0)) pt) as [_ X].
  - apply Grow; [|discriminate]. apply Wp. cbn [step]. rewrite L. unfold udp_handle. apply wp_bind. destruct dest as [r|].
    + apply wp_udp_send_known; auto; intros; try apply wp_ret; auto; discriminate.
    + apply wp_udp_send_unknown; auto; [apply U|]. intros s2 N. apply wp_ret. auto.
  - apply Grow; [|discriminate]. apply Wp. cbn [step]. rewrite L. unfold udp_handle. apply wp_bind. destruct r' as [r|].
    + apply wp_udp_send_to; auto; intros; try apply wp_ret; auto; discriminate.
    + apply wp_ret, wp_ret. auto.
  - destruct (udp_receive_call _ _ _ _ _ _ _ _ _ _ _ _ T Q0 R) as
      [(n1 & r & b1 & [= -> ->] & C1)|[([= -> ->] & N & _)|[([= -> ->] & N & _)|[([=] & _)|([=] & _)]]]].
    { intros a1 ou [= <- <-]. auto. }
    2,3: apply Grow; [auto|discriminate].
    destruct C1 as (_ & _ & g & q & later & q' & Eq & W & Ql & Lx & (S1 & S2) & Lg & -> & F1 & F2 & F3).
    exists (g :: q), later, q'. split; [exact Eq|]. split; [exact Ql|]. split; [exact Lx|]. split; [apply Forall_app in W; apply W|]. intros ops outs gss X. apply ug_get; auto.
    assert (Lr : len (records (g :: q)) >= 8 + len (g_data g)).
    { rewrite Eq in W. pose proof (Forall_inv W) as Wg. unfold records. cbn [map concat]. rewrite len_app, len_record by exact Wg. lia. }
    lia.
  - apply Grow; [|discriminate]. apply Wp. cbn [step]. rewrite L. unfold udp_handle. apply wp_bind. unfold udp_set_port. cbn [u_socket u_dest u_port].
    apply wp_try, wp_set_source_port; auto. intros y s1 N1 E1. apply wp_ret, wp_ret. intros v _. fold (port_of y pt) in E1. rewrite E1.
    intros q0' Qq. destruct (GS y N1 q0' Qq) as (q' & (G1 & G2) & G3). exists q'. split; [|exact G3]. split; [|exact G2].
    assert (X : rx_size (port_of y pt) = rx_size y) by (unfold rx_size; now rewrite port_of_regs by (right; discriminate)).
    unfold pending in *. now rewrite X.
Qed.

(** ** All calls of a session *)
Lemma session_sends e fuel h i : forall ops dest port a s a' outs s', udp_session e fuel h i dest port a s -> two_k (sk i s) ->
  Forall (keeps_udp h) ops -> run e (run_ops fuel a ops) s = (Done (a', outs), s') -> no_bus_error h ops outs ->
  exists pss, sent (sk i s') = sent (sk i s) ++ concat pss /\ udp_sends h dest port ops outs pss.
Proof.
  induction ops as [|o ops IH]; intros dest port a s a' outs s' T Z K R NB; cbn [run_ops] in R.
  - injection R as <- <- <-. exists []. cbn [concat]. rewrite app_nil_r. split; [reflexivity|constructor].
  - apply run_bind_done in R as ([a1 o1] & s1 & R1 & R). apply run_bind_done in R as ([a2 o2] & s2 & R2 & R).
    cbn [run fst snd] in *. injection R as <- <- <-. inversion K as [|? ? K1 K2]; subst. cbn [no_bus_error] in NB. destruct NB as [NB1 NB2].
    destruct (sends_out _ _ _ _ _ _ _ _ _ _ _ _ T K1 Z R1 NB1) as (ps & E1 & H1).
    destruct (udp_session_facts _ _ _ _ _ _ _ _ T) as (Hi & _ & Ip & _).
    destruct (IH _ _ _ _ _ _ _ (udp_session_next _ _ _ _ _ _ _ _ _ _ _ _ T K1 R1 NB1) (step_two_k _ _ _ _ _ _ _ _ _ Hi Ip Z R1) K2 R2 NB2) as (pss & E2 & H2).
    exists (ps :: pss). split; [cbn [concat]; now rewrite E2, E1, app_assoc|auto].
Qed.
Lemma session_gets e fuel h i : forall ops dest port a s a' outs s' q0, udp_session e fuel h i dest port a s ->
  Forall (keeps_udp h) ops -> Forall (stays_open h) ops -> run e (run_ops fuel a ops) s = (Done (a', outs), s') -> no_bus_error h ops outs ->
  queue (sk i s) q0 ->
  exists gss left new, q0 ++ new = concat gss ++ left /\ queue (sk i s') left /\ rxlog (sk i s') = rxlog (sk i s) ++ records new /\ Forall wf_dgram new /\
    udp_gets h ops outs gss.
Proof.
  induction ops as [|o ops IH]; intros dest port a s a' outs s' q0 T K St R NB Q0; cbn [run_ops] in R.
  - injection R as <- <- <-. exists [], q0, []. cbn [concat List.app records map]. rewrite !app_nil_r. split; [reflexivity|]. split; [exact Q0|]. split; [reflexivity|]. split; constructor.
  - apply run_bind_done in R as ([a1 o1] & s1 & R1 & R). apply run_bind_done in R as ([a2 o2] & s2 & R2 & R).
    cbn [run fst snd] in *. injection R as <- <- <-. inversion K as [|? ? K1 K2]; subst. inversion St as [|? ? S1 S2]; subst.
    cbn [no_bus_error] in NB. destruct NB as [NB1 NB2].
    destruct (gets_out _ _ _ _ _ _ _ _ _ _ _ _ _ T K1 S1 R1 NB1 Q0) as (gs & left & new & E1 & Q1 & L1 & W1 & H1).
    destruct (IH _ _ _ _ _ _ _ _ (udp_session_next _ _ _ _ _ _ _ _ _ _ _ _ T K1 R1 NB1) K2 S2 R2 NB2 Q1) as (gss & left' & new' & E2 & Q2 & L2 & W2 & H2).
    exists (gs :: gss), left', (new ++ new'). split; [rewrite app_assoc, E1, <- app_assoc, E2; cbn [concat]; now rewrite app_assoc|].
    split; [exact Q2|]. split; [now rewrite L2, L1, records_app, app_assoc|]. split; [apply Forall_app|]; auto.
Qed.

(** right after a successful bind or connect, what has been received is what waits *)
Lemma open_queue e fuel a o s a' s' h i dest port : i < 8 -> port < 65536 -> pool_inv a -> lookup h (handles a) = Some (udp_handle i dest port) ->
  coherent dest (regs (sk i s)) \/ (exists r, o = OpUdpConnect h (V4 r) /\ dest <> Some r) ->
  valid_size (tx_size (sk i s)) -> valid_size (rx_size (sk i s)) ->
  (exists r, o = OpUdpConnect h (V4 r)) \/ (exists p, o = OpUdpBind h p) -> keeps_udp h o ->
  run e (step fuel a o) s = (Done (a', RUdpUnit (Ok tt)), s') ->
  exists q, queue (sk i s') q /\ rxlog (sk i s') = records q.
Proof.
  intros Hi Hp I L C Vt Vr Ho K R. apply run_step_nofail in R; [|reflexivity]. pose proof (nofail_no_faults e) as NF.
  refine (wp_run (nofail e) _ (fun o s' => exists q, queue (sk i s') q /\ rxlog (sk i s') = records q) s _ s' R _).
  destruct Ho as [(r & ->)|(p & ->)]; cbn [step keeps_udp] in *; rewrite L; unfold udp_handle; apply wp_bind.
  - apply wp_udp_connect; auto. intros x y s1 N1 N2 E. apply wp_ret. pose proof (sevs_regs i _ _ N1) as G.
    destruct (valid_kept i _ _ N1 Vt Vr) as (Vt' & Vr').
    destruct (uinv_opened x port None Hp Vt' Vr' Logic.I) as (U & Q & _ & _ & _ & _ & Lg).
    generalize dependent (udp_opened x port). intros z N2 U Q Lg. destruct U as (U1 & _ & U3 & _).
    destruct (sevs_queue i z y [] N2 U1 (proj1 U3) Q) as (q & Q1 & Q2). rewrite Lg in Q2. exists q. cbn [List.app] in *.
    destruct (dest_of_facts y r) as (_ & _ & _ & _ & F5 & F6 & _).
    destruct E as [-> |(-> & _)]; [|auto]. unfold queue. rewrite F5, F6. auto.
  - apply wp_udp_bind; auto. intros x s1 G _ E. apply wp_ret. rewrite E.
    assert (G' : forall a, 6 <= a -> regs x a = regs (sk i s) a).
    { intros a0 Ha. rewrite G. apply puts_other. change (len (to_be p)) with 2. unfold Sn_PORT. lia. }
    assert (Vt' : valid_size (tx_size x)) by (unfold tx_size in *; now rewrite G' by discriminate).
    assert (Vr' : valid_size (rx_size x)) by (unfold rx_size in *; now rewrite G' by discriminate).
    assert (C' : coherent dest (regs x)) by (apply (coherent_ext dest (regs (sk i s))); [intros a0 Ha; apply G'; lia|destruct C as [C|(? & E' & _)]; [exact C|discriminate E']]).
    destruct (uinv_opened x p dest K Vt' Vr' C') as (_ & Q & _ & _ & _ & _ & Lg). exists []. split; [exact Q|exact Lg].
Qed.
