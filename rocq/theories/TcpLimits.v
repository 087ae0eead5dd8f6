(** Where TCP calls end, wait for ever, or leave data behind. *)
From Verif Require Export TcpSession Progress.
From Verif Require Import Datasheet.

(** ** Sends that end *)
Section Ends.
  Context (e : env) (i : N).
  Hypothesis NF : no_faults e.
  Hypothesis Hi : i < 8.
  Hypothesis Clean : forall t ev, In ev (happens e t) -> ~ gives_up i ev.
  Context (W : nat).
  Hypothesis FT : soon e W (EvTransmit i 65535).
  Hypothesis FO : soon e W (EvSendOk i).

  Definition returns {A} (o : outcome A) (_ : sys) : Prop := exists r, o = Done r.
  Lemma send_data_returns fuel w s : opn (sk i s) -> (2 * W <= fuel)%nat ->
    wp e (tcp_send_data fuel (mkTcp (socket_new i)) w) returns s.
  Proof.
    intros H Hf. unfold tcp_send_data. cbn [t_socket]. cbv zeta.
    apply (wp_stage_walk e i opn NF (opn_ev e i Clean) opn_txm opn_regs); [exact Hi|exact H|]. intros s1 H1.
    apply (wp_send_opn e i NF Hi Clean); [exact H1|]. intros s2 H2.
    apply wp_try, (wait_terminates e i NF Hi Clean W FT FO); [|exact H2|exact Hf]. intros s3. cbv beta iota.
    apply wp_try, (wp_reset_interrupt e i NF Hi). intros z s4 _ _. cbv beta iota. apply wp_ret. eexists. reflexivity.
  Qed.
  Lemma tcp_send_returns fuel d s : sr (sk i s) < 256 -> (2 * W <= fuel)%nat ->
    wp e (tcp_send fuel (mkTcp (socket_new i)) d) returns s.
  Proof.
    intros L Hf. unfold tcp_send, tcp_socket_send. cbn [t_socket].
    apply wp_try, wp_try, (wp_tcp_is_connected e i NF Hi); [exact L|]. intros s1 N1. cbv beta iota.
    destruct (sr (sk i s1) =? SOCK_ESTABLISHED) eqn:Est; cbn [negb]; [|apply wp_ret; eexists; reflexivity].
    apply N.eqb_eq in Est. assert (O1 : opn (sk i s1)) by (left; exact Est).
    apply wp_try. unfold get_tx_free_size.
    apply (wp_read_reg_walk e i opn NF (opn_ev e i Clean)); [exact O1|]. intros got s2 _ O2. apply wp_ret. cbv beta iota.
    destruct (len d <? from_be got) eqn:Lt.
    - eapply wp_mono; [|apply send_data_returns; eassumption]. intros o s' (v & ->). destruct v; eexists; reflexivity.
    - apply wp_slice_to; intros Hl; [|apply N.ltb_ge in Lt; lia].
      eapply wp_mono; [|apply send_data_returns; eassumption]. intros o s' (v & ->). destruct v; eexists; reflexivity.
  Qed.
End Ends.

(** ** A send that never ends: the connection is dropped before the data is handed over *)
Definition dead (x : sock) : Prop := sr x = SOCK_CLOSED /\ tx_busy x = false /\ tx_okdue x = false /\ sendok x = false.
Lemma dead_step x ev : dead x -> dead (sock_step x ev).
Proof.
  intros (H & B & O & S). destruct (calm_step x ev B O) as (B' & O' & S' & _).
  split; [|split; [exact B'|split; [exact O'|congruence]]].
  destruct ev; unfold sock_step, transmit, rx_append; rewrite ?H, ?B, ?O; auto; exact H.
Qed.
Section Hangs.
  Context (e : env) (i : N).
  Hypothesis NF : no_faults e.
  Hypothesis Hi : i < 8.
  Definition loops {A} (o : outcome A) (_ : sys) : Prop := o = Looping.

  Lemma dead_ev t x ev : In ev (happens e t) -> ev_sock ev = Some i -> dead x -> dead (sock_step x ev).
  Proof. intros _ _. apply dead_step. Qed.
  Lemma dead_txm x m : dead x -> dead (set_txm x m). Proof. exact (fun H => H). Qed.
  Lemma dead_regs x m : dead x -> dead (set_regs x m). Proof. exact (fun H => H). Qed.
  Lemma dead_wait : forall fuel s, dead (sk i s) -> wp e (wait_send_ok fuel (socket_new i)) loops s.
  Proof.
    induction fuel as [|fuel IH]; intros s H; cbn [wait_send_ok]; [reflexivity|].
    apply wp_try, (wp_has_interrupt_exact e i NF Hi InSendOk 4); [reflexivity|reflexivity|].
    pose proof (walk_tick e i dead dead_ev s H) as H1. pose proof H1 as (_ & _ & _ & S). unfold sendok in S. rewrite S.
    eapply wp_mono; [|apply IH; exact H1]. intros o s' ->. reflexivity.
  Qed.
  Lemma dead_send_data fuel w s : dead (sk i s) -> wp e (tcp_send_data fuel (mkTcp (socket_new i)) w) loops s.
  Proof.
    intros H. unfold tcp_send_data. cbn [t_socket]. cbv zeta.
    apply (wp_stage_walk e i dead NF dead_ev dead_txm dead_regs); [exact Hi|exact H|]. intros s1 H1.
    apply wp_try, (wp_command e i NF Hi). intros x s2 N2 E2. cbv beta iota.
    assert (D2 : dead (sk i s2)).
    { assert (Dx : dead x). { destruct N2 as (l & _ & ->). revert H1. generalize (sk i s1). clear. induction l as [|ev l IH]; intros y H; [exact H|]. apply IH, dead_step, H. }
      rewrite E2, do_send. destruct Dx as (A & B). now rewrite A. }
    apply wp_try. eapply wp_mono; [|apply dead_wait; exact D2]. intros o s' ->. reflexivity.
  Qed.
  (** the status is read, then the connection goes *)
  Lemma tcp_send_hangs fuel d s b : ready (sk i s) -> sr (sk i s) = SOCK_ESTABLISHED ->
    happens e (s_tick s) = [] -> happens e (S (s_tick s)) = [EvDropped i b] ->
    wp e (tcp_send fuel (mkTcp (socket_new i)) d) loops s.
  Proof.
    intros (V & B & O & So & _ & _) Est E0 E1. unfold tcp_send, tcp_socket_send. cbn [t_socket].
    apply wp_try, wp_try. unfold tcp_is_connected. cbn [t_socket]. apply wp_try, (wp_get_status_exact e i NF Hi). cbv beta iota. apply wp_ret.
    assert (K1 : sk i (tick e s) = sk i s) by (unfold sk; cbn [s_chip tick]; rewrite E0; reflexivity).
    rewrite K1, Est. change (b2n (u8 SOCK_ESTABLISHED) =? status_u8 StEstablished) with true. cbn [negb].
    apply wp_try. unfold get_tx_free_size, read_reg, try_. cbn [bind zeros repeat].
    unfold wp at 1. cbn [run]. unfold bus_read. rewrite NF. cbn [length read_bytes bind snd fst run].
    set (s2 := end_call (tick e (tick e (end_call (tick e s))))). set (v := from_be _).
    assert (D1 : dead (sk i (tick e (end_call (tick e s))))).
    { unfold sk in *. cbn [s_chip tick end_call s_tick] in *. rewrite E1. unfold nsteps at 1. cbn [fold_left].
      destruct (nstep_sock i (nsteps (s_chip s) (happens e (s_tick s))) (EvDropped i b)) as [[_ ->]|[X _]]; [|now elim X].
      rewrite K1. cbn [sock_step]. rewrite Est. cbn [N.eqb]. change (SOCK_ESTABLISHED =? SOCK_ESTABLISHED) with true. cbn [orb].
      split; [reflexivity|]. split; [reflexivity|]. split; [reflexivity|].
      unfold sendok in *. sfields. rewrite testbit_lor; [exact So|now destruct b]. }
    assert (D2 : dead (sk i s2)) by exact (walk_tick e i dead dead_ev _ D1).
    destruct (len d <? v) eqn:Lt.
    - eapply wp_mono; [|apply dead_send_data; exact D2]. intros o s' ->. reflexivity.
    - apply wp_slice_to; intros Hl; [|apply N.ltb_ge in Lt; lia]. eapply wp_mono; [|apply dead_send_data; exact D2]. intros o s' ->. reflexivity.
  Qed.
End Hangs.

(** ** What a receive finds *)
(** every call but a receive on the connection only adds to what has been received, and the
    RECV flag is up if it did *)
Lemma step_rxrel e fuel h i r x1 acc del a s o a' out s' : tcp_session e fuel h i r x1 acc del a s ->
  leaves_open h o -> (forall b, o <> OpTcpReceive h b) ->
  run e (step fuel a o) s = (Done (a', out), s') -> (op_handle o = Some h -> out_berr out = None) ->
  rxrel (sk i s) (sk i s').
Proof.
  intros T K Nr R NB. destruct (session_facts _ _ _ _ _ _ _ _ _ _ T) as (Hi & I & L & S).
  assert (Dec : op_handle o = Some h \/ op_handle o <> Some h).
  { destruct (op_handle o) as [h'|]; [|right; discriminate]. destruct (Nat.eq_dec h' h) as [->|]; [left; reflexivity|right; congruence]. }
  destruct Dec as [E|E].
  - apply run_step_nofail in R; [|now apply NB]. pose proof (nofail_no_faults e) as NF.
    assert (Same : rxrel (sk i s) (sk i s)) by (apply rxrel_same; reflexivity).
    destruct o as [|h'| |h' r'|h' d|h' b|h'| |h' r'|h' pt|h' d|h' r' d|h' b|h'|h'| |q|h' pt|h' q]; cbn [op_handle] in E; try discriminate E; injection E as ->;
      cbn [step leaves_open] in *; try (now elim K); rewrite L in R; try (cbn [run] in R; injection R as _ _ <-; exact Same); [|now elim (Nr b)].
    apply run_bind_done in R as (res & s2 & R1 & R). cbn [run] in R. injection R as _ _ <-.
    refine (wp_run (nofail e) _ (fun o s' => forall v, o = Done v -> rxrel (sk i s) (sk i s')) s (Done res) s2 R1 _ res eq_refl).
    apply wp_tcp_send; auto; [apply S| |intros s3 N _ v _; now apply (rxrel_sevs i)|intros; discriminate].
    intros n s3 _ (l & (M & _) & _) v _. exact M.
  - assert (Hs : spares i (step fuel a o)). { eapply spares_step; eauto. intros ->. exact K. }
    pose proof (run_spares e i _ Hs s) as N. rewrite R in N. cbn [snd] in N. now apply (rxrel_sevs i).
Qed.
Lemma run_ops_rxrel e fuel h i r x1 : forall ops acc del a s a' outs s', tcp_session e fuel h i r x1 acc del a s ->
  Forall (leaves_open h) ops -> Forall (fun o => forall b, o <> OpTcpReceive h b) ops ->
  run e (run_ops fuel a ops) s = (Done (a', outs), s') -> no_bus_error h ops outs ->
  rxrel (sk i s) (sk i s') /\ exists acc' del', tcp_session e fuel h i r x1 acc' del' a' s'.
Proof.
  induction ops as [|o ops IH]; intros acc del a s a' outs s' T K Nr R NB; cbn [run_ops] in R.
  - injection R as <- <- <-. split; [apply rxrel_same; reflexivity|eauto].
  - apply run_bind_done in R as ([a3 o3] & s3 & R1 & R3). apply run_bind_done in R3 as ([a4 o4] & s4 & R3 & R4).
    cbn [run fst snd] in *. injection R4 as <- <- <-. inversion K as [|? ? K1 K2]; subst. inversion Nr as [|? ? Nr1 Nr2]; subst.
    cbn [no_bus_error] in NB. destruct NB as [NB1 NB2].
    pose proof (session_next _ _ _ _ _ _ _ _ _ _ _ _ _ _ T K1 R1 NB1) as T1.
    destruct (IH _ _ _ _ _ _ _ T1 K2 Nr2 R3 NB2) as (X & T2). split; [|exact T2].
    eapply rxrel_trans; [|exact X]. eapply step_rxrel; eauto.
Qed.

(** ** After the peer closed its side *)
Lemma close_wait_step x ev : sr x = SOCK_CLOSE_WAIT \/ sr x = SOCK_CLOSED ->
  sr (sock_step x ev) = SOCK_CLOSE_WAIT \/ sr (sock_step x ev) = SOCK_CLOSED.
Proof. intros H. ev_cases ev; auto; bsplit; destruct H as [H|H]; rewrite H in *; try discriminate; auto. Qed.
Section Closed.
  Context (e : env) (i : N).
  Hypothesis NF : no_faults e.
  Hypothesis Hi : i < 8.
  Lemma receive_closed fuel buf s : sr (sk i s) = SOCK_CLOSE_WAIT \/ sr (sk i s) = SOCK_CLOSED ->
    wp e (tcp_receive fuel (mkTcp (socket_new i)) buf)
      (fun o s' => o = Done (buf, Err (NbOther TNotConnected)) /\ sevs i (sk i s) (sk i s') /\
         (sr (sk i s') = SOCK_CLOSE_WAIT \/ sr (sk i s') = SOCK_CLOSED)) s.
  Proof.
    intros H. unfold tcp_receive, tcp_socket_receive.
    apply wp_bind, wp_try, (wp_tcp_is_connected e i NF Hi); [destruct H as [-> | ->]; reflexivity|]. intros s1 N1. cbv beta iota.
    assert (H1 : sr (sk i s1) = SOCK_CLOSE_WAIT \/ sr (sk i s1) = SOCK_CLOSED).
    { exact (sevs_inv i (fun y => sr y = SOCK_CLOSE_WAIT \/ sr y = SOCK_CLOSED) (fun z ev _ => close_wait_step z ev) _ _ N1 H). }
    replace (sr (sk i s1) =? SOCK_ESTABLISHED) with false by (destruct H1 as [-> | ->]; reflexivity). cbn [negb].
    apply wp_ret, wp_ret. cbn [fst snd]. auto.
  Qed.
End Closed.

(** ** Receives that find the RECV flag down *)
Section Flag_down.
  Context (e : env) (i : N).
  Hypothesis NF : no_faults e.
  Hypothesis Hi : i < 8.
  Lemma tick_quiet s : happens e (s_tick s) = [] -> s_chip (tick e s) = s_chip s.
  Proof. intros H. cbn [s_chip tick]. now rewrite H. Qed.
  Lemma receive_flag_down fuel buf s : sr (sk i s) = SOCK_ESTABLISHED -> recvf (sk i s) = false ->
    (forall t, (s_tick s <= t)%nat -> happens e t = []) ->
    wp e (tcp_receive fuel (mkTcp (socket_new i)) buf)
      (fun o s' => o = Done (buf, Ok 0) /\ s_chip s' = s_chip s /\ (s_tick s <= s_tick s')%nat) s.
  Proof.
    intros Est F Qt. unfold tcp_receive, tcp_socket_receive, tcp_is_connected. cbn [t_socket].
    apply wp_bind, wp_try, wp_try, (wp_get_status_exact e i NF Hi). cbv beta iota. apply wp_ret.
    pose proof (tick_quiet s (Qt _ (le_n _))) as C1. unfold sk in *. rewrite C1, Est.
    change (b2n (u8 SOCK_ESTABLISHED) =? status_u8 StEstablished) with true. cbn [negb].
    apply wp_try, (wp_has_interrupt_exact e i NF Hi InReceive 2); [reflexivity|reflexivity|].
    assert (C2 : s_chip (tick e (end_call (tick e s))) = s_chip s).
    { rewrite tick_quiet; [exact C1|]. apply Qt. cbn [s_tick tick end_call]. lia. }
    unfold sk. rewrite C2. unfold recvf in F. rewrite F. cbn [negb]. apply wp_ret, wp_ret. cbn [fst snd].
    split; [reflexivity|]. split; [exact C2|]. cbn [s_tick tick end_call]. lia.
  Qed.
End Flag_down.
Lemma receives_flag_down e i fuel h a : no_faults e -> i < 8 -> lookup h (handles a) = Some (HTcp (mkTcp (socket_new i))) ->
  forall bufs s, sr (sk i s) = SOCK_ESTABLISHED -> recvf (sk i s) = false ->
  (forall t, (s_tick s <= t)%nat -> happens e t = []) ->
  exists s', run e (run_ops fuel a (map (OpTcpReceive h) bufs)) s = (Done (a, map (fun b => RTcpReceive b (Ok 0)) bufs), s') /\
    s_chip s' = s_chip s.
Proof.
  intros NF Hi L. induction bufs as [|b bufs IH]; intros s Est F Qt; cbn [map run_ops]; [exists s; auto|].
  pose proof (receive_flag_down e i NF Hi fuel b s Est F Qt) as W. unfold wp in W.
  destruct (run e (tcp_receive fuel (mkTcp (socket_new i)) b) s) as [o s1] eqn:E. cbn [fst snd] in W. destruct W as (-> & C & T).
  destruct (IH s1) as (s' & R & C').
  - unfold sk in *. now rewrite C.
  - unfold sk in *. now rewrite C.
  - intros t Ht. apply Qt. lia.
  - exists s'. cbn [step]. rewrite L, run_bind, run_bind, E. cbn [fst snd run]. rewrite run_bind, R. cbn [fst snd run].
    split; [reflexivity|congruence].
Qed.

(** receives after the peer closed, however many *)
Lemma receives_closed e i fuel h a : no_faults e -> i < 8 -> lookup h (handles a) = Some (HTcp (mkTcp (socket_new i))) ->
  forall bufs s, sr (sk i s) = SOCK_CLOSE_WAIT \/ sr (sk i s) = SOCK_CLOSED ->
  exists s', run e (run_ops fuel a (map (OpTcpReceive h) bufs)) s =
      (Done (a, map (fun b => RTcpReceive b (Err (NbOther TNotConnected))) bufs), s') /\ sevs i (sk i s) (sk i s').
Proof.
  intros NF Hi L. induction bufs as [|b bufs IH]; intros s H; cbn [map run_ops]; [exists s; split; [reflexivity|apply sevs_refl]|].
  pose proof (receive_closed e i NF Hi fuel b s H) as W. unfold wp in W.
  destruct (run e (tcp_receive fuel (mkTcp (socket_new i)) b) s) as [o s1] eqn:E. cbn [fst snd] in W. destruct W as (-> & N & H1).
  destruct (IH s1 H1) as (s' & R & N').
  exists s'. cbn [step]. rewrite L, run_bind, run_bind, E. cbn [fst snd run]. rewrite run_bind, R. cbn [fst snd run].
  split; [reflexivity|eapply sevs_trans; eauto].
Qed.
Lemma script_quiet_after l T : Forall (fun p => (fst p < T)%nat) l -> forall t, (T <= t)%nat ->
  flat_map (fun p : nat * list nevent => if Nat.eqb (fst p) t then snd p else []) l = [].
Proof.
  intros H t Ht. induction H as [|p l Hp _ IH]; cbn [flat_map]; [reflexivity|].
  destruct (Nat.eqb_spec (fst p) t); [lia|exact IH].
Qed.
