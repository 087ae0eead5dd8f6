(** C71-C73: where the bytes that leave a socket come from, in whole programs whose calls may
    meet bus errors anywhere.

    [gives i a o oc w] and [gave] (PipeSession.v): the bytes [w] that the call [o], made in the
    application state [a], contributes to socket [i].  A sending call on a handle of that socket
    contributes a prefix of its argument, and the reported one if it succeeds; all other calls
    contribute nothing.  [trace]: the calls of a program, as [run_ops] makes them
    ([trace_of_run], [run_of_trace]).

    Hypothesis of all three: no two-byte register write is cut after its first byte
    ([whole_pairs]).  One-byte writes and data writes may fail at any point, before or after they
    took effect ([Some (2, _)] is an error reported after a one- or two-byte write was complete). *)
From Verif Require Import Dotted.
From Verif Require Import Cases PipeSession.
From Verif Require Import FrameFacts HistoryFacts TcpSession Datasheet RawSession Properties_stream Properties_udp Properties_raw Properties_recovery.

(** the packets lie in the contributed bytes, one after the other: [g0] comes before the first,
    [gs] after each of them *)
Definition laid (g0 : list byte) (l : list packet) (gs : list (list byte)) : list byte :=
  g0 ++ concat (map (fun pg => p_data (fst pg) ++ snd pg) (combine l gs)).
Lemma laid_length g0 l gs : length gs = length l -> (length (concat (map p_data l)) <= length (laid g0 l gs))%nat.
Proof.
  intros H. unfold laid. rewrite app_length. cut (length (concat (map p_data l)) <= length (concat (map (fun pg => p_data (fst pg) ++ snd pg) (combine l gs))))%nat; [lia|].
  revert gs H. induction l as [|p l IH]; intros [|g gs] H; try discriminate H; cbn; [lia|]. injection H as H.
  rewrite !app_length. specialize (IH gs H). lia.
Qed.
Lemma combine_snoc {A B} : forall (l : list A) (l' : list B) a b, length l = length l' -> combine (l ++ [a]) (l' ++ [b]) = combine l l' ++ [(a, b)].
Proof. induction l as [|x l IH]; intros [|y l'] a b H; try discriminate H; cbn; [reflexivity|]. f_equal. apply IH. now injection H. Qed.
Lemma laid_snoc g0 l p gs g : length gs = length l -> laid g0 (l ++ [p]) (gs ++ [g]) = laid g0 l gs ++ p_data p ++ g.
Proof.
  intros H. unfold laid. rewrite combine_snoc by auto. rewrite map_app, concat_app. cbn [map concat fst snd].
  now rewrite app_nil_r, !app_assoc.
Qed.
Lemma laid_gap g0 l gs g : length gs = length l -> exists g0' gs', length gs' = length l /\ laid g0 l gs ++ g = laid g0' l gs'.
Proof.
  intros L. destruct l as [|p l _] using rev_ind.
  - destruct gs; [|discriminate L]. exists (g0 ++ g), []. split; [reflexivity|]. unfold laid. cbn. now rewrite !app_nil_r.
  - destruct gs as [|q gs _] using rev_ind; [rewrite app_length in L; cbn in L; lia|].
    rewrite !app_length in L. cbn in L. assert (L' : length gs = length l) by lia.
    exists g0, (gs ++ [q ++ g]). split; [rewrite !app_length; cbn; lia|]. now rewrite !laid_snoc, <- !app_assoc by exact L'.
Qed.
Lemma drawn_laid ps D : drawn true ps D -> forall l, ps = map p_data l -> exists g0 gs, length gs = length l /\ D = laid g0 l gs.
Proof.
  induction 1 as [|ps d p Dr IH|ps d g E Dr IH]; intros l El.
  - destruct l; [|discriminate]. exists [], []. auto.
  - destruct l as [|q l' _] using rev_ind; [destruct ps; discriminate|].
    rewrite map_app in El. apply app_inj_tail in El as (E1 & ->). destruct (IH l' E1) as (g0 & gs & L & ->).
    exists g0, (gs ++ [[]]). split; [rewrite !app_length; cbn; lia|]. now rewrite laid_snoc, app_nil_r by exact L.
  - destruct (IH l El) as (g0 & gs & L & ->). now apply laid_gap.
Qed.
Lemma pipe_laid S0 C x : pipe true S0 C x -> exists l g0 gs, sent x = S0 ++ l /\ length gs = length l /\ C = laid g0 l gs.
Proof.
  intros (_ & _ & l & D & g & E & Dr & -> & _). destruct (drawn_laid _ _ Dr l eq_refl) as (g0 & gs & L & ->).
  destruct (laid_gap g0 l gs g L) as (g0' & gs' & L' & ->). exists l, g0', gs'. auto.
Qed.
Lemma pipe_joined S0 C x : pipe false S0 C x -> exists l rest, sent x = S0 ++ l /\ C = concat (map p_data l) ++ rest.
Proof. intros (_ & _ & l & D & g & E & Dr & -> & _). rewrite (drawn_false _ _ Dr). eauto. Qed.

(** C71 (partial: no two-byte register write is cut after its first byte).  In every program
    started with [initialize], whatever the network does and whichever bus transfers fail, every
    packet that leaves socket [i] consists of bytes passed to its sends, in their order: the
    packets lie one after the other in the bytes contributed by the calls made so far. *)
Theorem C71_origin_partial e assertion ho m s00 d s0 fuel tr a s i :
  run e (initialize_with_host assertion ho m) s00 = (Done (Ok d), s0) -> whole_pairs e -> i < 8 ->
  trace e fuel (mkApp d [] 0) s0 tr a s -> Forall (fun c => no_raw_pointer (snd (fst c))) tr ->
  exists ws l g0 gs, Forall2 (gave i) tr ws /\ sent (sk i s) = sent (sk i s0) ++ l /\
    length gs = length l /\ concat ws = laid g0 l gs.
Proof.
  intros R WP Hi T NR. destruct (init_start e assertion ho m s00 d s0 i R) as (I & Sh & V).
  destruct (trace_grow (sent (sk i s0)) e i fuel Hi WP tr _ _ _ _ T I NR [] (pipe_start true _ Sh V (or_introl eq_refl))) as (ws & F & P).
  destruct (pipe_laid _ _ _ P) as (l & g0 & gs & E & L & EC). exists ws, l, g0, gs. auto.
Qed.
Print Assumptions C71_origin_partial.

(** and at every moment of a further call, whichever way it ends *)
Theorem C71_origin_running_partial e assertion ho m s00 d s0 fuel tr a s o i :
  run e (initialize_with_host assertion ho m) s00 = (Done (Ok d), s0) -> whole_pairs e -> i < 8 ->
  trace e fuel (mkApp d [] 0) s0 tr a s -> Forall (fun c => no_raw_pointer (snd (fst c))) tr -> no_raw_pointer o ->
  forall oc s', run e (step fuel a o) s = (oc, s') ->
  exists ws w l g0 gs, Forall2 (gave i) tr ws /\ gives i a o oc w /\ sent (sk i s') = sent (sk i s0) ++ l /\
    length gs = length l /\ concat ws ++ w = laid g0 l gs.
Proof.
  intros R WP Hi T NR NR1 oc s' R1. destruct (init_start e assertion ho m s00 d s0 i R) as (I & Sh & V).
  destruct (trace_grow (sent (sk i s0)) e i fuel Hi WP tr _ _ _ _ T I NR [] (pipe_start true _ Sh V (or_introl eq_refl))) as (ws & F & P).
  pose proof (wp_run e _ _ s _ _ R1 (step_grow _ e i _ fuel a o s Hi WP (trace_pool _ _ _ _ _ _ _ T I) NR1 P)) as (w & G & P1).
  destruct (pipe_laid _ _ _ P1) as (l & g0 & gs & E & L & EC). exists ws, w, l, g0, gs. auto.
Qed.
Print Assumptions C71_origin_running_partial.

(** *** Concrete programs *)
Definition op_data (o : op) : list byte :=
  match o with OpTcpSend _ d | OpUdpSend _ d | OpUdpSendTo _ _ d => d | _ => [] end.
Lemma gave_le i c w : gave i c w -> (length w <= length (op_data (snd (fst c))))%nat.
Proof.
  intros (a' & G). destruct c as [[a o] r]. cbn [fst snd] in *.
  assert (P : forall d, prefix w d -> (length w <= length d)%nat) by (intros d (t & ->); rewrite app_length; lia).
  destruct o; cbn [gives op_data] in *; try (rewrite G; cbn; lia);
    destruct G as ([(_ & G)| ->] & _); auto; cbn; lia.
Qed.
Lemma gave_all_le i tr ws : Forall2 (gave i) tr ws -> (length (concat ws) <= length (concat (map (fun c => op_data (snd (fst c))) tr)))%nat.
Proof. induction 1 as [|c w tr ws G _ IH]; cbn; [lia|]. rewrite !app_length. apply gave_le in G. lia. Qed.

Definition net_mode : Mode := mkMode WolIgnore PingRespond CtEthernet ArpCache.
Definition ready (e : env) : sys := snd (run e (initialize_with_host false Dhcp net_mode) sys0).
Definition dev : DeviceState := mkDS Dhcp 255.
Definition udp_calls : list op :=
  [OpUdpSocket; OpUdpConnect 0 (V4 peer); OpUdpSend 0 (repeat x61 255); OpUdpSend 0 [x62; x62]; OpUdpSend 0 [x63]].
Definition udp_done : History.app := mkApp (mkDS Dhcp 254) [(0%nat, HUdp (mkUdp (socket_new 0) (Some peer) 49849))] 1.

(** the bus fails between the two bytes of the write pointer: the next send puts 256 bytes of
    old buffer memory on the wire *)
Theorem C71_origin_refuted : exists d s0 tr a s, let e := with_fault 29 1 prompt in
  run e (initialize_with_host false Dhcp net_mode) sys0 = (Done (Ok d), s0) /\ trace e 30 (mkApp d [] 0) s0 tr a s /\
  map (fun c => snd (fst c)) tr = udp_calls /\
  map snd tr = [RUdpSocket (Ok 0%nat); RUdpUnit (Ok tt); RUdpSend (Ok tt); RUdpSend (Err (NbOther (UOther 7))); RUdpSend (Ok tt)] /\
  forall ws, Forall2 (gave 0) tr ws ->
    (length (concat ws) < length (concat (map p_data (sent (socks (s_chip s) 0)))))%nat.
Proof.
  assert (R0 : run (with_fault 29 1 prompt) (initialize_with_host false Dhcp net_mode) sys0 = (Done (Ok dev), ready (with_fault 29 1 prompt)))
    by (apply run_snd; vm_compute; reflexivity).
  assert (R1 : fst (run (with_fault 29 1 prompt) (run_ops 30 (mkApp dev [] 0) udp_calls) (ready (with_fault 29 1 prompt))) =
    Done (udp_done, [RUdpSocket (Ok 0%nat); RUdpUnit (Ok tt); RUdpSend (Ok tt); RUdpSend (Err (NbOther (UOther 7))); RUdpSend (Ok tt)])) by (vm_compute; reflexivity).
  apply run_snd in R1. destruct (trace_of_run _ _ _ _ _ _ _ _ R1) as (tr & T & E1 & E2).
  eexists _, _, tr, _, _. cbv zeta. split; [exact R0|]. split; [exact T|]. split; [exact E1|]. split; [exact E2|].
  intros ws F. apply gave_all_le in F. rewrite <- (map_map (fun c => snd (fst c)) op_data), E1 in F.
  eapply Nat.le_lt_trans; [exact F|]. apply Nat.ltb_lt. vm_compute. reflexivity.
Qed.
Print Assumptions C71_origin_refuted.

(** the bus fails at the SEND command of the second datagram: its bytes lead the third *)
Example C71_case : exists d s0 tr a s, let e := with_fault 30 0 prompt in
  run e (initialize_with_host false Dhcp net_mode) sys0 = (Done (Ok d), s0) /\ whole_pairs e /\ trace e 30 (mkApp d [] 0) s0 tr a s /\
  Forall (fun c => no_raw_pointer (snd (fst c))) tr /\
  map (fun c => snd (fst c)) tr = udp_calls /\
  map snd tr = [RUdpSocket (Ok 0%nat); RUdpUnit (Ok tt); RUdpSend (Ok tt); RUdpSend (Err (NbOther (UOther 7))); RUdpSend (Ok tt)] /\
  map p_data (sent (socks (s_chip s) 0)) = [repeat x61 255; [x62; x62; x63]].
Proof.
  assert (R0 : run (with_fault 30 0 prompt) (initialize_with_host false Dhcp net_mode) sys0 = (Done (Ok dev), ready (with_fault 30 0 prompt)))
    by (apply run_snd; vm_compute; reflexivity).
  assert (R1 : fst (run (with_fault 30 0 prompt) (run_ops 30 (mkApp dev [] 0) udp_calls) (ready (with_fault 30 0 prompt))) =
    Done (udp_done, [RUdpSocket (Ok 0%nat); RUdpUnit (Ok tt); RUdpSend (Ok tt); RUdpSend (Err (NbOther (UOther 7))); RUdpSend (Ok tt)])) by (vm_compute; reflexivity).
  apply run_snd in R1. destruct (trace_of_run _ _ _ _ _ _ _ _ R1) as (tr & T & E1 & E2).
  eexists _, _, tr, _, _. cbv zeta. split; [exact R0|]. split; [intros j er; cbn; destruct (Nat.eqb j 30); discriminate|].
  split; [exact T|]. split.
  { apply Forall_forall. intros c Hc. apply (in_map (fun c => snd (fst c))) in Hc. rewrite E1 in Hc.
    intros h p E. rewrite E in Hc. cbn in Hc. intuition discriminate. }
  split; [exact E1|]. split; [exact E2|]. vm_compute. reflexivity.
Qed.

(** ** C72 *)
(** C72 (partial: no two-byte register write is cut after its first byte).  From a successful
    connect on, while the handle is used for sends and receives only, whatever happens on other
    handles and whichever bus transfers fail: what has left the socket is a prefix of the bytes
    contributed by the sends, in order, with nothing skipped or repeated, all of it in packets
    to the peer. *)
Definition sends_or_receives (h : nat) (o : op) : Prop :=
  op_handle o = Some h -> (exists d, o = OpTcpSend h d) \/ (exists b, o = OpTcpReceive h b).
Lemma stream_pipe e fuel ho s00 ops0 a0 outs0 s0 h t i r s1 tr a s :
  whole_pairs e ->
  run e (run_ops fuel (app_new ho) ops0) s00 = (Done (a0, outs0), s0) ->
  lookup h (handles a0) = Some (HTcp t) -> index (t_socket t) = i ->
  valid_size (tx_size (sk i s0)) -> valid_size (rx_size (sk i s0)) -> a_port r < 65536 ->
  run e (step fuel a0 (OpTcpConnect h (V4 r))) s0 = (Done (a0, RTcpConnect (Ok tt)), s1) ->
  trace e fuel a0 s1 tr a s -> Forall (fun c => sends_or_receives h (snd (fst c))) tr ->
  i < 8 /\ pool_inv a /\ lookup h (handles a) = Some (HTcp (mkTcp (socket_new i))) /\
  aimed (sent (sk i s1)) i r (sk i s) /\
  exists ws, Forall2 (gave i) tr ws /\ pipe false (sent (sk i s1)) (concat ws) (sk i s).
Proof.
  intros WP R0 L Ei Vt Vr Hr R1 T K. pose proof (run_ops_inv e fuel ops0 _ _ _ _ _ (pool_inv_new ho) R0) as I.
  destruct (pi_lookup _ _ _ I L) as (j & Hj & Ej & _). cbn [handle_socket] in Ej. rewrite Ej in Ei. cbn [index socket_new] in Ei. subst j.
  destruct t as [t']. cbn [t_socket] in Ej. subst t'.
  destruct (connect_pipe e fuel h i r a0 s0 s1 Hj L Vt Vr Hr R1) as (P & Tw).
  destruct (trace_grow_tcp _ e i fuel h Hj WP tr _ _ _ _ T I L K [] P) as (L2 & ws & F & P2).
  split; [exact Hj|]. split; [exact (trace_pool _ _ _ _ _ _ _ T I)|]. split; [exact L2|]. split.
  - apply (trace_aim _ e i r fuel h Hj tr _ _ _ _ T I L K). exists []. rewrite app_nil_r. auto.
  - exists ws. auto.
Qed.
Theorem C72_stream_partial e fuel ho s00 ops0 a0 outs0 s0 h t i r s1 tr a s :
  whole_pairs e ->
  run e (run_ops fuel (app_new ho) ops0) s00 = (Done (a0, outs0), s0) ->
  lookup h (handles a0) = Some (HTcp t) -> index (t_socket t) = i ->
  valid_size (tx_size (socks (s_chip s0) i)) -> valid_size (rx_size (socks (s_chip s0) i)) -> a_port r < 65536 ->
  run e (step fuel a0 (OpTcpConnect h (V4 r))) s0 = (Done (a0, RTcpConnect (Ok tt)), s1) ->
  trace e fuel a0 s1 tr a s -> Forall (fun c => sends_or_receives h (snd (fst c))) tr ->
  exists ws l rest, Forall2 (gave i) tr ws /\ sent (socks (s_chip s) i) = sent (socks (s_chip s1) i) ++ l /\
    concat ws = concat (map p_data l) ++ rest /\
    Forall (fun p => p_sport p = 49849 + i /\ p_ip p = dotted (a_ip r) /\ p_dport p = a_port r) l.
Proof.
  intros WP R0 L Ei Vt Vr Hr R1 T K.
  destruct (stream_pipe e fuel ho s00 ops0 a0 outs0 s0 h t i r s1 tr a s WP R0 L Ei Vt Vr Hr R1 T K) as (_ & _ & _ & (l' & A1 & A2 & _) & ws & F & P).
  destruct (pipe_joined _ _ _ P) as (l & rest & E & EC). rewrite E in A1. apply app_inv_head in A1 as <-.
  exists ws, l, rest. auto.
Qed.
Print Assumptions C72_stream_partial.

(** and at every moment of a further call of any kind except a connect on the handle, whichever
    way it ends *)
Theorem C72_stream_running_partial e fuel ho s00 ops0 a0 outs0 s0 h t i r s1 tr a s o :
  whole_pairs e ->
  run e (run_ops fuel (app_new ho) ops0) s00 = (Done (a0, outs0), s0) ->
  lookup h (handles a0) = Some (HTcp t) -> index (t_socket t) = i ->
  valid_size (tx_size (socks (s_chip s0) i)) -> valid_size (rx_size (socks (s_chip s0) i)) -> a_port r < 65536 ->
  run e (step fuel a0 (OpTcpConnect h (V4 r))) s0 = (Done (a0, RTcpConnect (Ok tt)), s1) ->
  trace e fuel a0 s1 tr a s -> Forall (fun c => sends_or_receives h (snd (fst c))) tr ->
  (forall r', o <> OpTcpConnect h r') ->
  forall oc s', run e (step fuel a o) s = (oc, s') ->
  exists ws w l rest, Forall2 (gave i) tr ws /\ gives i a o oc w /\ sent (socks (s_chip s') i) = sent (socks (s_chip s1) i) ++ l /\
    concat ws ++ w = concat (map p_data l) ++ rest /\
    Forall (fun p => p_sport p = 49849 + i /\ p_ip p = dotted (a_ip r) /\ p_dport p = a_port r) l.
Proof.
  intros WP R0 L Ei Vt Vr Hr R1 T K NC oc s' R2.
  destruct (stream_pipe e fuel ho s00 ops0 a0 outs0 s0 h t i r s1 tr a s WP R0 L Ei Vt Vr Hr R1 T K) as (Hi & I & L2 & A & ws & F & P).
  pose proof (wp_run e _ _ s _ _ R2 (step_grow_tcp _ e i _ fuel a o s h Hi WP I L2 NC P)) as (w & G & P1).
  pose proof (run_aimed _ e i r _ s (step_aim i fuel a o h Hi I L2 NC) A) as (l' & A1 & A2 & _). rewrite R2 in A1. cbn [snd] in A1.
  destruct (pipe_joined _ _ _ P1) as (l & rest & E & EC). rewrite E in A1. apply app_inv_head in A1 as <-.
  exists ws, w, l, rest. auto.
Qed.
Print Assumptions C72_stream_running_partial.

Definition tcp_calls : list op := [OpTcpSend 0 (repeat x61 255); OpTcpSend 0 [x62; x62]; OpTcpSend 0 [x63]].
Definition tcp_results : list out := [RTcpSend (Ok 255); RTcpSend (Err (NbOther (TOther 7))); RTcpSend (Ok 1)].
Lemma tcp_example j k : fst (run (with_fault j k greedy) (step 30 app1 (OpTcpConnect 0 (V4 peer))) sys0) = Done (app1, RTcpConnect (Ok tt)) ->
  fst (run (with_fault j k greedy) (run_ops 30 app1 tcp_calls) (connected (with_fault j k greedy))) = Done (app1, tcp_results) ->
  exists tr, run (with_fault j k greedy) (run_ops 30 (app_new Dhcp) [OpTcpSocket]) sys0 = (Done (app1, [RTcpSocket (Ok 0%nat)]), sys0) /\
    run (with_fault j k greedy) (step 30 app1 (OpTcpConnect 0 (V4 peer))) sys0 = (Done (app1, RTcpConnect (Ok tt)), connected (with_fault j k greedy)) /\
    trace (with_fault j k greedy) 30 app1 (connected (with_fault j k greedy)) tr app1 (afterwards (with_fault j k greedy) tcp_calls) /\
    map (fun c => snd (fst c)) tr = tcp_calls /\ map snd tr = tcp_results /\ Forall (fun c => sends_or_receives 0 (snd (fst c))) tr.
Proof.
  intros R0 R1. apply run_snd in R1. destruct (trace_of_run _ _ _ _ _ _ _ _ R1) as (tr & T & E1 & E2). exists tr.
  split; [reflexivity|]. split; [now apply run_snd|]. split; [exact T|]. split; [exact E1|]. split; [exact E2|].
  apply Forall_forall. intros c Hc. apply (in_map (fun c => snd (fst c))) in Hc. rewrite E1 in Hc.
  intros _. left. cbn [tcp_calls In] in Hc. destruct Hc as [<-|[<-|[<-|[]]]]; eauto.
Qed.
(** the bus fails between the two bytes of the write pointer: the next send puts 256 bytes of
    old buffer memory into the stream *)
Theorem C72_stream_refuted : exists tr s1 s, let e := with_fault 23 1 greedy in
  run e (run_ops 30 (app_new Dhcp) [OpTcpSocket]) sys0 = (Done (app1, [RTcpSocket (Ok 0%nat)]), sys0) /\
  run e (step 30 app1 (OpTcpConnect 0 (V4 peer))) sys0 = (Done (app1, RTcpConnect (Ok tt)), s1) /\
  trace e 30 app1 s1 tr app1 s /\ map (fun c => snd (fst c)) tr = tcp_calls /\ map snd tr = tcp_results /\
  forall ws, Forall2 (gave 0) tr ws -> (length (concat ws) < length (concat (map p_data (sent (socks (s_chip s) 0)))))%nat.
Proof.
  destruct (tcp_example 23 1 ltac:(vm_compute; reflexivity) ltac:(vm_compute; reflexivity)) as (tr & R0 & R1 & T & E1 & E2 & _).
  eexists tr, _, _. cbv zeta. do 3 (split; [eassumption|]). split; [exact E1|]. split; [exact E2|].
  intros ws F. apply gave_all_le in F. rewrite <- (map_map (fun c => snd (fst c)) op_data), E1 in F.
  eapply Nat.le_lt_trans; [exact F|]. apply Nat.ltb_lt. vm_compute. reflexivity.
Qed.
Print Assumptions C72_stream_refuted.
(** the bus fails at a SEND command: the bytes go out with those of the next send *)
Example C72_case : exists tr s1 s, let e := with_fault 24 0 greedy in
  whole_pairs e /\
  run e (run_ops 30 (app_new Dhcp) [OpTcpSocket]) sys0 = (Done (app1, [RTcpSocket (Ok 0%nat)]), sys0) /\
  lookup 0 (handles app1) = Some (HTcp (mkTcp (socket_new 0))) /\
  valid_size (tx_size (socks (s_chip sys0) 0)) /\ valid_size (rx_size (socks (s_chip sys0) 0)) /\
  run e (step 30 app1 (OpTcpConnect 0 (V4 peer))) sys0 = (Done (app1, RTcpConnect (Ok tt)), s1) /\
  trace e 30 app1 s1 tr app1 s /\ map (fun c => snd (fst c)) tr = tcp_calls /\ map snd tr = tcp_results /\
  Forall (fun c => sends_or_receives 0 (snd (fst c))) tr /\
  map p_data (sent (socks (s_chip s) 0)) = [repeat x61 255; [x62; x62; x63]].
Proof.
  destruct (tcp_example 24 0 ltac:(vm_compute; reflexivity) ltac:(vm_compute; reflexivity)) as (tr & R0 & R1 & T & E1 & E2 & K).
  eexists tr, _, _. cbv zeta. split; [intros j er; cbn; destruct (Nat.eqb j 24); discriminate|].
  split; [exact R0|]. split; [reflexivity|]. split; [right; left; vm_compute; reflexivity|]. split; [right; left; vm_compute; reflexivity|].
  split; [exact R1|]. split; [exact T|]. split; [exact E1|]. split; [exact E2|]. split; [exact K|]. vm_compute. reflexivity.
Qed.

(** ** C73 *)
(** C73 (partial: no two-byte register write is cut after its first byte).  In every MACRAW
    program, whatever the network does and whichever bus transfers fail, what leaves the chip
    consists of bytes of written frames, in order; an oversized frame contributes nothing. *)
Theorem C73_raw_origin_partial e mc s00 d s0 fuel tr s :
  run e (initialize_macraw mc) s00 = (Done (Ok d), s0) -> whole_pairs e ->
  raw_trace e fuel d s0 tr s ->
  exists ws l g0 gs, Forall2 (fun c w => raw_gives (fst c) (Done (snd c)) w) tr ws /\
    sent (socks (s_chip s) 0) = sent (socks (s_chip s0) 0) ++ l /\
    length gs = length l /\ concat ws = laid g0 l gs.
Proof.
  intros R WP T. destruct (raw_start _ _ _ _ _ R) as (-> & P).
  destruct (raw_trace_grow _ e fuel WP tr _ _ T [] P) as (ws & F & P1).
  destruct (pipe_laid _ _ _ P1) as (l & g0 & gs & E & L & EC). exists ws, l, g0, gs. auto.
Qed.
Print Assumptions C73_raw_origin_partial.

Lemma raw_trace_of_run e fuel d : forall ops s outs s', run e (run_raw fuel d ops) s = (Done outs, s') ->
  exists tr, raw_trace e fuel d s tr s' /\ map fst tr = ops /\ map snd tr = outs.
Proof.
  induction ops as [|o ops IH]; intros s outs s' R; cbn [run_raw] in R.
  - injection R as <- <-. exists []. repeat split. constructor.
  - apply run_bind_done in R as (o1 & s1 & R1 & R). apply run_bind_done in R as (o2 & s2 & R2 & R).
    cbn [run] in *. injection R as <- <-. destruct (IH _ _ _ R2) as (tr & T & E1 & E2).
    exists ((o, o1) :: tr). cbn [map fst snd]. rewrite E1, E2. repeat split. econstructor; eassumption.
Qed.
Definition raw_data (o : rawop) : list byte := match o with RwWrite f => f | _ => [] end.
Lemma raw_gives_le tr ws : Forall2 (fun (c : rawop * rawout) w => raw_gives (fst c) (Done (snd c)) w) tr ws ->
  (length (concat ws) <= length (concat (map (fun c => raw_data (fst c)) tr)))%nat.
Proof.
  induction 1 as [|[o r] w tr ws G _ IH]; cbn; [lia|]. rewrite !app_length. cbn [fst snd] in *.
  destruct o; cbn [raw_gives raw_data] in *; try (rewrite G; cbn; lia). destruct G as ([-> | ->] & _); cbn; lia.
Qed.
Definition raw_calls : list rawop := [RwWrite (repeat x61 255); RwWrite [x62; x62]; RwWrite [x63]].
Definition raw_results : list rawout := [RwSent (Ok 255); RwSent (Err 7); RwSent (Ok 1)].
Notation raw_ready e := (snd (run e (initialize_macraw my_mac) sys0)).
(** torn write pointer: the next frame has 256 bytes of old buffer memory in front *)
Theorem C73_raw_origin_refuted : exists d s0 tr s, let e := with_fault 31 1 sending_net in
  run e (initialize_macraw my_mac) sys0 = (Done (Ok d), s0) /\ raw_trace e 30 d s0 tr s /\
  map fst tr = raw_calls /\ map snd tr = raw_results /\
  forall ws, Forall2 (fun c w => raw_gives (fst c) (Done (snd c)) w) tr ws ->
    (length (concat ws) < length (concat (map p_data (sent (socks (s_chip s) 0)))))%nat.
Proof.
  assert (R0 : run (with_fault 31 1 sending_net) (initialize_macraw my_mac) sys0 = (Done (Ok raw0), raw_ready (with_fault 31 1 sending_net)))
    by (apply run_snd; vm_compute; reflexivity).
  assert (R1 : fst (run (with_fault 31 1 sending_net) (run_raw 30 raw0 raw_calls) (raw_ready (with_fault 31 1 sending_net))) = Done raw_results) by (vm_compute; reflexivity).
  apply run_snd in R1. destruct (raw_trace_of_run _ _ _ _ _ _ _ R1) as (tr & T & E1 & E2).
  eexists _, _, tr, _. cbv zeta. split; [exact R0|]. split; [exact T|]. split; [exact E1|]. split; [exact E2|].
  intros ws F. apply raw_gives_le in F. rewrite <- (map_map fst raw_data), E1 in F.
  eapply Nat.le_lt_trans; [exact F|]. apply Nat.ltb_lt. vm_compute. reflexivity.
Qed.
Print Assumptions C73_raw_origin_refuted.
Example C73_case : exists d s0 tr s, let e := with_fault 32 0 sending_net in
  run e (initialize_macraw my_mac) sys0 = (Done (Ok d), s0) /\ whole_pairs e /\ raw_trace e 30 d s0 tr s /\
  map fst tr = raw_calls /\ map snd tr = raw_results /\
  map p_data (sent (socks (s_chip s) 0)) = [repeat x61 255; [x62; x62; x63]].
Proof.
  assert (R0 : run (with_fault 32 0 sending_net) (initialize_macraw my_mac) sys0 = (Done (Ok raw0), raw_ready (with_fault 32 0 sending_net)))
    by (apply run_snd; vm_compute; reflexivity).
  assert (R1 : fst (run (with_fault 32 0 sending_net) (run_raw 30 raw0 raw_calls) (raw_ready (with_fault 32 0 sending_net))) = Done raw_results) by (vm_compute; reflexivity).
  apply run_snd in R1. destruct (raw_trace_of_run _ _ _ _ _ _ _ R1) as (tr & T & E1 & E2).
  eexists _, _, tr, _. cbv zeta. split; [exact R0|]. split; [intros j er; cbn; destruct (Nat.eqb j 32); discriminate|].
  split; [exact T|]. split; [exact E1|]. split; [exact E2|]. vm_compute. reflexivity.
Qed.
