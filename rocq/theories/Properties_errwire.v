(** C90: where the bytes come from that leave the chip, in whole programs over the four SPI wires
    whose transactions may fail. *)
From Verif Require Import Dotted.
From Verif Require Import Cases PipeSession System Remembered.
From Verif Require Import FrameFacts HistoryFacts TcpSession Datasheet SpiChip Properties_pipe.

(** no transaction ends between the two bytes of a register pair: after the three header bytes and
    one more.  They may fail anywhere else. *)
Definition whole_transfers (e : env) : Prop := forall j er, fails e j <> Some (4%nat, er).
Lemma whole_iff e : whole_transfers e -> whole_pairs (four_wire_env e).
Proof.
  intros H j er E. unfold four_wire_env in E. cbn [fails] in E. destruct (fails e j) as [[b err]|] eqn:F; [|discriminate E].
  injection E as E _. apply (H j err). rewrite F. do 2 f_equal. lia.
Qed.
(** the bytes [w] that one call contributes to the stream of handle [h]: only sends on it do, a
    prefix of their argument, and what they report if they report success *)
Definition part (h : nat) (c : op * out) (w : list byte) : Prop :=
  match c with
  | (OpTcpSend k d, r) =>
      if Nat.eqb k h then (exists t, d = w ++ t) /\ forall n, r = RTcpSend (Ok n) -> w = take n d /\ len w = n else w = []
  | _ => w = []
  end.

Lemma step_keeps_tcp e fuel a o s a1 r s1 h t : run e (step fuel a o) s = (Done (a1, r), s1) -> sends_or_receives h o ->
  lookup h (handles a) = Some (HTcp t) -> lookup h (handles a1) = Some (HTcp t).
Proof.
  intros R K L. destruct (op_handle o) as [k|] eqn:E.
  - destruct (Nat.eq_dec k h) as [->|N]; [|eapply step_lookup; [exact R|exact L|congruence]].
    destruct (K E) as [[d ->]|[b ->]]; cbn [step] in R; rewrite L in R; apply run_bind_done in R as (q & s2 & _ & R); injection R as <- _ _; exact L.
  - eapply step_lookup; [exact R|exact L|congruence].
Qed.
Lemma parts e fuel h i : forall tr a s a' s', trace e fuel a s tr a' s' -> pool_inv a -> lookup h (handles a) = Some (HTcp (mkTcp (socket_new i))) ->
  Forall (fun c => sends_or_receives h (snd (fst c))) tr -> forall ws, Forall2 (gave i) tr ws ->
  Forall2 (part h) (combine (map (fun c => snd (fst c)) tr) (map snd tr)) ws.
Proof.
  intros tr a s a' s' T. induction T as [|a s o a1 r s1 tr a' s' R T IH]; intros I L K ws F; inversion F as [|? w ? ws' G F' E1 E2]; subst; cbn [map combine fst snd]; [constructor|].
  inversion K as [|? ? K1 K2]; subst. cbn [fst snd] in K1. constructor.
  2: { apply IH; [eapply run_step_inv; eauto|eapply step_keeps_tcp; eauto|exact K2|exact F']. }
  destruct G as (a2 & G). cbn [fst snd] in G. assert (On : on_socket i a h) by (eexists; split; [exact L|reflexivity]).
  assert (Only : forall k, on_socket i a k -> k = h).
  { intros k (x & Lx & Ex). destruct (Nat.eq_dec k h) as [|N]; [assumption|]. destruct (other_socket a k h x _ I N Lx L). exact Ex. }
  destruct o; cbn [gives] in G; try exact G.
  - cbn [part]. destruct G as [G1 G2]. destruct (Nat.eqb_spec h0 h) as [->|N].
    + split; [destruct G1 as [[_ P]| ->]; [exact P|now exists d]|]. intros n ->. exact (G2 a2 n eq_refl On).
    + destruct G1 as [[O _]|G1]; [now apply Only in O|exact G1].
  - cbn [part]. destruct G as [G1 G2]. destruct G1 as [[O P]|G1]; [|exact G1]. apply Only in O. subst h0.
    destruct (K1 eq_refl) as [[? [=]]|[? [=]]].
  - cbn [part]. destruct G as [G1 G2]. destruct G1 as [[O P]|G1]; [|exact G1]. apply Only in O. subst h0.
    destruct (K1 eq_refl) as [[? [=]]|[? [=]]].
Qed.

(** ** C90 *)
(** (partial: no transaction is cut between the two bytes of a register pair, see
    [C90_tcp_stream_refuted])  From the bytes on the four wires, whichever transactions fail: a
    Device program initialised the chip and connected a TCP handle, and used it for sends and
    receives only since.  What has left the socket since is a prefix of the bytes contributed by
    the sends, in order, with nothing skipped, repeated or foreign, all of it to the peer. *)
Theorem C90_tcp_stream_partial e chk ho m fuel h r ops0 ops s00 a outs0 outs st s :
  whole_transfers e ->
  spi_run e (over_four_wire (device_program chk ho m fuel (ops0 ++ OpTcpConnect h (V4 r) :: ops))) (WaitHi, s00) =
    (Done (Ok (a, outs0 ++ RTcpConnect (Ok tt) :: outs)), (st, s)) ->
  length outs0 = length ops0 -> a_port r < 65536 -> Forall (sends_or_receives h) ops ->
  exists i a1 s1, i < 8 /\
    spi_run e (over_four_wire (device_program chk ho m fuel (ops0 ++ [OpTcpConnect h (V4 r)]))) (WaitHi, s00) =
      (Done (Ok (a1, outs0 ++ [RTcpConnect (Ok tt)])), (WaitHi, s1)) /\
    (exists t, lookup h (handles a1) = Some (HTcp t) /\ index (t_socket t) = i) /\
    exists ws l rest, Forall2 (part h) (combine ops outs) ws /\ sent (socks (s_chip s) i) = sent (socks (s_chip s1) i) ++ l /\
      concat ws = concat (map p_data l) ++ rest /\
      Forall (fun p => p_sport p = 49849 + i /\ p_ip p = dotted (a_ip r) /\ p_dport p = a_port r) l.
Proof.
  intros WP R L Hr K. apply whole_iff in WP. apply four_wire_device_done in R as [-> R]. set (e' := four_wire_env e) in *.
  apply run_device_ok in R as (d & s0 & R0 & R).
  apply System.run_ops_app in R as (a0 & s1 & R1 & R); [|exact L]. apply run_ops_cons in R as (a1 & s2 & R2 & R3).
  pose proof (init_start e' chk ho m s00 d s0 0 R0) as (Ip & _).
  pose proof (run_ops_inv e' fuel ops0 _ _ _ _ _ Ip R1) as I1.
  assert (Hh : exists t, lookup h (handles a0) = Some (HTcp t)).
  { cbn [step] in R2. destruct (lookup h (handles a0)) as [[x|t|u]|] eqn:E; eauto; cbn [run] in R2; discriminate R2. }
  destruct Hh as (t & Lk). destruct (pi_lookup _ _ _ I1 Lk) as (i & Hi & Ei & _).
  destruct t as [t]. cbn [handle_socket t_socket] in Ei. subst t.
  assert (a1 = a0) as ->.
  { cbn [step] in R2. rewrite Lk in R2. apply run_bind_done in R2 as (x & s3 & _ & R2). cbn [run] in R2. now injection R2. }
  assert (Z : two_k (sk i s1)).
  { pose proof (ops_sizes e' i fuel ops0 _ s0 Hi Ip (init_sizes e' chk ho m s00 d s0 i R0)) as Z. now rewrite R1 in Z. }
  assert (Hd : exists ho', d = ds_new ho').
  { apply InitFacts.run_init in R0 as (? & ? & h' & _ & _ & _ & _ & _ & ->). eauto. }
  destruct Hd as (ho' & ->).
  destruct (trace_of_run e' fuel _ _ _ _ _ _ R3) as (tr & T & E1 & E2).
  assert (K' : Forall (fun c => sends_or_receives h (snd (fst c))) tr).
  { apply Forall_forall. intros c Hc. rewrite Forall_forall in K. apply K. rewrite <- E1. now apply (in_map (fun c => snd (fst c))). }
  exists i, a0, s2. split; [exact Hi|]. split.
  { rewrite four_wire_device. fold e'. rewrite (run_device_intro e' chk ho m fuel _ s00 a0 (outs0 ++ [RTcpConnect (Ok tt)]) s2 _ s0 R0); [reflexivity|].
    eapply run_ops_snoc; eauto. }
  split; [eexists; split; [exact Lk|reflexivity]|].
  assert (V : valid_size (tx_size (sk i s1)) /\ valid_size (rx_size (sk i s1))).
  { unfold valid_size, tx_size, rx_size. destruct Z as [Z1 Z2]. unfold sk in *. rewrite Z1, Z2. split; right; left; reflexivity. }
  destruct V as [V1 V2].
  destruct (C72_stream_partial e' fuel ho' s0 ops0 a0 outs0 s1 h (mkTcp (socket_new i)) i r s2 tr a s WP R1 Lk eq_refl V1 V2 Hr R2 T K') as (ws & l & rest & F & S & C & P).
  exists ws, l, rest. split; [|auto]. rewrite <- E1, <- E2. eapply parts; eauto.
Qed.
Print Assumptions C90_tcp_stream_partial.

Lemma trace_nth e fuel : forall tr a s a' s' k c, trace e fuel a s tr a' s' -> nth_error tr k = Some c ->
  exists s1, run e (run_ops fuel a (firstn k (map (fun c => snd (fst c)) tr))) s = (Done (fst (fst c), firstn k (map snd tr)), s1).
Proof.
  intros tr a s a' s' k c T. revert k c. induction T as [|a s o a1 r s1 tr a' s' R T IH]; intros [|k] c E; cbn [nth_error] in E; try discriminate E.
  - injection E as <-. exists s. reflexivity.
  - destruct (IH k c E) as (s2 & R2). exists s2. cbn [map firstn fst snd run_ops]. rewrite run_bind, R. cbn [fst snd]. rewrite run_bind, R2. reflexivity.
Qed.
Lemma Forall2_nth {A B} (P : A -> B -> Prop) : forall l l', Forall2 P l l' -> forall k x y, nth_error l k = Some x -> nth_error l' k = Some y -> P x y.
Proof. induction 1 as [|x y l l' H F IH]; intros [|k] u v E1 E2; cbn in *; try discriminate; [congruence|eauto]. Qed.

(** (partial as above)  Every packet that has left any socket of the chip since the initialisation
    consists of bytes passed to sends on handles of that socket, in their order: the packets lie
    one after the other in the contributions [ws] of the calls.  [gave i (ak, o, r) w]: call [o],
    made in the application state [ak] and answered with [r], contributes [w]. *)
Theorem C90_origin_partial e chk ho m fuel ops s00 a outs st s i :
  whole_transfers e -> i < 8 -> Forall no_raw_pointer ops ->
  spi_run e (over_four_wire (device_program chk ho m fuel ops)) (WaitHi, s00) = (Done (Ok (a, outs)), (st, s)) ->
  exists a0 s0, spi_run e (over_four_wire (device_program chk ho m fuel [])) (WaitHi, s00) = (Done (Ok (a0, [])), (WaitHi, s0)) /\
  exists ws l g0 gs, length ws = length ops /\
    sent (socks (s_chip s) i) = sent (socks (s_chip s0) i) ++ l /\ length gs = length l /\ concat ws = laid g0 l gs /\
    forall k o r w, nth_error ops k = Some o -> nth_error outs k = Some r -> nth_error ws k = Some w ->
      exists ak sk, spi_run e (over_four_wire (device_program chk ho m fuel (firstn k ops))) (WaitHi, s00) =
        (Done (Ok (ak, firstn k outs)), (WaitHi, sk)) /\ gave i (ak, o, r) w.
Proof.
  intros WP Hi NR R. apply whole_iff in WP. apply four_wire_device_done in R as [-> R]. set (e' := four_wire_env e) in *.
  apply run_device_ok in R as (d & s0 & R0 & R).
  destruct (trace_of_run e' fuel _ _ _ _ _ _ R) as (tr & T & E1 & E2).
  assert (W : forall l b os x, run e' (run_ops fuel (mkApp d [] 0) l) s0 = (Done (b, os), x) ->
    spi_run e (over_four_wire (device_program chk ho m fuel l)) (WaitHi, s00) = (Done (Ok (b, os)), (WaitHi, x))).
  { intros l b os x Rl. rewrite four_wire_device. fold e'. now rewrite (run_device_intro e' chk ho m fuel l s00 b os x d s0 R0 Rl). }
  assert (NR' : Forall (fun c => no_raw_pointer (snd (fst c))) tr).
  { apply Forall_forall. intros c Hc. rewrite Forall_forall in NR. apply NR. rewrite <- E1. now apply (in_map (fun c => snd (fst c))). }
  destruct (C71_origin_partial e' chk ho m s00 d s0 fuel tr a s i R0 WP Hi T NR') as (ws & l & g0 & gs & F & S & L & C).
  exists (mkApp d [] 0), s0. split; [now apply W|]. exists ws, l, g0, gs.
  split; [rewrite <- E1, map_length; clear - F; induction F; cbn [length]; congruence|]. split; [exact S|]. split; [exact L|]. split; [exact C|].
  intros k o r w Ho Hr Hw. rewrite <- E1, nth_error_map in Ho. rewrite <- E2, nth_error_map in Hr.
  destruct (nth_error tr k) as [[[ak o'] r']|] eqn:N; [|discriminate Ho]. cbn [option_map fst snd] in Ho, Hr. injection Ho as ->. injection Hr as ->.
  destruct (trace_nth e' fuel tr _ _ _ _ k _ T N) as (s1 & R1). rewrite E1, E2 in R1. cbn [fst] in R1.
  exists ak, s1. split; [now apply W|]. exact (Forall2_nth _ _ _ F k _ _ N Hw).
Qed.
Print Assumptions C90_origin_partial.

Definition frame_part (c : rawop * rawout) (w : list byte) : Prop :=
  match c with
  | (RwWrite f, r) => (w = [] \/ w = f) /\ (forall n, r = RwSent (Ok n) -> len w = n)
  | _ => w = []
  end.
(** (partial as above)  The frames that have left a MACRAW device since its initialisation consist of
    bytes of frames passed to write_frame, in order; a frame contributes all of its bytes or none,
    and those reported if the call succeeds. *)
Theorem C90_macraw_origin_partial e mc fuel ops s00 outs st s :
  whole_transfers e ->
  spi_run e (over_four_wire (macraw_program mc fuel ops)) (WaitHi, s00) = (Done (Ok outs), (st, s)) ->
  exists s0, spi_run e (over_four_wire (macraw_program mc fuel [])) (WaitHi, s00) = (Done (Ok []), (WaitHi, s0)) /\
  exists ws l g0 gs,
    Forall2 frame_part (combine ops outs) ws /\
    sent (socks (s_chip s) 0) = sent (socks (s_chip s0) 0) ++ l /\ length gs = length l /\ concat ws = laid g0 l gs.
Proof.
  intros WP R. apply whole_iff in WP. apply four_wire_macraw_done in R as [-> R]. set (e' := four_wire_env e) in *.
  unfold macraw_program in R. apply InitFacts.run_try_ok in R as [(d & s0 & R0 & R)|(x & _ & [=])].
  apply run_bind_done in R as (outs' & s2 & R2 & R). cbn [run] in R. injection R as <- <-.
  destruct (raw_trace_of_run e' fuel d _ _ _ _ R2) as (tr & T & E1 & E2).
  destruct (C73_raw_origin_partial e' mc s00 d s0 fuel tr s2 R0 WP T) as (ws & l & g0 & gs & F & S & L & C).
  exists s0. split.
  { rewrite (four_wire_sim e _ _ _ s00 (pt_macraw_program mc fuel [])). fold e'. unfold macraw_program, try_. rewrite run_bind, R0. reflexivity. }
  exists ws, l, g0, gs. split; [|auto]. rewrite <- E1, <- E2. clear - F. induction F as [|[o r] w tr ws H F IH]; cbn [map combine fst snd]; constructor; [|exact IH].
  cbn [fst snd] in H. destruct o; cbn [raw_gives] in H; try exact H. destruct H as [H1 H2]. split; [exact H1|]. intros n ->. now apply H2.
Qed.
Print Assumptions C90_macraw_origin_partial.

(** *** Cases *)
Lemma spi_done {A} (p : outcome A * (spi_state * sys)) o (P : sys -> Prop) :
  fst p = o -> P (snd (snd p)) -> exists st s, p = (o, (st, s)) /\ P s.
Proof. destruct p as [o' [st s]]. cbn. intros -> H. eauto. Qed.
Definition net90 : env := mkEnv (fun t => [EvEstablished 0; EvTransmit 0 65535; EvSendOk 0]) (fun _ => None).
Definition peer90 : addr4 := Addr4 (Ip4 x0a x00 x00 x02) 80.
Definition ops90 : list op := [OpTcpSend 0 (repeat x61 255); OpTcpSend 0 [x62; x62]; OpTcpSend 0 [x63]].
Definition outs90 : list out := [RTcpSend (Ok 255); RTcpSend (Err (NbOther (TOther 7))); RTcpSend (Ok 1)].
Definition wires90 (e : env) := spi_run e (over_four_wire (device_program false Dhcp mode_default 60 ([OpTcpSocket] ++ OpTcpConnect 0 (V4 peer90) :: ops90))) (WaitHi, sys0).
Lemma part_le h c w : part h c w -> (length w <= length (op_data (fst c)))%nat.
Proof.
  destruct c as [o r]. destruct o; cbn [part fst op_data]; try (intros ->; cbn [length]; lia). destruct (Nat.eqb h0 h); [|intros ->; cbn [length]; lia].
  intros [[t ->] _]. rewrite app_length. lia.
Qed.
Lemma parts_le h : forall l ws, Forall2 (part h) l ws -> (length (concat ws) <= length (concat (map (fun c => op_data (fst c)) l)))%nat.
Proof. induction 1 as [|c w l ws H F IH]; cbn [concat map]; [lia|]. rewrite !app_length. apply part_le in H. lia. Qed.

(** a transaction fails after four bytes, in the middle of the write pointer: the next send puts 256
    bytes nobody sent on the network *)
Theorem C90_tcp_stream_refuted : exists a st s,
  wires90 (with_fault 25 4 net90) = (Done (Ok (a, [RTcpSocket (Ok 0%nat)] ++ RTcpConnect (Ok tt) :: outs90)), (st, s)) /\
  Forall (sends_or_receives 0) ops90 /\
  forall ws, Forall2 (part 0) (combine ops90 outs90) ws -> (length (concat ws) < length (concat (map p_data (sent (socks (s_chip s) 0)))))%nat.
Proof.
  eexists. apply spi_done; [vm_compute; reflexivity|]. split; [do 3 (constructor; [intros _; left; eauto|]); constructor|].
  intros ws F. apply parts_le in F. eapply Nat.le_lt_trans; [exact F|]. apply Nat.ltb_lt. vm_compute. reflexivity.
Qed.
Print Assumptions C90_tcp_stream_refuted.
(** a transaction fails in the header, at the SEND command of the second send: its bytes leave with
    those of the third *)
Example C90_case : exists a st s,
  wires90 (with_fault 26 2 net90) = (Done (Ok (a, [RTcpSocket (Ok 0%nat)] ++ RTcpConnect (Ok tt) :: outs90)), (st, s)) /\
  whole_transfers (with_fault 26 2 net90) /\ Forall (sends_or_receives 0) ops90 /\ Forall no_raw_pointer ops90 /\
  map p_data (sent (socks (s_chip s) 0)) = [repeat x61 255; [x62; x62; x63]].
Proof.
  eexists. apply spi_done; [vm_compute; reflexivity|]. split; [|split; [|split]].
  - intros j er. cbn [with_fault fails net90]. destruct (Nat.eqb j 26); discriminate.
  - do 3 (constructor; [intros _; left; eauto|]); constructor.
  - do 3 (constructor; [intros ? ? [=]|]); constructor.
  - vm_compute. reflexivity.
Qed.
Definition rawnet90 : env := mkEnv (fun t => [EvTransmit 0 65535; EvSendOk 0]) (fun _ => None).
Definition raw90 (e : env) := spi_run e (over_four_wire (macraw_program (Mac x02 x03 x04 x05 x06 x07) 30 raw_calls)) (WaitHi, sys0).
(** the same two failures of transactions in a MACRAW program *)
Theorem C90_macraw_origin_refuted : exists st s,
  raw90 (with_fault 31 4 rawnet90) = (Done (Ok raw_results), (st, s)) /\
  forall ws, Forall2 frame_part (combine raw_calls raw_results) ws -> (length (concat ws) < length (concat (map p_data (sent (socks (s_chip s) 0)))))%nat.
Proof.
  apply spi_done; [vm_compute; reflexivity|]. intros ws F.
  assert (L : (length (concat ws) <= 258)%nat).
  { unfold raw_calls, raw_results in F. cbn [combine] in F. inversion F as [|? w1 ? ? P1 F1]; subst. inversion F1 as [|? w2 ? ? P2 F2]; subst.
    inversion F2 as [|? w3 ? ? P3 F3]; subst. inversion F3; subst. cbn [frame_part] in P1, P2, P3.
    cbn [concat]. rewrite !app_length. cbn [length].
    assert (length w1 <= 255 /\ length w2 <= 2 /\ length w3 <= 1)%nat; [|lia].
    destruct P1 as [[-> | ->] _], P2 as [[-> | ->] _], P3 as [[-> | ->] _]; rewrite ?repeat_length; cbn [length]; lia. }
  eapply Nat.le_lt_trans; [exact L|]. apply Nat.ltb_lt. vm_compute. reflexivity.
Qed.
Print Assumptions C90_macraw_origin_refuted.
Example C90_macraw_case : exists st s,
  raw90 (with_fault 32 2 rawnet90) = (Done (Ok raw_results), (st, s)) /\ whole_transfers (with_fault 32 2 rawnet90) /\
  map p_data (sent (socks (s_chip s) 0)) = [repeat x61 255; [x62; x62; x63]].
Proof.
  apply spi_done; [vm_compute; reflexivity|]. split; [|vm_compute; reflexivity].
  intros j er. cbn [with_fault fails rawnet90]. destruct (Nat.eqb j 32); discriminate.
Qed.
