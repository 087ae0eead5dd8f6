(** What a call has read when it is still in one of its busy-waits, over an arbitrary bus. *)
From Verif Require Export HistoryFacts RawHistory.
From Verif Require Import Liveness.

(** ** The polls, as bus calls: block [b], offset, bytes, result *)
(** the connect loop (tcp.rs:116-137): [n] reads of Sn_SR, none of them ESTABLISHED or CLOSED *)
Definition status_polls (b : N) (n : nat) (tr : list event) : Prop :=
  exists l, length l = n /\ tr = map (fun c => ERead b 0x03 [c] (Ok tt)) l /\ ~ In x17 l /\ ~ In x00 l.
(** the SENDOK loops (tcp.rs:173, raw_device.rs:134-137): [n] reads of Sn_IR, all with bit 4 clear *)
Definition sendok_polls (b : N) (n : nat) (tr : list event) : Prop :=
  exists l, length l = n /\ tr = map (fun c => ERead b 0x02 [c] (Ok tt)) l /\
    forall c, In c l -> N.testbit (b2n c) 4 = false.
(** [n] pairs of two-byte reads, the two of a pair different *)
Definition pair_polls (b p q : N) (n : nat) (tr : list event) : Prop :=
  exists l, length l = n /\ tr = flat_map (fun v => [ERead b p (fst v) (Ok tt); ERead b q (snd v) (Ok tt)]) l /\
    forall v, In v l -> length (fst v) = 2%nat /\ length (snd v) = 2%nat /\ fst v <> snd v.
(** the received-size loop (socket.rs:188-198): Sn_RX_RSR twice *)
Definition size_polls (b : N) := pair_polls b 0x26 0x26.
(** the UDP send loop (udp.rs:258-296): Sn_TX_RD and Sn_TX_WR *)
Definition flush_polls (b : N) := pair_polls b 0x22 0x24.
(** a command byte, accepted by the bus, and then [W] *)
Definition upon (b : N) (c : byte) (W : list event -> Prop) (tr : list event) : Prop :=
  exists w, tr = EWrite b 0x01 [c] (Ok tt) :: w /\ W w.
(** the SEND commands *)
Definition orders (b : N) (tr : list event) : nat :=
  length (filter (fun ev => match ev with EWrite b' 0x01 [c] (Ok _) => (b' =? b) && Byte.eqb c x20 | _ => false end) tr).

(** ** Looping executions *)
Lemma loop_bind {A B} (p : prog A) (f : A -> prog B) tr : exec (bind p f) tr Looping ->
  exec p tr Looping \/ exists t1 a t2, tr = t1 ++ t2 /\ exec p t1 (Done a) /\ exec (f a) t2 Looping.
Proof.
  intros X. apply exec_bind_inv in X as [X|(o & X & N & E)]; [now right|]. destruct o; try discriminate E; auto.
Qed.
Lemma spinless_loop {A} (p : prog A) tr o : exec p tr o -> spinless p -> o <> Looping.
Proof. induction 1; cbn [spinless]; intros S; try discriminate; auto. Qed.
Lemma loop_first {A E R} (p : prog (res A E)) (h : E -> R) k tr : exec (try_ p h k) tr Looping -> (forall a, spinless (k a)) -> exec p tr Looping.
Proof.
  intros X S. apply loop_bind in X as [X|(t1 & [a|x] & t2 & -> & _ & X)]; [exact X| |inversion X].
  exfalso. exact (spinless_loop _ _ _ X (S a) eq_refl).
Qed.

Definition held {A} (L : list event -> Prop) (p : prog A) : Prop :=
  forall tr, exec p tr Looping -> exists pre polls, tr = pre ++ polls /\ L polls.
Lemma held_spinless {A} L (p : prog A) : spinless p -> held L p.
Proof. intros S tr X. elim (spinless_loop _ _ _ X S eq_refl). Qed.
Lemma held_bind {A B} L (p : prog A) (f : A -> prog B) : held L p -> (forall a, held L (f a)) -> held L (bind p f).
Proof.
  intros Hp Hf tr X. apply loop_bind in X as [X|(t1 & a & t2 & -> & _ & X)]; [auto|].
  destruct (Hf a _ X) as (pre & polls & -> & H). exists (t1 ++ pre), polls. now rewrite app_assoc.
Qed.
Lemma held_try {A E R} L (p : prog (res A E)) (h : E -> R) k : held L p -> (forall a, held L (k a)) -> held L (try_ p h k).
Proof. intros Hp Hk. apply held_bind; [exact Hp|]. intros [a|x]; [apply Hk|now apply held_spinless]. Qed.
Lemma held_slice {R} L w n l (k : list byte -> prog R) : (forall x, held L (k x)) -> held L (slice_to w n l k).
Proof. intros H. unfold slice_to. destruct (_ <=? _); [apply H|now apply held_spinless]. Qed.
Lemma held_all {A} (L : list event -> Prop) (p : prog A) : (forall tr, exec p tr Looping -> L tr) -> held L p.
Proof. intros H tr X. exists [], tr. auto. Qed.
Lemma held_mono {A} (L L' : list event -> Prop) (p : prog A) : held L p -> (forall tr, L tr -> L' tr) -> held L' p.
Proof. intros H M tr X. destruct (H _ X) as (pre & polls & -> & Y). eauto. Qed.
Lemma held_command {R} (L : list event -> Prop) (s : Socket) c (h : berr -> R) p : (forall tr, exec p tr Looping -> L tr) ->
  held (upon (register s) (u8 (command_u8 c)) L) (try_ (command s c) h (fun _ => p)).
Proof.
  intros H. apply held_all. intros tr X. cbn in X. inversion X; subst. destruct r as [[]|x]; [|match goal with Y : exec _ _ _ |- _ => inversion Y end].
  eexists. split; [reflexivity|]. apply H. match goal with Y : exec _ _ _ |- _ => exact Y end.
Qed.

(** ** The four loops *)
Lemma read_on {A R} b a n (h : berr -> R) (conv : list byte -> A) (k' : A -> prog R) tr o : o <> Cut -> (forall e, o <> Done (h e)) ->
  exec (try_ (try_ (read_reg b a n) Err (fun d => Ret (Ok (conv d)))) h k') tr o ->
  exists d w, length d = n /\ tr = ERead b a d (Ok tt) :: w /\ exec (k' (conv d)) w o.
Proof.
  intros Nc Nd X. cbn in X. inversion X; subst; [congruence|].
  destruct r as [[]|x]; [|match goal with Y : exec (bind _ _) _ _ |- _ => inversion Y; subst; [congruence|now elim (Nd x)] end].
  exists got. eexists. split; [|split; [reflexivity|]]; [|match goal with Y : exec _ _ _ |- _ => exact Y end].
  match goal with Y : length got = _ |- _ => rewrite Y end. apply repeat_length.
Qed.
Lemma read_loop {A R} b a n (h : berr -> R) (conv : list byte -> A) (k' : A -> prog R) tr :
  exec (try_ (try_ (read_reg b a n) Err (fun d => Ret (Ok (conv d)))) h k') tr Looping ->
  exists d w, length d = n /\ tr = ERead b a d (Ok tt) :: w /\ exec (k' (conv d)) w Looping.
Proof. apply read_on; [discriminate|intros e; discriminate]. Qed.
Lemma raw_read_loop {R} b a n (h : berr -> R) (k : list byte -> prog R) tr :
  exec (try_ (read_reg b a n) h k) tr Looping ->
  exists d w, length d = n /\ tr = ERead b a d (Ok tt) :: w /\ exec (k d) w Looping.
Proof.
  intros X. cbn in X. inversion X; subst. destruct r as [[]|x]; [|match goal with Y : exec _ _ _ |- _ => inversion Y end].
  exists got. eexists. split; [|split; [reflexivity|]]; [|match goal with Y : exec _ _ _ |- _ => exact Y end].
  match goal with Y : length got = _ |- _ => rewrite Y end. apply repeat_length.
Qed.
Lemma one_byte (d : list byte) : length d = 1%nat -> exists c, d = [c].
Proof. destruct d as [|c [|]]; try discriminate. eauto. Qed.

Lemma sendok_loop s : forall fuel tr, exec (wait_send_ok fuel s) tr Looping -> sendok_polls (register s) fuel tr.
Proof.
  induction fuel as [|fuel IH]; intros tr X; cbn [wait_send_ok] in X.
  - inversion X; subst. exists []. repeat split. intros c [].
  - apply read_loop in X.
    destruct X as (d & w & L & -> & X). apply one_byte in L as (c & ->). cbn [byte0] in X.
    destruct (negb _) eqn:E; [inversion X|].
    destruct (IH _ X) as (l & L & -> & N). exists (c :: l). cbn [length map]. rewrite L. split; [reflexivity|]. split; [reflexivity|].
    intros c' [<-|Hc]; [|auto]. clear - E. destruct c; try reflexivity; vm_compute in E; discriminate E.
Qed.
Lemma status_loop t : forall fuel tr, exec (tcp_connect_wait fuel t) tr Looping -> status_polls (register (t_socket t)) fuel tr.
Proof.
  induction fuel as [|fuel IH]; intros tr X; cbn [tcp_connect_wait] in X.
  - inversion X; subst. exists []. repeat split; intros [].
  - apply (read_loop _ _ _ _ byte0) in X.
    destruct X as (d & w & L & -> & X). apply one_byte in L as (c & ->). change (byte0 [c]) with c in X; cbv beta in X.
    assert (Y : exec (tcp_connect_wait fuel t) w Looping /\ c <> x17 /\ c <> x00).
    { assert (Z : match status_try_from c with Some StEstablished | Some StClosed => False | _ => exec (tcp_connect_wait fuel t) w Looping end).
      { destruct (status_try_from c) as [[]|]; try exact X.
        - refine (spinless_loop _ _ _ X _ eq_refl). unfold tcp_socket_close, tcp_reopen, set_mode, command, reset_interrupt, set_interrupt_mask. spinless.
        - inversion X. }
      clear - Z. split; [destruct (status_try_from c) as [[]|]; (exact Z || destruct Z)|].
      split; intros ->; exact Z. }
    destruct Y as (Y & N1 & N0). destruct (IH _ Y) as (l & L & -> & H1 & H0). exists (c :: l). cbn [length map]. rewrite L.
    split; [reflexivity|]. split; [reflexivity|]. split; intros [E|E]; auto.
Qed.
Lemma size_loop s : forall fuel tr, exec (get_receive_size fuel s) tr Looping -> size_polls (register s) fuel tr.
Proof.
  induction fuel as [|fuel IH]; intros tr X; cbn [get_receive_size] in X.
  - inversion X; subst. exists []. split; [reflexivity|]. split; [reflexivity|]. intros v [].
  - apply raw_read_loop in X as (d & w & L & -> & X). apply raw_read_loop in X as (d' & w' & L' & -> & X).
    destruct (bytes_eqb d d') eqn:E; [inversion X|].
    destruct (IH _ X) as (l & Ll & -> & N). exists ((d, d') :: l). cbn [length flat_map fst snd]. rewrite Ll.
    split; [reflexivity|]. split; [reflexivity|]. intros v [<-|Hv]; [|auto]. cbn [fst snd]. split; [exact L|]. split; [exact L'|].
    intros ->. rewrite bytes_eqb_refl in E. discriminate E.
Qed.
Ltac ex1 := match goal with
  | X : exec (Ret _) _ _ |- _ => inversion X; fail
  | X : exec (BusRead _ _ _ _) _ _ |- _ => inversion X; subst; clear X
  | X : exec (BusWrite _ _ _ _) _ _ |- _ => inversion X; subst; clear X
  | X : exec (if ?r then _ else _) _ _ |- _ => destruct r
  | X : exec ?p _ _ |- _ => match p with context [match ?r with Ok _ => _ | Err _ => _ end] => is_var r; destruct r as [[]|] end
  | X : exec _ _ _ |- _ => progress cbn in X
  end.
Lemma flush_loop u : forall fuel tr, exec (udp_flush_loop fuel u) tr Looping -> flush_polls (register (u_socket u)) fuel tr.
Proof.
  induction fuel as [|fuel IH]; intros tr X; cbn [udp_flush_loop] in X.
  - inversion X; subst. exists []. split; [reflexivity|]. split; [reflexivity|]. intros v [].
  - apply loop_bind in X as [X|(t1 & r & t2 & -> & X1 & X)].
    { exfalso. refine (spinless_loop _ _ _ X _ eq_refl). unfold udp_try_flush_tx, get_tx_read_pointer, get_tx_write_pointer, has_interrupt, reset_interrupt. spinless. }
    assert (F : exec (udp_flush_loop fuel u) t2 Looping /\ r = Err WouldBlock) by (destruct r as [|[]]; try (inversion X; fail); auto).
    clear X. destruct F as [X ->].
    assert (F : exists d d', length d = 2%nat /\ length d' = 2%nat /\ t1 = [ERead (register (u_socket u)) 0x22 d (Ok tt); ERead (register (u_socket u)) 0x24 d' (Ok tt)] /\ d <> d').
    { clear - X1. unfold udp_try_flush_tx, get_tx_read_pointer, get_tx_write_pointer in X1.
      apply read_on in X1 as (d & w & Ld & -> & X1); [|discriminate|intros e; discriminate].
      apply read_on in X1 as (d' & w' & Ld' & -> & X1); [|discriminate|intros e; discriminate].
      exists d, d'. split; [exact Ld|]. split; [exact Ld'|]. destruct (from_be d =? from_be d') eqn:E.
      - exfalso. clear - X1. unfold has_interrupt, reset_interrupt in X1. repeat ex1.
      - inversion X1; subst. split; [reflexivity|]. intros ->. rewrite N.eqb_refl in E. discriminate E. }
    destruct F as (d & d' & Ld & Ld' & -> & Nd). destruct (IH _ X) as (l & Ll & -> & N). exists ((d, d') :: l). cbn [length flat_map fst snd]. rewrite Ll.
    split; [reflexivity|]. split; [reflexivity|]. intros v [<-|Hv]; [|auto]. auto.
Qed.

(** ** A datagram counted as sent has been ordered *)
Lemma orders_app b x y : orders b (x ++ y) = (orders b x + orders b y)%nat.
Proof. unfold orders. rewrite filter_app, app_length. reflexivity. Qed.
Definition ordered {A E} (b : N) (p : prog (res A E)) : Prop := forall tr a, exec p tr (Done (Ok a)) -> (1 <= orders b tr)%nat.
Lemma ordered_later {A E B F} b (p : prog (res A E)) (h : E -> res B F) k : (forall e x, h e <> Ok x) -> (forall a, ordered b (k a)) -> ordered b (try_ p h k).
Proof.
  intros Nh Hk tr a X. apply exec_bind_done in X as (t1 & [v|e] & t2 & -> & _ & X).
  - rewrite orders_app. specialize (Hk v _ _ X). lia.
  - inversion X; subst. now elim (Nh e a).
Qed.
Lemma ordered_first {A E B F} b (p : prog (res A E)) (h : E -> res B F) k : (forall e x, h e <> Ok x) -> ordered b p -> ordered b (try_ p h k).
Proof.
  intros Nh Hp tr a X. apply exec_bind_done in X as (t1 & [v|e] & t2 & -> & X1 & X).
  - rewrite orders_app. specialize (Hp _ _ X1). lia.
  - inversion X; subst. now elim (Nh e a).
Qed.
Lemma ordered_send s : ordered (register s) (command s CmSend).
Proof.
  intros tr a X. cbn in X. inversion X; subst. match goal with Y : exec (Ret _) _ _ |- _ => inversion Y; subst end.
  unfold orders. cbn [filter]. change (u8 (command_u8 CmSend)) with x20. rewrite N.eqb_refl. cbn. lia.
Qed.
Lemma ordered_udp_data fuel u d : ordered (register (u_socket u)) (udp_send_data fuel u d).
Proof.
  unfold udp_send_data. do 3 (apply ordered_later; [discriminate|intros ?]). apply ordered_first; [discriminate|].
  apply ordered_first; [discriminate|]. apply ordered_send.
Qed.
Lemma ordered_udp_send fuel u d : ordered (register (u_socket u)) (udp_socket_send fuel u d).
Proof.
  unfold udp_socket_send. apply ordered_later; [discriminate|]. intros st.
  destruct (udp_status_gate st); [|intros tr a X; inversion X]. destruct (u_dest u); [|intros tr a' X; inversion X].
  apply ordered_later; [discriminate|]. intros fs. destruct (fs =? 0); [intros tr x X; inversion X|].
  destruct (_ <? _); [apply ordered_udp_data|]. unfold slice_to. destruct (_ <=? _); [apply ordered_udp_data|intros tr x X; inversion X].
Qed.

(** ** The calls *)
Definition udp_waits (b : N) (fuel : nat) (tr : list event) : Prop := upon b x20 (flush_polls b fuel) tr \/ (fuel <= orders b tr)%nat.
Ltac hs := first [apply held_spinless; spinless; fail | apply held_try; [hs|intros ?; hs] | apply held_bind; [hs|intros ?; hs]].
Lemma held_udp_data fuel u d : held (upon (register (u_socket u)) x20 (flush_polls (register (u_socket u)) fuel)) (udp_send_data fuel u d).
Proof.
  unfold udp_send_data, get_tx_write_pointer, set_tx_write_pointer. do 3 (apply held_try; [hs|intros ?]). apply held_try; [|intros ?; hs].
  exact (held_command _ (u_socket u) CmSend uE _ (flush_loop u fuel)).
Qed.
Lemma held_udp_socket_send fuel u d : held (upon (register (u_socket u)) x20 (flush_polls (register (u_socket u)) fuel)) (udp_socket_send fuel u d).
Proof.
  unfold udp_socket_send, get_status, get_tx_free_size. apply held_try; [hs|]. intros st. destruct (udp_status_gate st); [|hs]. destruct (u_dest u); [|hs].
  apply held_try; [hs|]. intros fs. destruct (fs =? 0); [hs|]. destruct (_ <? _); [apply held_udp_data|]. apply held_slice. intros x. apply held_udp_data.
Qed.
Lemma udp_loop_waits fuel u d : forall n fs ts tr, exec (udp_send_loop n fuel u d fs ts) tr Looping ->
  (exists pre polls, tr = pre ++ polls /\ upon (register (u_socket u)) x20 (flush_polls (register (u_socket u)) fuel) polls) \/
  (n <= orders (register (u_socket u)) tr)%nat.
Proof.
  induction n as [|n IH]; intros fs ts tr X; [right; lia|]. cbn [udp_send_loop] in X.
  destruct (_ =? _); [inversion X|]. unfold slice_from in X. destruct (_ <=? _); [|inversion X].
  unfold slice_to in X. destruct (_ <=? _); [|inversion X].
  apply loop_bind in X as [X|(t1 & [v|e] & t2 & -> & X1 & X)]; [left; exact (held_udp_socket_send _ _ _ _ X)| |inversion X].
  apply ordered_udp_send in X1. apply loop_bind in X as [X|(t3 & [w|e] & t4 & -> & X2 & X)]; [| |inversion X].
  - exfalso. refine (spinless_loop _ _ _ X _ eq_refl). unfold get_tx_free_size. spinless.
  - destruct (IH _ _ _ X) as [(pre & polls & -> & H)|H]; [left|right].
    + exists (t1 ++ t3 ++ pre), polls. now rewrite !app_assoc.
    + rewrite !orders_app. lia.
Qed.
Lemma held_udp_all fuel u d : held (udp_waits (register (u_socket u)) fuel) (udp_send_all fuel u d).
Proof.
  unfold udp_send_all, get_status, get_tx_free_size. apply held_try; [hs|]. intros st. destruct (udp_status_gate st); [|hs]. destruct (u_dest u); [|hs].
  apply held_try; [hs|]. intros fs. destruct (fs =? 0); [hs|]. intros tr X.
  destruct (udp_loop_waits _ _ _ _ _ _ _ X) as [(pre & polls & -> & H)|H].
  - exists pre, polls. unfold udp_waits. auto.
  - exists [], tr. unfold udp_waits. auto.
Qed.
Lemma held_tcp_data fuel t d : held (upon (register (t_socket t)) x20 (sendok_polls (register (t_socket t)) fuel)) (tcp_send_data fuel t d).
Proof.
  unfold tcp_send_data, get_tx_write_pointer, set_tx_write_pointer. do 3 (apply held_try; [hs|intros ?]).
  refine (held_command _ (t_socket t) CmSend tE _ _). intros tr X. apply sendok_loop. refine (loop_first _ _ _ _ X _). intros a'. unfold reset_interrupt. spinless.
Qed.
Lemma held_tcp_send fuel t d : held (upon (register (t_socket t)) x20 (sendok_polls (register (t_socket t)) fuel)) (tcp_send fuel t d).
Proof.
  unfold tcp_send, tcp_socket_send, tcp_is_connected, get_status, get_tx_free_size. apply held_try; [|intros ?; hs].
  apply held_try; [hs|]. intros [|]; cbn [negb]; [|hs]. apply held_try; [hs|]. intros fs. destruct (_ <? _); [apply held_tcp_data|].
  apply held_slice. intros x. apply held_tcp_data.
Qed.
Lemma held_do_connect fuel t r : held (upon (register (t_socket t)) x04 (status_polls (register (t_socket t)) fuel)) (tcp_do_connect fuel t r).
Proof.
  unfold tcp_do_connect, set_destination_ip, set_destination_port. do 2 (apply held_try; [hs|intros ?]).
  exact (held_command _ (t_socket t) CmConnect tE _ (status_loop t fuel)).
Qed.
Lemma held_connect fuel t r : held (upon (register (t_socket t)) x04 (status_polls (register (t_socket t)) fuel)) (tcp_connect fuel t r).
Proof.
  unfold tcp_connect, tcp_socket_connect. destruct r as [r|]; [|hs].
  apply held_try; [unfold tcp_open, command, reset_interrupt, set_source_port, set_mode, set_interrupt_mask; hs|intros ?]. apply held_try; [|intros ?; hs].
  apply held_try; [unfold get_status; hs|]. intros st.
  assert (C : spinless (tcp_socket_close t)) by (unfold tcp_socket_close, set_mode, command; spinless).
  assert (O : spinless (tcp_reopen t)) by (unfold tcp_reopen, set_mode, command, reset_interrupt, set_interrupt_mask; spinless).
  destruct (status_try_from st) as [[]|]; try hs; try apply held_do_connect;
    (apply held_try; [exact (held_spinless _ _ C)|intros ?]; apply held_try; [exact (held_spinless _ _ O)|intros ?]; apply held_do_connect).
Qed.
Lemma held_size fuel s : held (size_polls (register s) fuel) (get_receive_size fuel s).
Proof. apply held_all, size_loop. Qed.
Lemma held_tcp_receive fuel t d : held (size_polls (register (t_socket t)) fuel) (tcp_receive fuel t d).
Proof.
  unfold tcp_receive, tcp_socket_receive, tcp_is_connected, get_status, has_interrupt. apply held_bind; [|intros ?; hs].
  apply held_try; [hs|]. intros [|]; cbn [negb]; [|hs]. apply held_try; [hs|]. intros [|]; cbn [negb]; [|hs].
  apply held_try; [apply held_size|]. intros n. apply held_spinless.
  unfold tcp_receive_data, get_rx_read_pointer, set_rx_read_pointer, command, reset_interrupt. spinless.
Qed.
Lemma held_udp_receive fuel u d : held (size_polls (register (u_socket u)) fuel) (udp_receive fuel u d).
Proof.
  unfold udp_receive, udp_socket_receive, get_status, has_interrupt. apply held_bind; [|intros ?; hs].
  apply held_try; [hs|]. intros st. destruct (udp_status_gate st); [|hs]. apply held_try; [hs|]. intros [|]; cbn [negb]; [|hs].
  apply held_try; [apply held_size|]. intros n. apply held_spinless.
  unfold get_rx_read_pointer, set_rx_read_pointer, command, reset_interrupt. spinless.
Qed.
Lemma held_raw_read fuel r d : held (size_polls (register (raw_socket r)) fuel) (raw_read_frame fuel r d).
Proof.
  unfold raw_read_frame, rx_new. apply held_try.
  - apply held_try; [apply held_size|intros ?]. unfold get_rx_read_pointer. hs.
  - intros c. apply held_spinless. unfold raw_read_body, rx_read_upto, rx_read, rx_commit, set_rx_read_pointer, command. spinless.
Qed.
Lemma held_raw_write fuel r d : held (upon (register (raw_socket r)) x20 (sendok_polls (register (raw_socket r)) fuel)) (raw_write_frame fuel r d).
Proof.
  unfold raw_write_frame, reset_interrupt, tx_new, tx_write, get_tx_free_size, get_tx_write_pointer. apply held_try; [hs|intros ?].
  apply held_try; [hs|intros c]. apply held_try; [destruct (_ || _); hs|intros cn].
  intros tr X. apply loop_bind in X as [X|(t1 & [v|e] & t2 & -> & X1 & X)]; [| |inversion X].
  { exfalso. refine (spinless_loop _ _ _ X _ eq_refl). unfold tx_commit, set_tx_write_pointer, command. spinless. }
  assert (Y : exists p, t1 = p ++ [EWrite (register (raw_socket r)) 0x01 [x20] (Ok tt)]).
  { clear - X1. unfold tx_commit, set_tx_write_pointer, command in X1. cbn in X1. repeat ex1.
    match goal with Y : exec (Ret _) _ _ |- _ => inversion Y; subst end. eexists [_]. reflexivity. }
  destruct Y as (p & ->). exists p. eexists. rewrite <- app_assoc. split; [reflexivity|]. eexists. split; [reflexivity|].
  apply sendok_loop. refine (loop_first _ _ _ _ X _). intros ?. spinless.
Qed.
Lemma set_destination_same u r tr x : exec (udp_set_destination u r) tr (Done x) -> u_socket (fst x) = u_socket u.
Proof.
  unfold udp_set_destination, set_destination_ip, set_destination_port. intros X.
  destruct (match u_dest u with Some dest => _ | None => _ end); [|inversion X; reflexivity]. cbn in X.
  repeat (ex1 || match goal with Y : exec (Ret _) _ _ |- _ => inversion Y; subst; clear Y end); reflexivity.
Qed.
Lemma held_udp_send_to fuel u r d : held (udp_waits (register (u_socket u)) fuel) (udp_send_to fuel u r d).
Proof.
  unfold udp_send_to, udp_send_to_v4. destruct r as [r|]; [|hs]. intros tr X. apply loop_bind in X as [X|(t1 & x & t2 & -> & X1 & X)].
  - exfalso. refine (spinless_loop _ _ _ X _ eq_refl). unfold udp_set_destination, set_destination_ip, set_destination_port. spinless.
  - apply set_destination_same in X1. destruct (snd x); [|inversion X].
    assert (H : held (udp_waits (register (u_socket u)) fuel) (do q <- udp_send_all fuel (fst x) d ;; Ret (fst x, q))).
    { apply held_bind; [|intros ?; hs]. rewrite <- X1. apply held_udp_all. }
    destruct (H _ X) as (pre & polls & -> & Y). exists (t1 ++ pre), polls. now rewrite app_assoc.
Qed.
