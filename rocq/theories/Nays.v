(** The bus calls of a call that was refused, or panicked, over an arbitrary bus. *)
From Verif Require Export HistoryFacts RawHistory.
From Verif Require Import Waits ValueFacts ExecFacts BytesFacts CallFacts Transcript Answers.

Ltac nodo := let e := fresh in let Z := fresh in intros e Z; injection Z; intros; subst; match goal with H : forall x, _ <> _ |- _ => now apply (H e) end.
Ltac rdx X d L := first
  [ apply read_on in X as (d & ? & L & -> & X); [|discriminate|first [disc|nodo]]
  | apply plain_read_on in X as (d & ? & L & -> & X); [|discriminate|first [disc|nodo]] ].
Ltac wrx X := apply write_on in X as (? & -> & X); [|discriminate|first [disc|nodo]].

(** ** TCP *)
Lemma conn_nay {R} t (h : terr -> R) k tr r : (forall e, r <> h (TOther e)) -> exec (try_ (tcp_is_connected t) h k) tr (Done r) ->
  exists st w, tr = ERead (register (t_socket t)) 0x03 [st] (Ok tt) :: w /\ exec (k (b2n st =? 23)) w (Done r).
Proof.
  intros N X. apply exec_bind_done in X as (t1 & y & t2 & -> & X1 & X). unfold tcp_is_connected, get_status in X1. destruct y as [c|e].
  - rd X1 d L. apply Waits.one_byte in L as (st & ->). change (byte0 [st]) with st in X1. apply ret_on in X1 as [-> [= ->]]. exists st, t2. split; [reflexivity|exact X].
  - exfalso. apply ret_on in X as [-> ->]. destruct e; try (rd X1 d L; apply ret_on in X1 as [_ X1]; discriminate X1). now apply (N e).
Qed.
Lemma not_17 st : b2n st =? 23 = false <-> st <> x17.
Proof. split; [intros E ->; discriminate E|]. intros N. apply N.eqb_neq. intros E. apply N. clear N. destruct st; try discriminate E; reflexivity. Qed.
Lemma tcp_data_nay fuel t d tr x : (forall e, x <> TOther e) -> ~ exec (tcp_send_data fuel t d) tr (Done (Err x)).
Proof.
  intros N X. unfold tcp_send_data, get_tx_write_pointer, set_tx_write_pointer, command, reset_interrupt in X. rdx X p L. wrx X. wrx X. wrx X.
  apply exec_bind_done in X as (t1 & [[]|e] & t2 & -> & X1 & X); [|apply ret_on in X as [_ [= ->]]; now apply (N e)]. wrx X. apply ret_on in X as [_ X]. discriminate X.
Qed.
Lemma tcp_send_nay fuel t d tr x : (forall e, x <> NbOther (TOther e)) -> exec (tcp_send fuel t d) tr (Done (Err x)) ->
  x = NbOther TNotConnected /\ exists st, st <> x17 /\ tr = [ERead (register (t_socket t)) 0x03 [st] (Ok tt)].
Proof.
  intros N X. unfold tcp_send in X. apply exec_bind_done in X as (t1 & [n|x'] & t2 & -> & X & Y); apply ret_on in Y as [-> Y]; [discriminate Y|]. injection Y as ->. rewrite app_nil_r.
  assert (N' : forall e, x' <> TOther e) by (intros e ->; now apply (N e)). clear N. unfold tcp_socket_send in X.
  apply conn_nay in X as (st & w & -> & X); [|intros e Z; injection Z as ->; now apply (N' e)]. destruct (b2n st =? 23) eqn:E; cbn [negb] in X.
  - exfalso. unfold get_tx_free_size in X. rdx X f L. destruct (_ <? _) in X; [exact (tcp_data_nay _ _ _ _ _ N' X)|]. unfold slice_to in X. destruct (_ <=? _) in X; [exact (tcp_data_nay _ _ _ _ _ N' X)|inversion X].
  - apply ret_on in X as [-> X]. injection X as ->. split; [reflexivity|]. exists st. split; [now apply not_17|reflexivity].
Qed.
Lemma tcp_receive_nay fuel t d tr d' x : (forall e, x <> NbOther (TOther e)) -> exec (tcp_receive fuel t d) tr (Done (d', Err x)) ->
  x = NbOther TNotConnected /\ d' = d /\ exists st, st <> x17 /\ tr = [ERead (register (t_socket t)) 0x03 [st] (Ok tt)].
Proof.
  intros N X. unfold tcp_receive in X. apply exec_bind_done in X as (t1 & [d0 [n|x']] & t2 & -> & X & Y); apply ret_on in Y as [-> Y]; cbn [fst snd] in Y; [discriminate Y|]. injection Y as -> ->. rewrite app_nil_r.
  assert (N' : forall e, x' <> TOther e) by (intros e ->; now apply (N e)). clear N. unfold tcp_socket_receive in X.
  apply conn_nay in X as (st & w & -> & X); [|intros e Z; injection Z as -> ->; now apply (N' e)]. destruct (b2n st =? 23) eqn:E; cbn [negb] in X.
  - exfalso. unfold has_interrupt in X. rdx X f L. destruct (negb (negb _)) in X; [apply ret_on in X as [_ X]; discriminate X|].
    apply exec_bind_done in X as (t1 & [sz|e] & t2 & -> & X1 & X); [|apply ret_on in X as [_ X]; injection X as -> ->; now apply (N' e)].
    assert (Y : exists m, exec (tcp_receive_data t m d) t2 (Done (d0, Err x'))) by (destruct (_ <? _) in X; [eauto|]; destruct (_ <=? _) in X; [eauto|inversion X]).
    destruct Y as (m & Y). unfold tcp_receive_data, get_rx_read_pointer, set_rx_read_pointer, command, reset_interrupt in Y. rdx Y p Lp.
    apply exec_bind_done in Y as (t3 & [got r] & t4 & -> & Y1 & Y). cbn [fst snd] in Y. destruct r as [[]|e].
    + wrx Y. wrx Y. wrx Y. apply ret_on in Y as [_ Y]. discriminate Y.
    + apply ret_on in Y as [_ Y]. injection Y as -> ->. now apply (N' e).
  - apply ret_on in X as [-> X]. injection X as -> ->. split; [reflexivity|]. split; [reflexivity|]. exists st. split; [now apply not_17|reflexivity].
Qed.
Lemma conn_refused {R} t (h : terr -> R) k st w o : exec (k (b2n st =? 23)) w o -> exec (try_ (tcp_is_connected t) h k) (ERead (register (t_socket t)) 0x03 [st] (Ok tt) :: w) o.
Proof. intros X. change (?e :: w) with ([e] ++ w). apply to_try with (a := (b2n st =? 23)); [|exact X]. unfold tcp_is_connected, get_status. gr. constructor. Qed.

(** statuses the chip can report *)
Definition known : list byte := [x00; x13; x14; x15; x16; x17; x18; x1a; x1b; x1c; x1d; x22; x42].
Lemma known_status st : In st known <-> status_try_from st <> None.
Proof. split; [intros H; cbn in H; repeat destruct H as [<-|H]; try discriminate; destruct H|]. intros N. destruct st; try (now elim N); cbn; tauto. Qed.
Lemma tcp_other_nay t : forall fuel tr x, (forall e, x <> TOther e) -> ~ exec (tcp_connect_wait fuel t) tr (Done (Err x)).
Proof.
  assert (A : forall tr x, (forall e, x <> TOther e) -> ~ exec (try a <- tcp_socket_close t else Err ;; tcp_reopen t) tr (Done (Err x))).
  { intros tr x N X. apply exec_bind_done in X as (t1 & [[]|e] & t2 & -> & X1 & X); unfold tcp_socket_close, tcp_reopen, set_mode, command, reset_interrupt, set_interrupt_mask in *.
    - do 5 wrx X. apply ret_on in X as [_ X]. discriminate X.
    - apply ret_on in X as [-> [= ->]]. do 2 wrx X1. apply ret_on in X1 as [_ X1]. discriminate X1. }
  induction fuel as [|fuel IH]; intros tr x N X; cbn [tcp_connect_wait] in X; [inversion X|]. unfold get_status in X. rdx X d L.
  destruct (status_try_from _) as [[]|] in X; try (exact (IH _ _ N X)); [exact (A _ _ N X)|]. apply ret_on in X as [_ X]. discriminate X.
Qed.
Lemma connect_nay fuel t r tr x : (forall e, x <> NbOther (TOther e)) -> exec (tcp_connect fuel t (V4 r)) tr (Done (Err x)) ->
  x = NbOther TUnsupportedMode /\ exists st, (~ In st known \/ st = x22 \/ st = x42) /\ tr = opening (register (t_socket t)) (to_be (49849 + index (t_socket t))) ++ [ERead (register (t_socket t)) 0x03 [st] (Ok tt)].
Proof.
  intros N X. unfold tcp_connect in X. apply exec_bind_done in X as (t1 & [[]|e] & t2 & -> & X1 & X).
  2:{ exfalso. apply ret_on in X as [-> [= ->]]. assert (N' : forall e0, e <> TOther e0) by (intros e0 ->; now apply (N e0)). unfold tcp_open, set_mode, command, reset_interrupt, set_interrupt_mask, set_source_port in X1.
      do 6 wrx X1. apply ret_on in X1 as [_ X1]. discriminate X1. }
  unfold tcp_open, set_mode, command, reset_interrupt, set_interrupt_mask, set_source_port in X1. do 6 wr X1. apply ret_on in X1 as [-> _].
  apply exec_bind_done in X as (t1 & [[]|x'] & t3 & -> & X & Y); apply ret_on in Y as [-> Y]; [discriminate Y|]. injection Y as ->. rewrite app_nil_r.
  assert (N' : forall e, x' <> TOther e) by (intros e ->; now apply (N e)). clear N. unfold tcp_socket_connect, get_status in X. rdx X d L. apply Waits.one_byte in L as (st & ->). change (byte0 [st]) with st in X.
  assert (D : forall w, ~ exec (tcp_do_connect fuel t r) w (Done (Err x'))).
  { intros w Y. unfold tcp_do_connect, set_destination_ip, set_destination_port, command in Y. do 3 wrx Y. exact (tcp_other_nay _ _ _ _ N' Y). }
  assert (D' : forall w, ~ exec (try a <- tcp_socket_close t else Err ;; try b <- tcp_reopen t else Err ;; tcp_do_connect fuel t r) w (Done (Err x'))).
  { intros w Y. apply exec_bind_done in Y as (u1 & [[]|e] & u2 & -> & Y1 & Y); unfold tcp_socket_close, set_mode, command in Y1.
    - apply exec_bind_done in Y as (u3 & [[]|e] & u4 & -> & Y2 & Y); [exact (D _ Y)|]. apply ret_on in Y as [-> [= ->]]. unfold tcp_reopen, set_mode, command, reset_interrupt, set_interrupt_mask in Y2.
      do 5 wrx Y2. apply ret_on in Y2 as [_ Y2]. discriminate Y2.
    - apply ret_on in Y as [-> [= ->]]. do 2 wrx Y1. apply ret_on in Y1 as [_ Y1]. discriminate Y1. }
  pose proof (known_status st) as K. destruct (status_try_from st) as [[]|] eqn:E; try (now elim (D _ X)); try (now elim (D' _ X)); apply ret_on in X as [-> [= ->]]; (split; [reflexivity|]); exists st; (split; [|reflexivity]).
  - right. left. clear - E. destruct st; try reflexivity; discriminate E.
  - right. right. clear - E. destruct st; try reflexivity; discriminate E.
  - left. intros H. apply K in H. now elim H.
Qed.

(** ** UDP *)
Definition gated (st : byte) (x : nberr uerr) : Prop :=
  In st [x00; x13; x14; x15; x16; x17; x18; x1a; x1b; x1c; x1d; x42] /\ x = NbOther USocketNotOpen \/ ~ In st known /\ x = NbOther UUnrecognisedStatus.
Lemma gate_nay st e : udp_status_gate st = Err e <-> gated st e.
Proof.
  unfold gated. split.
  - intros E. destruct (status_try_from st) eqn:K.
    + left. unfold udp_status_gate in E. rewrite K in E. destruct st; try discriminate K; injection K as <-; try discriminate E; injection E as <-; (split; [cbn; tauto|reflexivity]).
    + right. split; [intros H; now apply (known_status st) in H|]. unfold udp_status_gate in E. rewrite K in E. now injection E as <-.
  - intros [[H ->]|[H ->]].
    + cbn in H. repeat destruct H as [<-|H]; try reflexivity. destruct H.
    + unfold udp_status_gate. destruct (status_try_from st) eqn:K; [|reflexivity]. elim H. apply known_status. congruence.
Qed.
Lemma udp_receive_nay fuel u d tr d' x : (forall e, x <> NbOther (UOther e)) -> exec (udp_receive fuel u d) tr (Done (d', Err x)) -> d' = d /\
  ((exists st, gated st x /\ tr = [ERead (register (u_socket u)) 0x03 [st] (Ok tt)]) \/
   (exists f, N.testbit (b2n f) 2 = false /\ x = WouldBlock /\ tr = [ERead (register (u_socket u)) 0x03 [x22] (Ok tt); ERead (register (u_socket u)) 0x02 [f] (Ok tt)]) \/
   (exists f l w, N.testbit (b2n f) 2 = true /\ Forall (fun q => fst q <> snd q /\ two q) l /\ length w = 2%nat /\ (from_be w = 0 /\ x = WouldBlock \/ from_be w <> 0 /\ d = [] /\ x = NbOther UBufferOverflow) /\
      tr = [ERead (register (u_socket u)) 0x03 [x22] (Ok tt); ERead (register (u_socket u)) 0x02 [f] (Ok tt)] ++ sized (register (u_socket u)) (l ++ [(w, w)]))).
Proof.
  intros N X. unfold udp_receive in X. apply exec_bind_done in X as (t1 & [d0 [[n a]|x']] & t2 & -> & X & Y); apply ret_on in Y as [-> Y]; cbn [fst snd] in Y; [discriminate Y|]. injection Y as -> ->. rewrite app_nil_r.
  unfold udp_socket_receive, get_status in X. rdx X s L. apply Waits.one_byte in L as (st & ->). change (byte0 [st]) with st in X.
  destruct (udp_status_gate st) as [a|e] eqn:G.
  2:{ apply gate_nay in G. apply ret_on in X as [-> X]. injection X as -> ->. split; [reflexivity|]. left. eauto. }
  apply gate_udp in G. subst st. unfold has_interrupt in X. rdx X fl L. apply Waits.one_byte in L as (f & ->). change (byte0 [f]) with f in X. change (interrupt_u8 InReceive) with 4 in X. rewrite land_bit in X.
  destruct (N.testbit (b2n f) 2) eqn:B; cbn [negb] in X.
  2:{ apply ret_on in X as [-> X]. injection X as -> ->. split; [reflexivity|]. right. left. eauto. }
  apply exec_bind_done in X as (t1 & [sz|e] & t2 & -> & X1 & X); [|apply ret_on in X as [_ X]; injection X as -> ->; now elim (N e)].
  apply size_done in X1 as (l & w & F & Lw & -> & ->). destruct (from_be w =? 0) eqn:W0.
  { apply N.eqb_eq in W0. apply ret_on in X as [-> X]. injection X as -> ->. split; [reflexivity|]. right. right. exists f, l, w. rewrite app_nil_r. split; [exact B|]. split; [exact F|]. split; [exact Lw|]. split; [left; auto|reflexivity]. }
  apply N.eqb_neq in W0. destruct (len d =? 0) eqn:D0.
  { apply N.eqb_eq, len_0_nil in D0. apply ret_on in X as [-> X]. injection X as -> ->. split; [reflexivity|]. right. right. exists f, l, w. rewrite app_nil_r. split; [exact B|]. split; [exact F|]. split; [exact Lw|]. split; [right; auto|reflexivity]. }
  exfalso. unfold get_rx_read_pointer, set_rx_read_pointer, command, reset_interrupt in X. rdx X p Lp. rdx X h Lh. unfold slice_to in X. destruct (_ <=? _) in X; [|inversion X].
  apply exec_bind_done in X as (t3 & [got r] & t4 & -> & Y1 & X). cbn [fst snd] in X. destruct r as [[]|e].
  - wrx X. wrx X. wrx X. apply ret_on in X as [_ X]. discriminate X.
  - apply ret_on in X as [_ X]. injection X as -> ->. now apply (N e).
Qed.

(** one poll of the pointers that ends in an error *)
Definition timed_out (b : N) (e : list event) : Prop :=
  exists c c', N.testbit (b2n c) 4 = false /\ N.testbit (b2n c') 3 = true /\ e = [ERead b 0x02 [c] (Ok tt); ERead b 0x02 [c'] (Ok tt); EWrite b 0x02 [x08] (Ok tt)].
Lemma flush_nay u : forall fuel tr x, (forall e, x <> NbOther (UOther e)) -> exec (udp_flush_loop fuel u) tr (Done (Err x)) -> x = NbOther UWriteTimeout /\ exists l q q' fin,
  tr = pairs (register (u_socket u)) (l ++ [(q, q')]) ++ fin /\ Forall (fun a => from_be (fst a) <> from_be (snd a) /\ two a) l /\ two (q, q') /\ from_be q = from_be q' /\
  timed_out (register (u_socket u)) fin.
Proof.
  induction fuel as [|fuel IH]; intros tr x N X; cbn [udp_flush_loop] in X; [inversion X|].
  apply exec_bind_done in X as (t1 & y & t2 & -> & X1 & X). unfold udp_try_flush_tx, get_tx_read_pointer, get_tx_write_pointer in X1.
  destruct y as [[]|[|e]]; [apply ret_on in X as [_ X]; discriminate X| |apply ret_on in X as [-> X]; injection X as ->].
  - assert (Y : exists q q', t1 = [ERead (register (u_socket u)) 0x22 q (Ok tt); ERead (register (u_socket u)) 0x24 q' (Ok tt)] /\ from_be q <> from_be q' /\ two (q, q')).
    { clear X IH. rd X1 q L. rd X1 q' L'. exists q, q'. destruct (from_be q =? from_be q') eqn:E.
      - exfalso. unfold has_interrupt, reset_interrupt in X1. rd X1 d Ld. destruct (negb _) in X1; [wr X1; apply ret_on in X1 as [_ X1]; discriminate X1|].
        rd X1 d' Ld'. destruct (negb _) in X1; [wr X1|]; apply ret_on in X1 as [_ X1]; discriminate X1.
      - apply ret_on in X1 as [-> _]. split; [reflexivity|]. split; [now apply N.eqb_neq|split; assumption]. }
    destruct Y as (q & q' & -> & Nq). destruct (IH _ _ N X) as (-> & l & p & p' & fin & -> & H1 & H2 & H3 & H4). split; [reflexivity|]. exists ((q, q') :: l), p, p', fin. split; [reflexivity|].
    split; [constructor; [exact Nq|exact H1]|auto].
  - rdx X1 q L. rdx X1 q' L'. destruct (from_be q =? from_be q') eqn:E; [|apply ret_on in X1 as [_ X1]; discriminate X1]. apply N.eqb_eq in E.
    unfold has_interrupt, reset_interrupt in X1. rdx X1 d Ld. apply Waits.one_byte in Ld as (c & ->). change (byte0 [c]) with c in X1.
    change (interrupt_u8 InSendOk) with 16 in X1. rewrite bit4 in X1.
    destruct (N.testbit (b2n c) 4) eqn:B; cbv iota in X1; [wrx X1; apply ret_on in X1 as [_ X1]; discriminate X1|].
    rdx X1 d Ld. apply Waits.one_byte in Ld as (c' & ->). change (byte0 [c']) with c' in X1. change (interrupt_u8 InTimeout) with 8 in X1. rewrite bit3 in X1.
    destruct (N.testbit (b2n c') 3) eqn:B'; cbv iota in X1; [|apply ret_on in X1 as [_ X1]; discriminate X1].
    wrx X1. apply ret_on in X1 as [-> [= ->]]. split; [reflexivity|]. exists [], q, q'. eexists. split; [rewrite app_nil_r; reflexivity|]. split; [constructor|]. split; [split; assumption|]. split; [exact E|].
    exists c, c'. split; [exact B|]. split; [exact B'|reflexivity].
Qed.
(** the send of one datagram, refused *)
Definition batch_stops (b t : N) (d : list byte) (x : nberr uerr) (tr : list event) : Prop :=
  (exists st, gated st x /\ tr = [ERead b 0x03 [st] (Ok tt)]) \/
  (exists f, length f = 2%nat /\ from_be f = 0 /\ x = NbOther UBufferFull /\ tr = [ERead b 0x03 [x22] (Ok tt); ERead b 0x20 f (Ok tt)]) \/
  (exists f p l q q' fin, x = NbOther UWriteTimeout /\ length f = 2%nat /\ length p = 2%nat /\ from_be f <> 0 /\
    Forall (fun a => from_be (fst a) <> from_be (snd a) /\ two a) l /\ two (q, q') /\ from_be q = from_be q' /\ timed_out b fin /\
    let n := N.min (len d) (from_be f) in
    tr = [ERead b 0x03 [x22] (Ok tt); ERead b 0x20 f (Ok tt); ERead b 0x24 p (Ok tt); EWrite t (from_be p) (take n d) (Ok tt);
      EWrite b 0x24 (to_be (wadd16 (from_be p) (as_u16 n))) (Ok tt); EWrite b 0x01 [x20] (Ok tt)] ++ pairs b (l ++ [(q, q')]) ++ fin).
Lemma batch_nay fuel u d tr x : u_dest u <> None -> (forall e, x <> NbOther (UOther e)) -> exec (udp_socket_send fuel u d) tr (Done (Err x)) ->
  batch_stops (register (u_socket u)) (tx_buffer (u_socket u)) d x tr.
Proof.
  intros Hu N X. unfold udp_socket_send, get_status, get_tx_free_size in X. rdx X w L. apply Waits.one_byte in L as (st & ->). change (byte0 [st]) with st in X.
  destruct (udp_status_gate st) as [a|e] eqn:G; [|apply ret_on in X as [-> [= ->]]; left; exists st; split; [now apply gate_nay|reflexivity]]. apply gate_udp in G. subst st. right.
  destruct (u_dest u); [|now elim Hu]. rdx X f Lf. destruct (from_be f =? 0) eqn:E0; [left; apply ret_on in X as [-> [= ->]]; apply N.eqb_eq in E0; eauto|]. apply N.eqb_neq in E0. right.
  assert (K : exists d1, d1 = take (N.min (len d) (from_be f)) d /\ len d1 = N.min (len d) (from_be f) /\ exec (udp_send_data fuel u d1) x1 (Done (Err x))).
  { destruct (len d <? from_be f) eqn:E.
    - apply N.ltb_lt in E. exists d. rewrite N.min_l by lia. split; [unfold take, len; rewrite Nnat.Nat2N.id; now rewrite firstn_all|]. split; [reflexivity|exact X].
    - apply N.ltb_ge in E. rewrite N.min_r by lia. unfold slice_to in X. destruct (from_be f <=? len d); [|inversion X]. exists (take (from_be f) d). split; [reflexivity|]. split; [|exact X].
      unfold take, len in *. rewrite firstn_length. lia. }
  destruct K as (d1 & Ed & Ld & Y). clear X. unfold udp_send_data, get_tx_write_pointer, set_tx_write_pointer, udp_block_send_command, command in Y.
  rdx Y p Lp. wrx Y. wrx Y. apply exec_bind_done in Y as (t1 & [[]|y] & t2 & -> & Y1 & Y); apply ret_on in Y as [-> Y]; [discriminate Y|]. injection Y as ->. wrx Y1.
  destruct (flush_nay _ _ _ _ N Y1) as (-> & l & q & q' & fin & -> & H1 & H2 & H3 & H4). exists f, p, l, q, q', fin. rewrite app_nil_r, Ld.
  split; [reflexivity|]. split; [exact Lf|]. split; [exact Lp|]. split; [exact E0|]. split; [exact H1|]. split; [exact H2|]. split; [exact H3|]. split; [exact H4|]. cbv zeta. rewrite <- Ed. reflexivity.
Qed.
(** the datagrams before the one refused *)
Inductive stops (b t : N) (x : nberr uerr) : N -> list byte -> list event -> Prop :=
| stop_now cap d tr : d <> [] -> batch_stops b t (take (N.min cap (len d)) d) x tr -> stops b t x cap d tr
| stop_later cap d d1 d2 f p l q q' fin f' rest : d <> [] -> d = d1 ++ d2 -> length f = 2%nat -> length p = 2%nat -> length f' = 2%nat -> from_be f <> 0 ->
    len d1 = N.min (N.min cap (len d)) (from_be f) -> Forall (fun a => from_be (fst a) <> from_be (snd a) /\ two a) l -> two (q, q') -> from_be q = from_be q' -> settled b fin ->
    stops b t x (from_be f') d2 rest ->
    stops b t x cap d ([ERead b 0x03 [x22] (Ok tt); ERead b 0x20 f (Ok tt); ERead b 0x24 p (Ok tt); EWrite t (from_be p) d1 (Ok tt);
      EWrite b 0x24 (to_be (wadd16 (from_be p) (as_u16 (len d1)))) (Ok tt); EWrite b 0x01 [x20] (Ok tt)] ++ pairs b (l ++ [(q, q')]) ++ fin ++ [ERead b 0x20 f' (Ok tt)] ++ rest).
Lemma loop_nay fuel u d x : u_dest u <> None -> (forall e, x <> NbOther (UOther e)) -> forall outer cap total tr, total <= len d -> exec (udp_send_loop outer fuel u d cap total) tr (Done (Err x)) ->
  stops (register (u_socket u)) (tx_buffer (u_socket u)) x cap (drop total d) tr.
Proof.
  intros Hu N. induction outer as [|outer IH]; intros cap total tr Ht X; cbn [udp_send_loop] in X; destruct (total =? len d) eqn:E.
  1,3: apply ret_on in X as [_ X]; discriminate X.
  - inversion X.
  - apply N.eqb_neq in E. unfold slice_from, slice_to in X. destruct (total <=? len d); [|inversion X]. destruct (_ <=? _) in X; [|inversion X].
    set (rem := drop total d) in *. assert (Lr : len rem = len d - total) by (subst rem; unfold drop, len in *; rewrite skipn_length; lia).
    assert (Nr : rem <> []) by (intros Z0; rewrite Z0 in Lr; change (len []) with 0 in Lr; lia).
    apply exec_bind_done in X as (t1 & [n|y] & t2 & -> & X1 & X).
    2:{ apply ret_on in X as [-> [= ->]]. rewrite app_nil_r. apply stop_now; [exact Nr|]. exact (batch_nay _ _ _ _ _ Hu N X1). }
    unfold get_tx_free_size in X. rdx X f' Lf'.
    destruct (batch_done _ _ _ _ _ X1) as (f & p & l & q & q' & fin & Lf & Lp & F0 & En & H1 & H2 & H3 & H4 & ->).
    assert (Lt : len (take (N.min cap (len rem)) rem) = N.min cap (len rem)) by (unfold take, len in *; rewrite firstn_length; lia).
    rewrite Lt in En. assert (Tt : take n (take (N.min cap (len rem)) rem) = take n rem) by (unfold take; rewrite firstn_firstn; f_equal; lia).
    assert (Dd : drop (total + n) d = drop n rem). { subst rem. now rewrite drop_drop. }
    apply IH in X; [|lia]. rewrite Dd in X. rewrite Tt. rewrite <- !app_assoc.
    assert (Ln : len (take n rem) = n) by (unfold take, len in *; rewrite firstn_length; lia).
    pose proof (stop_later (register (u_socket u)) (tx_buffer (u_socket u)) x cap rem (take n rem) (drop n rem) f p l q q' fin f' x0) as Z. rewrite Ln in Z. apply Z; auto.
    unfold take, drop. symmetry. apply firstn_skipn.
Qed.
Lemma udp_send_nay fuel u d tr x : u_dest u <> None -> (forall e, x <> NbOther (UOther e)) -> exec (udp_send_all fuel u d) tr (Done (Err x)) ->
  (exists st, gated st x /\ tr = [ERead (register (u_socket u)) 0x03 [st] (Ok tt)]) \/
  exists f rest, length f = 2%nat /\ tr = [ERead (register (u_socket u)) 0x03 [x22] (Ok tt); ERead (register (u_socket u)) 0x20 f (Ok tt)] ++ rest /\
  (from_be f = 0 /\ x = NbOther UBufferFull /\ rest = [] \/ from_be f <> 0 /\ stops (register (u_socket u)) (tx_buffer (u_socket u)) x (from_be f) d rest).
Proof.
  intros Hu N X. unfold udp_send_all, get_status, get_tx_free_size in X. rdx X w L. apply Waits.one_byte in L as (st & ->). change (byte0 [st]) with st in X.
  destruct (udp_status_gate st) as [a|e] eqn:G; [|apply ret_on in X as [-> [= ->]]; left; exists st; split; [now apply gate_nay|reflexivity]]. apply gate_udp in G. subst st. right.
  destruct (u_dest u) eqn:Ed; [|now elim Hu]. rdx X f Lf. exists f, x1. split; [exact Lf|]. split; [reflexivity|].
  destruct (from_be f =? 0) eqn:E0; [left; apply ret_on in X as [-> [= ->]]; apply N.eqb_eq in E0; auto|]. apply N.eqb_neq in E0. right. split; [exact E0|].
  apply (loop_nay fuel u d x ltac:(congruence) N _ _ 0 _) in X; [exact X|lia].
Qed.

(** ** Building the refusals up *)
Lemma gate_make {R} s (h : berr -> R) k st w o : exec (k st) w o -> exec (try_ (get_status s) h k) (ERead (register s) 0x03 [st] (Ok tt) :: w) o.
Proof. intros X. unfold get_status. gr. exact X. Qed.
Lemma timeout_make u fin : timed_out (register (u_socket u)) fin -> forall q q', length q = 2%nat -> length q' = 2%nat -> from_be q = from_be q' ->
  forall l, Forall (fun a => from_be (fst a) <> from_be (snd a) /\ two a) l -> forall fuel, (length l < fuel)%nat ->
  exec (udp_flush_loop fuel u) (pairs (register (u_socket u)) (l ++ [(q, q')]) ++ fin) (Done (Err (NbOther UWriteTimeout))).
Proof.
  intros (c & c' & Bc & Bc' & ->) q q' Lq Lq' Eq. induction l as [|[a b] l IH]; intros F [|fuel] L; cbn [length] in L; try lia; cbn [udp_flush_loop List.app pairs flat_map fst snd].
  - match goal with |- exec _ ?tr _ => rewrite <- (app_nil_r tr) end. apply exec_bind_intro with (a := Err (NbOther UWriteTimeout)); [|constructor]. unfold udp_try_flush_tx, get_tx_read_pointer, get_tx_write_pointer. gr. gr.
    rewrite (proj2 (N.eqb_eq _ _) Eq). unfold has_interrupt, reset_interrupt. gr. change (byte0 [c]) with c. change (interrupt_u8 InSendOk) with 16. rewrite bit4, Bc.
    gr. change (byte0 [c']) with c'. change (interrupt_u8 InTimeout) with 8. rewrite bit3, Bc'. gw. constructor.
  - inversion F as [|? ? (N & L1 & L2) F']; subst. cbn [fst snd] in *. change (?x :: ?y :: ?w) with ([x; y] ++ w) at 1. apply exec_bind_intro with (a := Err WouldBlock).
    + unfold udp_try_flush_tx, get_tx_read_pointer, get_tx_write_pointer. gr. gr. rewrite (proj2 (N.eqb_neq _ _) N). constructor.
    + apply IH; [exact F'|lia].
Qed.
Lemma stop_make u d x tr : u_dest u <> None -> batch_stops (register (u_socket u)) (tx_buffer (u_socket u)) d x tr ->
  exists N, forall fuel, (N <= fuel)%nat -> exec (udp_socket_send fuel u d) tr (Done (Err x)).
Proof.
  intros Hu [(st & G & ->)|[(f & Lf & F0 & -> & ->)|(f & p & l & q & q' & fin & -> & Lf & Lp & F0 & Hl & [Lq Lq'] & Eq & T & H)]].
  - exists 0%nat. intros fuel _. unfold udp_socket_send. apply gate_make. apply gate_nay in G. rewrite G. constructor.
  - exists 0%nat. intros fuel _. unfold udp_socket_send. apply to_udp. change (udp_status_gate x22) with (@Ok unit (nberr uerr) tt). cbv iota.
    destruct (u_dest u); [|now elim Hu]. unfold get_tx_free_size. gr. rewrite (proj2 (N.eqb_eq _ _) F0). constructor.
  - exists (1 + length l)%nat. intros fuel Hf. cbv zeta in H. rewrite H. set (n := N.min (len d) (from_be f)). unfold udp_socket_send. cbn [List.app]. apply to_udp. change (udp_status_gate x22) with (@Ok unit (nberr uerr) tt). cbv iota.
    destruct (u_dest u); [|now elim Hu]. unfold get_tx_free_size. gr. rewrite (proj2 (N.eqb_neq _ _) F0).
    assert (X : forall d0, d0 = take n d -> len d0 = n -> exec (udp_send_data fuel u d0) (ERead (register (u_socket u)) 0x24 p (Ok tt) :: EWrite (tx_buffer (u_socket u)) (from_be p) (take n d) (Ok tt) ::
      EWrite (register (u_socket u)) 0x24 (to_be (wadd16 (from_be p) (as_u16 n))) (Ok tt) :: EWrite (register (u_socket u)) 0x01 [x20] (Ok tt) :: pairs (register (u_socket u)) (l ++ [(q, q')]) ++ fin) (Done (Err (NbOther UWriteTimeout)))).
    { intros d0 E0 L0. rewrite <- E0, <- L0. unfold udp_send_data, get_tx_write_pointer, set_tx_write_pointer, udp_block_send_command, command. gr. gw. gw.
      match goal with |- exec _ ?tr _ => rewrite <- (app_nil_r tr) end. apply exec_bind_intro with (a := Err (NbOther UWriteTimeout)); [|constructor]. gw. apply timeout_make; auto. }
    destruct (len d <? from_be f) eqn:F.
    + apply N.ltb_lt in F. assert (En : n = len d) by (subst n; lia). apply X; [|now rewrite En]. rewrite En. unfold take, len. now rewrite Nnat.Nat2N.id, firstn_all.
    + apply N.ltb_ge in F. assert (En : n = from_be f) by (subst n; lia). unfold slice_to. rewrite (proj2 (N.leb_le _ _) F). apply X; [now rewrite En|].
      rewrite En. unfold take, len in *. rewrite firstn_length. lia.
Qed.
Lemma stops_make u d x : u_dest u <> None -> forall cap rem tr, stops (register (u_socket u)) (tx_buffer (u_socket u)) x cap rem tr ->
  forall total, total <= len d -> rem = drop total d -> exists N, forall outer fuel, (N <= outer)%nat -> (N <= fuel)%nat ->
  exec (udp_send_loop outer fuel u d cap total) tr (Done (Err x)).
Proof.
  intros Hu cap rem tr S. induction S as [cap rem tr Nd B|cap rem d1 d2 f p l q q' fin f' rest Nd Ed Lf Lp Lf' F0 L1 Hl Lq Eq St SS IH]; intros total Ht Er.
  - assert (Lr : len rem = len d - total) by (rewrite Er; apply len_drop). assert (R0 : len rem <> 0) by (intros E; apply Nd; now apply len_0_nil).
    destruct (stop_make _ _ _ _ Hu B) as (N & HN). exists (1 + N)%nat. intros [|outer] fuel Ho Hf; [lia|]. cbn [udp_send_loop].
    rewrite (proj2 (N.eqb_neq total (len d)) ltac:(lia)). unfold slice_from, slice_to. rewrite (proj2 (N.leb_le total (len d)) Ht), <- Er, (proj2 (N.leb_le (N.min cap (len rem)) (len rem)) ltac:(lia)).
    rewrite <- (app_nil_r tr). apply exec_bind_intro with (a := Err x); [apply HN; lia|constructor].
  - assert (Lr : len rem = len d - total) by (rewrite Er; apply len_drop). assert (R0 : len rem <> 0) by (intros E; apply Nd; now apply len_0_nil).
    set (n := len d1) in *. assert (E1 : d1 = take n rem). { subst n. rewrite Ed. unfold take, len. rewrite Nnat.Nat2N.id, firstn_app, firstn_all, Nat.sub_diag. cbn [firstn]. now rewrite app_nil_r. }
    assert (E2 : d2 = drop n rem). { subst n. rewrite Ed. unfold drop, len. rewrite Nnat.Nat2N.id, skipn_app, skipn_all, Nat.sub_diag. reflexivity. }
    destruct (IH (total + n)) as (N & HN); [lia|rewrite E2, Er; apply drop_drop|]. exists (1 + (N + length l))%nat. intros [|outer] fuel Ho Hf; [lia|]. cbn [udp_send_loop].
    rewrite (proj2 (N.eqb_neq total (len d)) ltac:(lia)). unfold slice_from, slice_to. rewrite (proj2 (N.leb_le total (len d)) Ht), <- Er, (proj2 (N.leb_le (N.min cap (len rem)) (len rem)) ltac:(lia)).
    set (b := take (N.min cap (len rem)) rem). assert (Lb : len b = N.min cap (len rem)) by (subst b; unfold take, len in *; rewrite firstn_length; lia).
    assert (En : n = N.min (len b) (from_be f)) by (rewrite Lb; exact L1). assert (Tb : take n b = d1) by (rewrite E1; subst b; unfold take; rewrite firstn_firstn; f_equal; lia).
    rewrite !app_assoc, <- (app_assoc _ _ rest), <- !(app_assoc _ _ fin). cbn [List.app].
    apply (to_try _ _ _ ([ERead (register (u_socket u)) 0x03 [x22] (Ok tt); ERead (register (u_socket u)) 0x20 f (Ok tt); ERead (register (u_socket u)) 0x24 p (Ok tt); EWrite (tx_buffer (u_socket u)) (from_be p) d1 (Ok tt);
      EWrite (register (u_socket u)) 0x24 (to_be (wadd16 (from_be p) (as_u16 n))) (Ok tt); EWrite (register (u_socket u)) 0x01 [x20] (Ok tt)] ++ pairs (register (u_socket u)) (l ++ [(q, q')]) ++ fin) n).
    + rewrite <- Tb, En. apply batch_make; auto. lia.
    + unfold get_tx_free_size. gr. apply HN; lia.
Qed.
Lemma udp_send_refused u d x tr : u_dest u <> None ->
  (exists st, gated st x /\ tr = [ERead (register (u_socket u)) 0x03 [st] (Ok tt)]) \/
  (exists f rest, length f = 2%nat /\ tr = [ERead (register (u_socket u)) 0x03 [x22] (Ok tt); ERead (register (u_socket u)) 0x20 f (Ok tt)] ++ rest /\
   (from_be f = 0 /\ x = NbOther UBufferFull /\ rest = [] \/ from_be f <> 0 /\ stops (register (u_socket u)) (tx_buffer (u_socket u)) x (from_be f) d rest)) ->
  exists fuel, exec (udp_send_all fuel u d) tr (Done (Err x)).
Proof.
  intros Hu [(st & G & ->)|(f & rest & Lf & -> & [(F0 & -> & ->)|[F0 S]])].
  - exists 0%nat. unfold udp_send_all. apply gate_make. apply gate_nay in G. rewrite G. constructor.
  - exists 0%nat. unfold udp_send_all. cbn [List.app]. apply to_udp. change (udp_status_gate x22) with (@Ok unit (nberr uerr) tt). cbv iota.
    destruct (u_dest u); [|now elim Hu]. unfold get_tx_free_size. gr. rewrite (proj2 (N.eqb_eq _ _) F0). constructor.
  - destruct (stops_make u d x Hu _ _ _ S 0) as (N & HN); [lia|reflexivity|]. exists N. unfold udp_send_all. cbn [List.app]. apply to_udp. change (udp_status_gate x22) with (@Ok unit (nberr uerr) tt). cbv iota.
    destruct (u_dest u); [|now elim Hu]. unfold get_tx_free_size. gr. rewrite (proj2 (N.eqb_neq _ _) F0). now apply HN.
Qed.

(** ** The two panics *)
Lemma bind_panic {A B} (p : prog A) (f : A -> prog B) tr w : exec (bind p f) tr (Panicked w) ->
  (exists t1 a t2, tr = t1 ++ t2 /\ exec p t1 (Done a) /\ exec (f a) t2 (Panicked w)) \/ exec p tr (Panicked w).
Proof. intros X. apply exec_bind_inv in X as [X|(o & X & _ & E)]; [auto|]. right. destruct o; try discriminate E. injection E as ->. exact X. Qed.
Lemma size_calm s : forall fuel tr w, ~ exec (get_receive_size fuel s) tr (Panicked w).
Proof. induction fuel as [|fuel IH]; intros tr w X; cbn [get_receive_size] in X; [inversion X|]. rd X a L. rd X b L'. destruct (bytes_eqb _ _) in X; [inversion X|exact (IH _ _ X)]. Qed.
Lemma ret_calm {A} (a : A) tr w : ~ exec (Ret a) tr (Panicked w). Proof. intros X. inversion X. Qed.
Lemma read_calm b a d tr w : ~ exec (read_into b a d) tr (Panicked w).
Proof. intros X. inversion X; subst. match goal with Y : exec _ _ _ |- _ => inversion Y end. Qed.
Lemma udp_receive_panic fuel u d tr w : exec (udp_receive fuel u d) tr (Panicked w) -> w = P_udp_recv_slice /\ exists f l z p h, N.testbit (b2n f) 2 = true /\
  Forall (fun q => fst q <> snd q /\ two q) l /\ length z = 2%nat /\ from_be z <> 0 /\ d <> [] /\ length p = 2%nat /\ length h = 8%nat /\ len d < from_be (skipn 6 h) /\
  tr = [ERead (register (u_socket u)) 0x03 [x22] (Ok tt); ERead (register (u_socket u)) 0x02 [f] (Ok tt)] ++ sized (register (u_socket u)) (l ++ [(z, z)]) ++
    [ERead (register (u_socket u)) 0x28 p (Ok tt); ERead (rx_buffer (u_socket u)) (from_be p) h (Ok tt)].
Proof.
  intros X. unfold udp_receive in X. apply bind_panic in X as [(t1 & a & t2 & _ & _ & X)|X]; [now apply ret_calm in X|].
  unfold udp_socket_receive, get_status in X. rd X s L. apply Waits.one_byte in L as (st & ->). change (byte0 [st]) with st in X.
  destruct (udp_status_gate st) as [a|e] eqn:G; [|now apply ret_calm in X]. apply gate_udp in G. subst st.
  unfold has_interrupt in X. rd X fl L. apply Waits.one_byte in L as (f & ->). change (byte0 [f]) with f in X. change (interrupt_u8 InReceive) with 4 in X. rewrite land_bit in X.
  destruct (N.testbit (b2n f) 2) eqn:B; cbn [negb] in X; [|now apply ret_calm in X].
  apply bind_panic in X as [(t1 & [sz|e] & t2 & -> & X1 & X)|X]; [|now apply ret_calm in X|now apply size_calm in X].
  apply size_done in X1 as (l & z & F & Lz & -> & ->). destruct (from_be z =? 0) eqn:Z0; [now apply ret_calm in X|]. apply N.eqb_neq in Z0.
  destruct (len d =? 0) eqn:D0; [now apply ret_calm in X|]. apply N.eqb_neq in D0.
  unfold get_rx_read_pointer, set_rx_read_pointer, command, reset_interrupt in X. rd X p Lp. rd X h Lh.
  assert (Eh : h_len (udp_header_from h) = from_be (skipn 6 h)) by (destruct h as [|h0 [|h1 [|h2 [|h3 [|h4 [|h5 [|h6 [|h7 [|]]]]]]]]]; try discriminate; reflexivity).
  unfold slice_to in X. rewrite Eh in X. destruct (_ <=? _) eqn:S in X.
  - exfalso. apply bind_panic in X as [(t3 & [got r] & t4 & _ & _ & X)|X]; [|now apply read_calm in X]. cbn [fst snd] in X. destruct r as [[]|e]; [|now apply ret_calm in X].
    wr X. wr X. wr X. now apply ret_calm in X.
  - apply N.leb_gt in S. inversion X; subst. split; [reflexivity|]. exists f, l, z, p, h. repeat (split; [assumption|]). split; [intros ->; now apply D0|]. repeat (split; [assumption|]). split; [lia|]. reflexivity.
Qed.
Lemma udp_receive_panics u d f l z p h : N.testbit (b2n f) 2 = true -> Forall (fun q => fst q <> snd q /\ two q) l -> length z = 2%nat -> from_be z <> 0 -> d <> [] ->
  length p = 2%nat -> length h = 8%nat -> len d < from_be (skipn 6 h) -> forall fuel, (length l < fuel)%nat -> exec (udp_receive fuel u d)
  ([ERead (register (u_socket u)) 0x03 [x22] (Ok tt); ERead (register (u_socket u)) 0x02 [f] (Ok tt)] ++ sized (register (u_socket u)) (l ++ [(z, z)]) ++
    [ERead (register (u_socket u)) 0x28 p (Ok tt); ERead (rx_buffer (u_socket u)) (from_be p) h (Ok tt)]) (Panicked P_udp_recv_slice).
Proof.
  intros B F Lz Z0 D0 Lp Lh Hl fuel Hf. unfold udp_receive. 
  enough (X : exec (udp_socket_receive fuel u d) ([ERead (register (u_socket u)) 0x03 [x22] (Ok tt); ERead (register (u_socket u)) 0x02 [f] (Ok tt)] ++ sized (register (u_socket u)) (l ++ [(z, z)]) ++
    [ERead (register (u_socket u)) 0x28 p (Ok tt); ERead (rx_buffer (u_socket u)) (from_be p) h (Ok tt)]) (Panicked P_udp_recv_slice)).
  { clear - X. set (k := fun r => _). clearbody k. revert X. generalize (udp_socket_receive fuel u d). intros q X. remember (Panicked P_udp_recv_slice) as o eqn:Eo. revert Eo. induction X; intros Eo; try discriminate Eo; cbn [bind].
    - injection Eo as ->. constructor.
    - constructor; auto.
    - constructor; auto. }
  unfold udp_socket_receive. cbn [List.app]. apply to_udp. change (udp_status_gate x22) with (@Ok unit (nberr uerr) tt). cbv iota.
  unfold has_interrupt. gr. change (byte0 [f]) with f. change (interrupt_u8 InReceive) with 4. rewrite land_bit, B. cbn [negb].
  apply to_try with (a := from_be z); [now apply size_make|]. rewrite (proj2 (N.eqb_neq _ _) Z0).
  assert (Dn : len d <> 0) by (intros E; apply D0; now apply len_0_nil). rewrite (proj2 (N.eqb_neq _ _) Dn). unfold get_rx_read_pointer. gr. gr.
  assert (Eh : h_len (udp_header_from h) = from_be (skipn 6 h)) by (destruct h as [|h0 [|h1 [|h2 [|h3 [|h4 [|h5 [|h6 [|h7 [|]]]]]]]]]; try discriminate; reflexivity).
  rewrite Eh. unfold slice_to. destruct (_ <=? _) eqn:E; [apply N.leb_le in E; lia|]. constructor.
Qed.
Lemma rx_read_calm s c b tr w : ~ exec (rx_read s c b) tr (Panicked w).
Proof.
  intros X. unfold rx_read in X. destruct b as [|y b]; [now apply ret_calm in X|]. cbv zeta in X. unfold slice_to in X. destruct (_ <=? _) eqn:E in X.
  - apply bind_panic in X as [(t3 & [got r] & t4 & _ & _ & X)|X]; [|now apply read_calm in X]. cbn [fst snd] in X. destruct r; now apply ret_calm in X.
  - apply N.leb_gt in E. unfold as_u16 in E. pose proof (N.mod_le (len (y :: b)) 65536 ltac:(discriminate)). lia.
Qed.
Lemma raw_read_panic fuel r frame tr w : exec (raw_read_frame fuel r frame) tr (Panicked w) -> w = P_raw_assert /\ exists l z p h,
  Forall (fun q => fst q <> snd q /\ two q) l /\ length z = 2%nat /\ from_be z = 1 /\ length p = 2%nat /\
  tr = sized (register (raw_socket r)) (l ++ [(z, z)]) ++ [ERead (register (raw_socket r)) 0x28 p (Ok tt); ERead (rx_buffer (raw_socket r)) (from_be p) [h] (Ok tt)].
Proof.
  intros X. unfold raw_read_frame in X. apply bind_panic in X as [(t1 & [c|e] & t2 & -> & X1 & X)|X]; [|now apply ret_calm in X|].
  2:{ exfalso. unfold rx_new in X. apply bind_panic in X as [(t1 & [c|e] & t2 & _ & _ & X)|X]; [|now apply ret_calm in X|now apply size_calm in X]. unfold get_rx_read_pointer in X. rd X p L. now apply ret_calm in X. }
  unfold rx_new in X1. apply try_on in X1 as (t3 & sz & t4 & -> & X2 & X1); [|discriminate]. apply size_done in X2 as (l & z & F & Lz & -> & ->). unfold get_rx_read_pointer in X1. rd X1 p Lp. apply ret_on in X1 as [-> [= ->]].
  unfold available in X. cbn [size] in X. destruct (from_be z =? 0) eqn:Z0; [now apply ret_calm in X|]. apply N.eqb_neq in Z0.
  apply bind_panic in X as [(t5 & [h rr] & t6 & -> & X1 & X)|X]; [|now apply rx_read_calm in X]. cbn [fst snd] in X. destruct rr as [[c2 n]|e]; [|now apply ret_calm in X]. cbn [fst snd] in X.
  change (zeros 2) with [x00; x00] in X1. unfold rx_read in X1. cbv zeta in X1. change (as_u16 (len [x00; x00])) with 2 in X1. unfold available in X1. cbn [size ptr] in X1. unfold slice_to in X1.
  destruct (_ <=? _) in X1; [|inversion X1]. apply exec_bind_done in X1 as (t7 & [got r1] & t8 & -> & X1 & X2). unfold read_into in X1. inversion X1; subst. clear X1.
  match goal with Y : exec (Ret _) _ (Done _) |- _ => first [apply ret_on in Y as [-> Y]; injection Y as -> ->] end. cbn [fst snd] in X2.
  match type of X2 with exec (match ?r with _ => _ end) _ _ => destruct r as [[]|e] end; apply ret_on in X2 as [-> X2]; [|discriminate X2]. injection X2 as -> -> ->.
  destruct (N.eqb_spec (from_be z) 1) as [Z1|Z1].
  - match goal with Y : length _ = length (take _ _) |- _ => rename Y into Lg end. rewrite Z1 in *. change (length (take (N.min 1 2) [x00; x00])) with 1%nat in Lg. destruct got0 as [|h0 [|]]; try discriminate Lg.
    destruct (_ =? 2) eqn:E in X; [vm_compute in E; discriminate E|]. inversion X; subst. split; [reflexivity|]. exists l, z, p, h0. rewrite <- !app_assoc. auto 6.
  - exfalso. destruct (_ =? 2) eqn:E in X.
    + unfold raw_read_body in X. apply bind_panic in X as [(t7 & [fr r2] & t8 & _ & _ & X)|X].
      * cbn [fst snd] in X. destruct r2 as [[c3 n3]|e]; [|now apply ret_calm in X]. apply bind_panic in X as [(t9 & [a|e] & t10 & _ & _ & X)|X]; [now apply ret_calm in X|now apply ret_calm in X|].
        unfold rx_commit, set_rx_read_pointer, command in X. wr X. wr X. now apply ret_calm in X.
      * unfold rx_read_upto in X. destruct (_ <? _) eqn:Lt in X; [|now apply rx_read_calm in X]. unfold slice_to in X. destruct (_ <=? _) eqn:Le in X; [|apply N.leb_gt in Le; apply N.ltb_lt in Lt; lia].
        apply bind_panic in X as [(t9 & a & t10 & _ & _ & X)|X]; [now apply ret_calm in X|now apply rx_read_calm in X].
    + apply N.eqb_neq in E. apply E. unfold rx_skip, available. cbn [size snd]. lia.
Qed.
Lemma raw_read_panics r frame l z p h : Forall (fun q => fst q <> snd q /\ two q) l -> length z = 2%nat -> from_be z = 1 -> length p = 2%nat -> forall fuel, (length l < fuel)%nat ->
  exec (raw_read_frame fuel r frame) (sized (register (raw_socket r)) (l ++ [(z, z)]) ++ [ERead (register (raw_socket r)) 0x28 p (Ok tt); ERead (rx_buffer (raw_socket r)) (from_be p) [h] (Ok tt)]) (Panicked P_raw_assert).
Proof.
  intros F Lz Z1 Lp fuel Hf. unfold raw_read_frame. change ([?a; ?b]) with ([a] ++ [b]). rewrite app_assoc. apply to_try with (a := mkCursor (from_be p) (from_be z)).
  { unfold rx_new. apply to_try with (a := from_be z); [now apply size_make|]. unfold get_rx_read_pointer. gr. constructor. }
  unfold available. cbn [size]. rewrite Z1. change (1 =? 0) with false. cbv iota. rewrite <- (app_nil_r [_]).
  pose proof (rx_read_make (raw_socket r) (mkCursor (from_be p) 1) (zeros 2) [h] ltac:(reflexivity) ltac:(reflexivity)) as X. eapply exec_bind_intro; [exact X|]. constructor.
Qed.
