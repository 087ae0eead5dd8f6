(** Why each call fails: the accesses that lead to each error. *)
From Verif Require Export LifeFacts.
From Verif Require Import Datasheet CallFacts.

(** ** What holds of a result, given the accesses made so far (latest first) *)
Fixpoint after {A} (C : list event -> A -> Prop) (h : list event) (p : prog A) {struct p} : Prop :=
  match p with
  | Ret a => C h a
  | Panic _ | Spin => True
  | BusRead b a d k => forall got r, length got = length d -> after C (ERead b a got r :: h) (k (got, r))
  | BusWrite b a d k => forall r, after C (EWrite b a d r :: h) (k r)
  end.
Lemma after_exec {A} (C : list event -> A -> Prop) p tr o : exec p tr o -> forall a h, o = Done a -> after C h p -> C (rev tr ++ h) a.
Proof.
  induction 1; intros a0 h E K; try discriminate E.
  - injection E as <-. exact K.
  - cbn [rev]. rewrite <- app_assoc. cbn [List.app]. apply IHexec; [exact E|]. apply K. assumption.
  - cbn [rev]. rewrite <- app_assoc. cbn [List.app]. apply IHexec; [exact E|]. apply K.
Qed.
Lemma after_mono {A} (C C' : list event -> A -> Prop) : (forall h a, C h a -> C' h a) -> forall p h, after C h p -> after C' h p.
Proof. intros H. induction p as [a|w| |b a d k IH|b a d k IH]; intros h K; cbn [after] in *; auto. Qed.
Lemma after_bind {A B} (C : list event -> B -> Prop) (p : prog A) (f : A -> prog B) : forall h,
  after (fun h' a => after C h' (f a)) h p -> after C h (bind p f).
Proof. induction p as [a|w| |b a d k IH|b a d k IH]; intros h K; cbn [after bind] in *; auto. Qed.
Lemma after_try {A E B} (C : list event -> B -> Prop) (p : prog (res A E)) (hd : E -> B) k h :
  after (fun h' r => match r with Ok a => after C h' (k a) | Err e => C h' (hd e) end) h p -> after C h (try_ p hd k).
Proof. intros H. apply after_bind. eapply after_mono; [|exact H]. intros h' [a|e] K; exact K. Qed.

(** ** Bus errors *)
Definition busf (e : berr) (h : list event) : Prop := exists ev h', h = ev :: h' /\ ev_result ev = Err e.
(** a computation whose errors are bus errors *)
Definition leaf {A} (p : prog (res A berr)) : Prop := forall h, after (fun h' r => match r with Ok _ => True | Err e => busf e h' end) h p.
Lemma leaf_write b a d : leaf (write_frame b a d).
Proof. intros h [u|e]; cbn [after]; [exact I|]. exists (EWrite b a d (Err e)), h. split; reflexivity. Qed.
Lemma leaf_read b a n : leaf (read_reg b a n).
Proof. intros h got [u|e] _; cbn [after fst snd]; [exact I|]. exists (ERead b a got (Err e)), h. split; reflexivity. Qed.
Lemma leaf_try {A B} (p : prog (res A berr)) (k : A -> prog (res B berr)) : leaf p -> (forall a, leaf (k a)) -> leaf (try_ p Err k).
Proof. intros H K h. apply after_try. eapply after_mono; [|apply H]. intros h' [a|e] X; [apply K|exact X]. Qed.
Lemma leaf_ret {A} (a : A) : leaf (Ret (Ok a)). Proof. intros h. exact I. Qed.
Lemma leaf_spin {A} : @leaf A Spin. Proof. intros h. exact I. Qed.
Create HintDb lf discriminated.
Global Hint Resolve leaf_write leaf_read leaf_ret leaf_spin : lf.
Ltac lf := repeat first [apply leaf_write|apply leaf_read|apply leaf_ret|apply leaf_spin|apply leaf_try; [|intros]].
Lemma leaf_status s : leaf (get_status s). Proof. unfold get_status. lf. Qed.
Lemma leaf_has s k : leaf (has_interrupt s k). Proof. unfold has_interrupt. lf. Qed.
Lemma leaf_txr s : leaf (get_tx_read_pointer s). Proof. unfold get_tx_read_pointer. lf. Qed.
Lemma leaf_txw s : leaf (get_tx_write_pointer s). Proof. unfold get_tx_write_pointer. lf. Qed.
Lemma leaf_rxr s : leaf (get_rx_read_pointer s). Proof. unfold get_rx_read_pointer. lf. Qed.
Lemma leaf_fsr s : leaf (get_tx_free_size s). Proof. unfold get_tx_free_size. lf. Qed.
Lemma leaf_rsr fuel s : leaf (get_receive_size fuel s).
Proof. induction fuel as [|fuel IH]; cbn [get_receive_size]; [lf|]. lf. destruct (bytes_eqb _ _); [lf|exact IH]. Qed.
Lemma leaf_wait fuel s : leaf (wait_send_ok fuel s).
Proof. induction fuel as [|fuel IH]; cbn [wait_send_ok]; [lf|]. apply leaf_try; [apply leaf_has|]. intros []; [lf|exact IH]. Qed.
Lemma leaf_open u : leaf (udp_open u). Proof. unfold udp_open. lf. Qed.
Lemma after_leaf {A B} (C : list event -> B -> Prop) (p : prog (res A berr)) (hd : berr -> B) k h : leaf p ->
  (forall e h', busf e h' -> C h' (hd e)) -> (forall a h', after C h' (k a)) -> after C h (try_ p hd k).
Proof. intros L H K. apply after_try. eapply after_mono; [|apply L]. intros h' [a|e] X; auto. Qed.
(** one register read whose value matters *)
Lemma after_read {A B} (C : list event -> B -> Prop) b a n (f : list byte -> A) (hd : berr -> B) k h :
  (forall e h', busf e h' -> C h' (hd e)) ->
  (forall got, length got = n -> after C (ERead b a got (Ok tt) :: h) (k (f got))) ->
  after C h (try_ (try d <- read_reg b a n else Err ;; Ret (Ok (f d))) hd k).
Proof.
  intros H K. cbn. intros got [[]|e] L; cbn [fst snd]; cbn.
  - apply K. rewrite L. apply repeat_length.
  - apply H. exists (ERead b a got (Err e)), h. split; reflexivity.
Qed.
Lemma after_slice_to {B} (C : list event -> B -> Prop) w n l k h : (forall x, after C h (k x)) -> after C h (slice_to w n l k).
Proof. intros H. unfold slice_to. destruct (n <=? len l); [apply H|exact I]. Qed.
Lemma after_slice_from {B} (C : list event -> B -> Prop) w n l k h : (forall x, after C h (k x)) -> after C h (slice_from w n l k).
Proof. intros H. unfold slice_from. destruct (n <=? len l); [apply H|exact I]. Qed.

(** ** TCP *)
Section Tcp.
  Context (i : N) (Hi : i < 8).
  Notation s := (socket_new i).
  Notation REG := (BSB_REG i).
  Definition tonly {A} (h : list event) (r : res A terr) : Prop :=
    match r with Ok _ => True | Err (TOther e) => busf e h | Err _ => False end.
  Ltac tl := repeat first [exact I | apply after_leaf; [solve [apply leaf_write|apply leaf_status|apply leaf_has|apply leaf_txr|apply leaf_txw|apply leaf_rxr|apply leaf_fsr|apply leaf_rsr|apply leaf_wait] | intros ? ? ?Hb; exact Hb | intros]].
  Lemma ta_reopen h : after tonly h (tcp_reopen (mkTcp s)). Proof. unfold tcp_reopen. tl. Qed.
  Lemma ta_open p h : after tonly h (tcp_open (mkTcp s) p). Proof. unfold tcp_open. tl. Qed.
  Lemma ta_close h : after tonly h (tcp_socket_close (mkTcp s)). Proof. unfold tcp_socket_close. tl. Qed.
  Lemma after_tonly {A B} (C : list event -> B -> Prop) (p : prog (res A terr)) (hd : terr -> B) k h : after tonly h p ->
    (forall e h', busf e h' -> C h' (hd (TOther e))) -> (forall a h', after C h' (k a)) -> after C h (try_ p hd k).
  Proof. intros L H K. apply after_try. eapply after_mono; [|exact L]. intros h' [a|[| | |e|]] X; cbn in X; auto; contradiction. Qed.
  Lemma ta_wait fuel : forall h, after tonly h (tcp_connect_wait fuel (mkTcp s)).
  Proof.
    induction fuel as [|fuel IH]; intros h; cbn [tcp_connect_wait]; [exact I|]. apply after_leaf; [apply leaf_status|intros ? ? Hb; exact Hb|].
    intros st h'. destruct (status_try_from st) as [[]|]; try apply IH; try exact I. apply after_tonly; [apply ta_close|intros ? ? Hb; exact Hb|]. intros _ h2. apply ta_reopen.
  Qed.
  Lemma ta_do fuel r h : after tonly h (tcp_do_connect fuel (mkTcp s) r).
  Proof. unfold tcp_do_connect. tl. apply ta_wait. Qed.
  (** a status that connect does not know what to do with *)
  Definition tmode (h : list event) : Prop := exists b h', h = ERead REG Sn_SR [b] (Ok tt) :: h' /\ (b = x22 \/ b = x42 \/ status_try_from b = None).
  Definition tconn {A} (h : list event) (r : res A (nberr terr)) : Prop :=
    match r with Ok _ => True | Err (NbOther (TOther e)) => busf e h | Err (NbOther TUnsupportedMode) => tmode h | Err _ => False end.
  Lemma status_is b st : status_try_from b = Some st -> b2n b = status_u8 st.
  Proof. destruct b; cbn; intros E; try discriminate E; injection E as <-; reflexivity. Qed.
  Lemma one (got : list byte) : length got = 1%nat -> got = [byte0 got].
  Proof. destruct got as [|b [|]]; try discriminate. reflexivity. Qed.
  Lemma ta_connect fuel r h : after tconn h (tcp_connect fuel (mkTcp s) (V4 r)).
  Proof.
    unfold tcp_connect. apply after_tonly; [apply ta_open|intros ? ? Hb; exact Hb|]. intros _ h1. apply after_try.
    eapply (after_mono (fun h' r => match r with Ok _ => True | Err (TOther e) => busf e h' | Err TUnsupportedMode => tmode h' | Err _ => False end)).
    { intros h' [a|[| | |e|]] X; cbn in *; auto. }
    unfold tcp_socket_connect. cbn [t_socket]. apply after_read; [intros ? ? Hb; exact Hb|]. intros got L. rewrite so_reg by exact Hi.
    assert (T : forall A (p : prog (res A terr)) h, after tonly h p ->
      after (fun h' r => match r with Ok _ => True | Err (TOther e) => busf e h' | Err TUnsupportedMode => tmode h' | Err _ => False end) h p).
    { intros A p h0 K. eapply after_mono; [|exact K]. intros h' [a|[| | |e|]] X; cbn in *; auto; contradiction. }
    assert (Again : forall h, after tonly h (try a <- tcp_socket_close (mkTcp s) else Err ;; try b <- tcp_reopen (mkTcp s) else Err ;; tcp_do_connect fuel (mkTcp s) r)).
    { intros h2. apply after_tonly; [apply ta_close|intros ? ? Hb; exact Hb|]. intros _ h3. apply after_tonly; [apply ta_reopen|intros ? ? Hb; exact Hb|]. intros _ h4. apply ta_do. }
    destruct (status_try_from (byte0 got)) as [[]|] eqn:E; try (apply T, Again); try (apply T, ta_do).
    - exists (byte0 got), h1. split; [rewrite <- (one got L); reflexivity|]. apply status_is in E. left. apply b2n_inj. exact E.
    - exists (byte0 got), h1. split; [rewrite <- (one got L); reflexivity|]. apply status_is in E. right. left. apply b2n_inj. exact E.
    - exists (byte0 got), h1. split; [rewrite <- (one got L); reflexivity|]. auto.
  Qed.
  Definition tgate (h0 : list event) (h : list event) : Prop := exists b, h = ERead REG Sn_SR [b] (Ok tt) :: h0 /\ b <> x17.
  Definition tio {A} (h0 : list event) (h : list event) (r : res A (nberr terr)) : Prop :=
    match r with Ok _ => True | Err (NbOther (TOther e)) => busf e h | Err (NbOther TNotConnected) => tgate h0 h | Err _ => False end.
  Definition tio' {A} (h0 : list event) (h : list event) (r : res A terr) : Prop :=
    match r with Ok _ => True | Err (TOther e) => busf e h | Err TNotConnected => tgate h0 h | Err _ => False end.
  Lemma after_conn {B} (C : list event -> B -> Prop) (hd : terr -> B) k h :
    (forall e h', busf e h' -> C h' (hd (TOther e))) ->
    (forall b, after C (ERead REG Sn_SR [b] (Ok tt) :: h) (k (b2n b =? 0x17))) ->
    after C h (try_ (tcp_is_connected (mkTcp s)) hd k).
  Proof.
    intros H K. unfold tcp_is_connected. cbn [t_socket]. apply after_try. unfold get_status. apply after_read; [exact H|]. intros got L. rewrite so_reg by exact Hi.
    specialize (K (byte0 got)). rewrite <- (one got L) in K. exact K.
  Qed.
  Lemma not_est b : (b2n b =? 0x17) = false -> b <> x17.
  Proof. intros E ->. discriminate E. Qed.
  Lemma ta_send_data fuel d h0 h : after (tio' h0) h (tcp_send_data fuel (mkTcp s) d).
  Proof. unfold tcp_send_data. tl. Qed.
  Lemma ta_send fuel d h : after (tio h) h (tcp_send fuel (mkTcp s) d).
  Proof.
    unfold tcp_send. apply after_try. eapply (after_mono (tio' h)).
    { intros h' [a|[| | |e|]] X; cbn in *; auto. }
    unfold tcp_socket_send. apply after_conn; [intros ? ? Hb; exact Hb|]. intros b. destruct (b2n b =? 0x17) eqn:E; cbn [negb].
    - tl. destruct (_ <? _); [apply ta_send_data|]. apply after_slice_to. intros x. apply ta_send_data.
    - exists b. split; [reflexivity|now apply not_est].
  Qed.
  Lemma ta_receive_data n d h0 h : after (fun h' r => tio' h0 h' (snd r)) h (tcp_receive_data (mkTcp s) n d).
  Proof.
    unfold tcp_receive_data. tl. apply after_bind. intros got [u|e] L; cbn [after fst snd]; [|eexists _, _; split; reflexivity]. tl.
  Qed.
  Lemma ta_receive fuel d h : after (fun h' r => tio h h' (snd r)) h (tcp_receive fuel (mkTcp s) d).
  Proof.
    unfold tcp_receive. apply after_bind. eapply (after_mono (fun h' r => tio' h h' (snd r))).
    { intros h' [d' [a|[| | |e|]]] X; cbn in *; auto. }
    unfold tcp_socket_receive. apply after_conn; [intros ? ? Hb; exact Hb|]. intros b. destruct (b2n b =? 0x17) eqn:E; cbn [negb].
    - tl. match goal with |- context [if negb ?x then _ else _] => destruct x end; cbn [negb]; [|exact I]. tl.
      destruct (_ <? _); [apply ta_receive_data|]. destruct (_ <=? _); [apply ta_receive_data|exact I].
    - exists b. split; [reflexivity|now apply not_est].
  Qed.
  Lemma ta_tcp_close d h : after (fun h' r => tonly h' (snd r)) h (tcp_close d (mkTcp s)).
  Proof. unfold tcp_close. apply after_tonly; [apply ta_close|intros ? ? Hb; exact Hb|]. intros _ h1. destruct (release_socket _ _); exact I. Qed.
End Tcp.

(** ** UDP *)
Section Udp.
  Context (i : N) (Hi : i < 8).
  Notation s := (socket_new i).
  Notation REG := (BSB_REG i).
  Ltac ul := repeat first [exact I | apply after_leaf; [solve [apply leaf_write|apply leaf_status|apply leaf_has|apply leaf_txr|apply leaf_txw|apply leaf_rxr|apply leaf_fsr|apply leaf_rsr|apply leaf_wait|apply leaf_open] | intros ? ? ?Hb; exact Hb | intros]].
  Definition uonly {A} (h : list event) (r : res A uerr) : Prop :=
    match r with Ok _ => True | Err (UOther e) => busf e h | Err _ => False end.
  Lemma ua_set_port u p h : after (fun h' r => uonly h' (snd r)) h (udp_set_port u p). Proof. unfold udp_set_port. ul. Qed.
  Lemma ua_dest u r h : after (fun h' x => uonly h' (snd x)) h (udp_set_destination u r).
  Proof. unfold udp_set_destination. destruct (match u_dest u with Some _ => _ | None => _ end); ul. Qed.
  Lemma ua_connect u r h : after (fun h' x => uonly h' (snd x)) h (udp_connect u (V4 r)).
  Proof. unfold udp_connect. ul. apply ua_dest. Qed.
  Lemma ua_bind u p h : after (fun h' x => uonly h' (snd x)) h (udp_bind u p).
  Proof.
    unfold udp_bind. apply after_bind. eapply after_mono; [|apply ua_set_port]. intros h' [u' [a|e]] X; cbn [fst snd] in *; [|exact X]. ul.
  Qed.
  Lemma ua_close d u h : after (fun h' x => uonly h' (snd x)) h (udp_close d u).
  Proof.
    unfold udp_close. apply after_try. eapply (after_mono uonly). { intros h' [a|e] X; [destruct (release_socket _ _); exact I|exact X]. }
    unfold udp_socket_close. ul.
  Qed.
  (** the reasons for each error of a send, given whether the destination is set *)
  Definition ustat (h : list event) (P : byte -> Prop) : Prop := exists b h', h = ERead REG Sn_SR [b] (Ok tt) :: h' /\ P b.
  Definition uno (b : byte) : Prop := b <> x22 /\ status_try_from b <> None.
  Definition unk (b : byte) : Prop := status_try_from b = None.
  Definition ufull (h : list event) : Prop := exists v h', h = ERead REG Sn_TX_FSR v (Ok tt) :: h' /\ length v = 2%nat /\ from_be v = 0.
  Definition utime (h : list event) : Prop := exists f1 f2 h',
    h = EWrite REG Sn_IR [x08] (Ok tt) :: ERead REG Sn_IR [f2] (Ok tt) :: ERead REG Sn_IR [f1] (Ok tt) :: h' /\
    N.testbit (b2n f1) 4 = false /\ N.testbit (b2n f2) 3 = true.
  Definition usend {A} (u : UdpSocket) (h0 h : list event) (r : res A (nberr uerr)) : Prop :=
    match r with
    | Ok _ => True
    | Err WouldBlock => False
    | Err (NbOther e) => match e with
      | UOther x => busf x h
      | USocketNotOpen => ustat h uno
      | UUnrecognisedStatus => ustat h unk
      | UDestinationNotSet => u_dest u = None /\ h = ERead REG Sn_SR [x22] (Ok tt) :: h0
      | UBufferFull => ufull h
      | UWriteTimeout => utime h
      | UNoMoreSockets | UUnsupportedAddress | UBufferOverflow => False
      end
    end.
  Lemma gate_ok b a : udp_status_gate b = Ok a -> b = x22.
  Proof. unfold udp_status_gate. destruct (status_try_from b) as [[]|] eqn:E; intros H; try discriminate H. apply status_is in E. apply b2n_inj. exact E. Qed.
  Lemma gate_err b e : udp_status_gate b = Err e -> (e = NbOther USocketNotOpen /\ uno b) \/ (e = NbOther UUnrecognisedStatus /\ unk b).
  Proof.
    unfold udp_status_gate, uno, unk. destruct (status_try_from b) as [st|] eqn:E; [|intros [= <-]; auto].
    intros H. left. assert (st <> StUdp) by (intros ->; discriminate H). split; [destruct st; try contradiction; now injection H as <-|].
    split; [|discriminate]. intros ->. apply H0. cbn in E. now injection E as <-.
  Qed.
  Lemma after_status {B} (C : list event -> B -> Prop) (hd : berr -> B) k h :
    (forall e h', busf e h' -> C h' (hd e)) ->
    (forall b, after C (ERead REG Sn_SR [b] (Ok tt) :: h) (k b)) ->
    after C h (try_ (get_status s) hd k).
  Proof.
    intros H K. unfold get_status. apply after_read; [exact H|]. intros got L. rewrite so_reg by exact Hi. specialize (K (byte0 got)). rewrite <- (one got L) in K. exact K.
  Qed.
  Lemma after_free {B} (C : list event -> B -> Prop) (hd : berr -> B) k h :
    (forall e h', busf e h' -> C h' (hd e)) ->
    (forall v, length v = 2%nat -> after C (ERead REG Sn_TX_FSR v (Ok tt) :: h) (k (from_be v))) ->
    after C h (try_ (get_tx_free_size s) hd k).
  Proof. intros H K. unfold get_tx_free_size. apply after_read; [exact H|]. intros got L. rewrite so_reg by exact Hi. apply K, L. Qed.
  Lemma after_has {B} (C : list event -> B -> Prop) m (hd : berr -> B) k h :
    (forall e h', busf e h' -> C h' (hd e)) ->
    (forall f, after C (ERead REG Sn_IR [f] (Ok tt) :: h) (k (negb (N.land (b2n f) (interrupt_u8 m) =? 0)))) ->
    after C h (try_ (has_interrupt s m) hd k).
  Proof.
    intros H K. unfold has_interrupt. apply after_read; [exact H|]. intros got L. rewrite so_reg by exact Hi. specialize (K (byte0 got)). rewrite <- (one got L) in K. exact K.
  Qed.
  Lemma bit4 f : negb (N.land (b2n f) (interrupt_u8 InSendOk) =? 0) = N.testbit (b2n f) 4. Proof. destruct f; reflexivity. Qed.
  Lemma bit3 f : negb (N.land (b2n f) (interrupt_u8 InTimeout) =? 0) = N.testbit (b2n f) 3. Proof. destruct f; reflexivity. Qed.
  Context (u : UdpSocket) (Hu : u_socket u = s).
  Definition uflush (h : list event) (r : res unit (nberr uerr)) : Prop :=
    match r with
    | Ok _ | Err WouldBlock => True
    | Err (NbOther (UOther x)) => busf x h
    | Err (NbOther UWriteTimeout) => utime h
    | Err _ => False
    end.
  Lemma ua_try_flush h : after uflush h (udp_try_flush_tx u).
  Proof.
    unfold udp_try_flush_tx. rewrite Hu. ul. destruct (_ =? _); [|exact I].
    apply after_has; [intros ? ? Hb; exact Hb|]. intros f1. rewrite bit4. destruct (N.testbit (b2n f1) 4) eqn:E1; [ul|].
    apply after_has; [intros ? ? Hb; exact Hb|]. intros f2. rewrite bit3. destruct (N.testbit (b2n f2) 3) eqn:E2; [|exact I].
    unfold reset_interrupt. rewrite so_reg by exact Hi. intros [[]|e]; [exists f1, f2, h'0; auto|]. eexists _, _; split; reflexivity.
  Qed.
  Lemma ua_flush fuel : forall h, after (fun h' r => uflush h' r /\ r <> Err WouldBlock) h (udp_flush_loop fuel u).
  Proof.
    induction fuel as [|fuel IH]; intros h; cbn [udp_flush_loop]; [exact I|]. apply after_bind. eapply after_mono; [|apply ua_try_flush].
    intros h' [a|[|e]] X; [split; [exact X|discriminate]|apply IH|split; [exact X|discriminate]].
  Qed.
  Lemma ua_block fuel h0 h : after (usend u h0) h (udp_block_send_command fuel u).
  Proof.
    unfold udp_block_send_command. ul. eapply after_mono; [|apply ua_flush]. intros h2 [x|[|[]]] [X Y]; cbn in *; auto; try contradiction.
  Qed.
  Lemma ua_data fuel d h0 h : after (usend u h0) h (udp_send_data fuel u d).
  Proof.
    unfold udp_send_data. ul. apply after_try. eapply after_mono; [|apply (ua_block fuel h0)]. intros h2 [x|[|[]]] X; cbn in *; auto.
  Qed.
  (** a further piece: the destination is known to be set *)
  Lemma ua_piece fuel d h0 h : u_dest u <> None -> after (usend u h0) h (udp_socket_send fuel u d).
  Proof.
    intros Hd. unfold udp_socket_send. rewrite Hu. apply after_status; [intros ? ? Hb; exact Hb|]. intros b. destruct (udp_status_gate b) as [a|e] eqn:G.
    - destruct (u_dest u) as [dst|] eqn:Eu; [|contradiction]. apply after_free; [intros ? ? Hb; exact Hb|]. intros v Lv. destruct (N.eqb_spec (from_be v) 0) as [E|E].
      + exists v. eexists. split; [reflexivity|exact (conj Lv E)].
      + destruct (_ <? _); [apply ua_data|]. apply after_slice_to. intros x. apply ua_data.
    - apply gate_err in G as [[-> G]|[-> G]]; exists b; eexists; (split; [reflexivity|exact G]).
  Qed.
  Lemma ua_loop fuel h0 d : u_dest u <> None -> forall outer fs n h, after (usend u h0) h (udp_send_loop outer fuel u d fs n).
  Proof.
    intros Hd. induction outer as [|outer IH]; intros fs n h; cbn [udp_send_loop]; destruct (n =? len d); try exact I.
    apply after_slice_from. intros x. cbv zeta. apply after_slice_to. intros y. apply after_try.
    eapply after_mono; [|apply (ua_piece fuel y h0 h Hd)]. intros h2 [z|e] X; [|exact X]. rewrite Hu. ul. apply IH.
  Qed.
  Lemma ua_send fuel d h : after (usend u h) h (udp_send fuel u d).
  Proof.
    unfold udp_send, udp_send_all. rewrite Hu. apply after_status; [intros ? ? Hb; exact Hb|]. intros b. destruct (udp_status_gate b) as [a|e] eqn:G.
    - destruct (u_dest u) as [dst|] eqn:Eu.
      + apply after_free; [intros ? ? Hb; exact Hb|]. intros v Lv. destruct (N.eqb_spec (from_be v) 0) as [E|E].
        * exists v. eexists. split; [reflexivity|exact (conj Lv E)].
        * apply ua_loop. congruence.
      + split; [exact Eu|]. rewrite (gate_ok _ _ G). reflexivity.
    - apply gate_err in G as [[-> G]|[-> G]]; exists b; eexists; (split; [reflexivity|exact G]).
  Qed.
End Udp.
Section UdpMore.
  Context (i : N) (Hi : i < 8) (u : UdpSocket) (Hu : u_socket u = socket_new i).
  Notation s := (socket_new i).
  Notation REG := (BSB_REG i).
  Lemma ua_dest_set r h : after (fun h' x => match snd x with Ok _ => u_socket (fst x) = s /\ u_dest (fst x) <> None | Err e => uonly h' (@Err unit _ e) end) h (udp_set_destination u r).
  Proof.
    unfold udp_set_destination. destruct (u_dest u) as [d|] eqn:Ed.
    - destruct (negb (addr4_eqb d r)); [|split; [exact Hu|cbn; congruence]].
      apply after_leaf; [apply leaf_write|intros ? ? Hb; exact Hb|intros]. apply after_leaf; [apply leaf_write|intros ? ? Hb; exact Hb|intros]. split; [exact Hu|cbn; discriminate].
    - apply after_leaf; [apply leaf_write|intros ? ? Hb; exact Hb|intros]. apply after_leaf; [apply leaf_write|intros ? ? Hb; exact Hb|intros]. split; [exact Hu|cbn; discriminate].
  Qed.
  Lemma ua_send_to fuel r d h : after (fun h' x => usend i (mkUdp s (Some r) 0) h h' (snd x)) h (udp_send_to fuel u (V4 r) d).
  Proof.
    unfold udp_send_to, udp_send_to_v4. apply after_bind. eapply after_mono; [|apply ua_dest_set]. intros h1 [u' [a|e]] X; cbn [fst snd] in *.
    - destruct X as [X1 X2]. apply after_bind. eapply after_mono; [|apply (ua_send i Hi u' X1 fuel d h1)]. intros h2 [a'|[|e]] Y; cbn [snd after usend] in *; auto.
      destruct e; auto. destruct Y as [Y _]. contradiction.
    - destruct e; cbn in *; auto; contradiction.
  Qed.
  Definition urecv_why {A} (buf : list byte) (h0 h : list event) (r : res A (nberr uerr)) : Prop :=
    match r with
    | Ok _ | Err WouldBlock => True
    | Err (NbOther e) => match e with
      | UOther x => busf x h
      | USocketNotOpen => exists b, h = ERead REG Sn_SR [b] (Ok tt) :: h0 /\ uno b
      | UUnrecognisedStatus => exists b, h = ERead REG Sn_SR [b] (Ok tt) :: h0 /\ unk b
      | UBufferOverflow => buf = [] /\ exists v h', h = ERead REG Sn_RX_RSR v (Ok tt) :: h' /\ length v = 2%nat /\ from_be v <> 0
      | _ => False
      end
    end.
  Lemma after_rsr {B} (C : list event -> B -> Prop) (hd : berr -> B) k :
    (forall e h', busf e h' -> C h' (hd e)) ->
    (forall v h, length v = 2%nat -> after C (ERead REG Sn_RX_RSR v (Ok tt) :: h) (k (from_be v))) ->
    forall fuel h, after C h (try_ (get_receive_size fuel s) hd k).
  Proof.
    intros H K fuel h. apply after_try. revert h. induction fuel as [|fuel IH]; intros h; cbn [get_receive_size]; [exact I|]. rewrite so_reg by exact Hi.
    apply after_try. intros g1 [[]|e] L1; cbn [after fst snd]; [|apply H; eexists _, _; split; reflexivity].
    apply after_try. intros g2 [[]|e] L2; cbn [after fst snd]; [|apply H; eexists _, _; split; reflexivity].
    destruct (bytes_eqb g1 g2) eqn:E; [|apply IH]. apply bytes_eqb_eq in E. subst g2. cbn [after]. apply K. exact L1.
  Qed.
  Lemma ua_receive fuel buf h : after (fun h' r => urecv_why buf h h' (snd r)) h (udp_receive fuel u buf).
  Proof.
    unfold udp_receive. apply after_bind. eapply (after_mono (fun h' r => urecv_why buf h h' (snd r))).
    { intros h' [b' [[n hd]|e]] X; cbn [fst snd after urecv_why] in *; auto. }
    unfold udp_socket_receive. rewrite Hu. apply (after_status i Hi); [intros ? ? Hb; exact Hb|]. intros b. destruct (udp_status_gate b) as [a|e] eqn:G.
    2: { apply gate_err in G as [[-> G]|[-> G]]; exists b; (split; [reflexivity|exact G]). }
    apply (after_has i Hi); [intros ? ? Hb; exact Hb|]. intros f. match goal with |- context [if negb ?x then _ else _] => destruct x end; cbn [negb]; [|exact I].
    apply after_rsr; [intros ? ? Hb; exact Hb|]. intros v h1 Lv. destruct (N.eqb_spec (from_be v) 0) as [E0|E0]; [exact I|]. cbv zeta.
    destruct (N.eqb_spec (len buf) 0) as [E1|E1].
    { cbn. split; [destruct buf; [reflexivity|discriminate E1]|]. exists v, h1. auto. }
    apply after_leaf; [apply leaf_rxr|intros ? ? Hb; exact Hb|]. intros rp h2. apply after_leaf; [apply leaf_read|intros ? ? Hb; exact Hb|]. intros hdr h3.
    apply after_slice_to. intros x. apply after_bind. intros got [[]|e] L; cbn [after fst snd]; [|eexists _, _; split; reflexivity].
    repeat first [exact I | apply after_leaf; [apply leaf_write | intros ? ? Hb; exact Hb | intros]].
  Qed.
End UdpMore.
