(** Which commands each call gives a socket. *)
From Verif Require Export PipeCalls LifeFacts.
From Verif Require Import Datasheet AccessFacts.

(** ** Every write of a computation *)
Section Writes.
  Context (Q : N -> N -> list byte -> Prop).
  Fixpoint writes {A} (p : prog A) : Prop :=
    match p with
    | BusRead b a d k => forall got r, length got = length d -> writes (k (got, r))
    | BusWrite b a d k => Q b a d /\ forall r, writes (k r)
    | _ => True
    end.
  Lemma writes_bind {A B} (p : prog A) (f : A -> prog B) : writes p -> (forall a, writes (f a)) -> writes (bind p f).
  Proof. induction p as [a|w| |b a d k IH|b a d k IH]; cbn; intros H Hf; auto. destruct H as [H1 H2]. split; auto. Qed.
  Lemma writes_try {A E R} (p : prog (res A E)) (h : E -> R) (k : A -> prog R) : writes p -> (forall a, writes (k a)) -> writes (try_ p h k).
  Proof. intros H Hk. apply writes_bind; [exact H|]. intros [a|x]; [apply Hk|exact I]. Qed.
  Lemma writes_slice_to {R} w n l (k : list byte -> prog R) : (forall x, writes (k x)) -> writes (slice_to w n l k).
  Proof. intros H. unfold slice_to. destruct (n <=? len l); [apply H|exact I]. Qed.
  Lemma writes_slice_from {R} w n l (k : list byte -> prog R) : (forall x, writes (k x)) -> writes (slice_from w n l k).
  Proof. intros H. unfold slice_from. destruct (n <=? len l); [apply H|exact I]. Qed.
  Lemma writes_exec {A} (p : prog A) tr o : exec p tr o -> writes p -> forall b a d r, In (EWrite b a d r) tr -> Q b a d.
  Proof.
    induction 1; cbn [writes]; intros W b0 a0 d0 q Hin; try (now destruct Hin).
    - destruct Hin as [E|Hin]; [discriminate E|]. eapply IHexec; eauto.
    - destruct W as [W1 W2]. destruct Hin as [[= <- <- <- <-]|Hin]; [exact W1|]. eapply IHexec; eauto.
  Qed.
End Writes.
Lemma writes_mono {A} (Q Q' : N -> N -> list byte -> Prop) (p : prog A) : (forall b a d, Q b a d -> Q' b a d) -> writes Q p -> writes Q' p.
Proof. intros H. induction p as [a|w| |b a d k IH|b a d k IH]; cbn; intros M; auto. destruct M as [M1 M2]. split; auto. Qed.

(** ** The command register *)
(** the write leaves all command registers alone, or it is one command of [l] to socket [j] *)
Definition cmdw (j : N) (l : list N) (b a : N) (d : list byte) : Prop :=
  forall i, b = BSB_REG i ->
    i = j /\ (a + len d <= Sn_CR \/ (Sn_CR < a /\ a + len d <= 65536) \/ (a = Sn_CR /\ exists c, In c l /\ d = [u8 c])).
Section Calls.
  Context (j : N) (Hj : j < 8) (l : list N).
  Notation W := (writes (cmdw j l)).
  Notation s := (socket_new j).
  Lemma cw_reg a d : (a + len d <= Sn_CR \/ (Sn_CR < a /\ a + len d <= 65536)) -> W (write_frame (register s) a d).
  Proof.
    intros H. cbn [write_frame writes]. split; [|intros []; exact I]. rewrite so_reg by exact Hj. intros i E. split; [unfold BSB_REG in E; lia|tauto].
  Qed.
  Lemma cw_tx a d : W (write_frame (tx_buffer s) a d).
  Proof. cbn [write_frame writes]. split; [|intros []; exact I]. rewrite so_tx by exact Hj. intros i E. unfold BSB_TX, BSB_REG in E. lia. Qed.
  Lemma cw_command c : In (command_u8 c) l -> W (command s c).
  Proof.
    intros H. unfold command. cbn [write_frame writes]. split; [|intros []; exact I]. rewrite so_reg by exact Hj. intros i E. split; [unfold BSB_REG in E; lia|].
    right. right. split; [reflexivity|]. eauto.
  Qed.
  Lemma cw_common a d : W (write_frame COMMON a d).
  Proof. cbn [write_frame writes]. split; [|intros []; exact I]. intros i E. change COMMON with 0 in E. unfold BSB_REG in E. clear - E. lia. Qed.
  Lemma cw_read blk a n : W (read_reg blk a n). Proof. cbn. intros got [u|er] _; exact I. Qed.
  Lemma cw_read_into blk a buf : W (read_into blk a buf). Proof. cbn. intros got [u|er] _; exact I. Qed.
  Lemma cw_read_then {R} blk a n (f : list byte -> R) : W (try d <- read_reg blk a n else Err ;; Ret (Ok (f d))).
  Proof. apply writes_try; [apply cw_read|]. intros d. exact I. Qed.
  Ltac reg1 := apply cw_reg; (left + right); vm_compute; first [discriminate|split; [reflexivity|discriminate]].
  Lemma cw_set_mode m : W (set_mode s m). Proof. reg1. Qed.
  Lemma cw_reset_interrupt m : W (reset_interrupt s m). Proof. reg1. Qed.
  Lemma cw_set_interrupt_mask m : W (set_interrupt_mask s m). Proof. reg1. Qed.
  Lemma cw_set_source_port m : W (set_source_port s m). Proof. reg1. Qed.
  Lemma cw_set_destination_port m : W (set_destination_port s m). Proof. reg1. Qed.
  Lemma cw_set_rx_read_pointer m : W (set_rx_read_pointer s m). Proof. reg1. Qed.
  Lemma cw_set_tx_read_pointer m : W (set_tx_read_pointer s m). Proof. reg1. Qed.
  Lemma cw_set_tx_write_pointer m : W (set_tx_write_pointer s m). Proof. reg1. Qed.
  Lemma cw_set_destination_ip m : W (set_destination_ip s m). Proof. destruct m. reg1. Qed.
  Lemma cw_get_receive_size fuel : W (get_receive_size fuel s).
  Proof.
    induction fuel as [|fuel IH]; cbn [get_receive_size]; [exact I|]. apply writes_try; [apply cw_read|]. intros a.
    apply writes_try; [apply cw_read|]. intros b. destruct (bytes_eqb a b); [exact I|exact IH].
  Qed.
  Lemma cw_wait_send_ok fuel : W (wait_send_ok fuel s).
  Proof. induction fuel as [|fuel IH]; cbn [wait_send_ok]; [exact I|]. apply writes_try; [apply cw_read_then|]. intros [|]; [exact I|exact IH]. Qed.

  Ltac m1 := first
    [ exact I | apply cw_read_then | apply cw_read | apply cw_read_into | apply cw_set_mode | apply cw_reset_interrupt
    | apply cw_set_interrupt_mask | apply cw_set_source_port | apply cw_set_destination_port | apply cw_set_rx_read_pointer
    | apply cw_set_tx_write_pointer | apply cw_set_tx_read_pointer | apply cw_tx
    | apply cw_set_destination_ip | apply cw_get_receive_size | apply cw_wait_send_ok | apply cw_common
    | (apply cw_command; assumption)
    | (apply writes_try; [|intros ?]) | (apply writes_bind; [|intros ?]) | (apply writes_slice_to; intros ?) | (apply writes_slice_from; intros ?)
    | match goal with
      | |- W (if ?b then _ else _) => destruct b
      | |- W (match ?b with _ => _ end) => destruct b
      end ].
  Ltac ms := repeat (cbv zeta; m1).

  Section Recv.
    Hypothesis Hr : In CR_RECV l.
    Let Hr' : In (command_u8 CmReceive) l := Hr.
    Lemma cw_tcp_receive fuel d : W (tcp_receive fuel (mkTcp s) d).
    Proof. unfold tcp_receive, tcp_socket_receive, tcp_is_connected, tcp_receive_data, t_socket. ms. Qed.
    Lemma cw_udp_receive fuel d dst prt : W (udp_receive fuel (mkUdp s dst prt) d).
    Proof. unfold udp_receive, udp_socket_receive, u_socket. ms. Qed.
  End Recv.
  Section Send.
    Hypothesis Hs : In CR_SEND l.
    Let Hs' : In (command_u8 CmSend) l := Hs.
    Lemma cw_tcp_send fuel d : W (tcp_send fuel (mkTcp s) d).
    Proof. unfold tcp_send, tcp_socket_send, tcp_is_connected, tcp_send_data, t_socket. ms. Qed.
    Lemma cw_udp_try_flush dst prt : W (udp_try_flush_tx (mkUdp s dst prt)).
    Proof. unfold udp_try_flush_tx, u_socket. ms. Qed.
    Lemma cw_udp_flush_loop fuel dst prt : W (udp_flush_loop fuel (mkUdp s dst prt)).
    Proof.
      induction fuel as [|fuel IH]; cbn [udp_flush_loop]; [exact I|]. apply writes_bind; [apply cw_udp_try_flush|].
      intros [u|[|x]]; [exact I|exact IH|exact I].
    Qed.
    Lemma cw_udp_socket_send fuel dst prt d : W (udp_socket_send fuel (mkUdp s dst prt) d).
    Proof.
      unfold udp_socket_send, udp_send_data, udp_block_send_command. cbn [u_socket u_dest]. ms; apply cw_udp_flush_loop.
    Qed.
    Lemma cw_udp_send_loop fuel dst prt d : forall outer f tot, W (udp_send_loop outer fuel (mkUdp s dst prt) d f tot).
    Proof.
      induction outer as [|outer IH]; intros f tot; cbn [udp_send_loop]; destruct (_ =? _); try exact I.
      apply writes_slice_from. intros rem. cbv zeta. apply writes_slice_to. intros b.
      apply writes_try; [apply cw_udp_socket_send|]. intros n. apply writes_try; [apply cw_read_then|]. intros fr. apply IH.
    Qed.
    Lemma cw_udp_send_all fuel dst prt d : W (udp_send_all fuel (mkUdp s dst prt) d).
    Proof. unfold udp_send_all. cbn [u_socket u_dest]. ms. apply cw_udp_send_loop. Qed.
    Lemma cw_udp_send_to fuel dst prt r d : W (udp_send_to fuel (mkUdp s dst prt) r d).
    Proof.
      unfold udp_send_to. destruct r as [r|]; [|exact I]. unfold udp_send_to_v4, udp_set_destination. cbn [u_socket u_dest u_port].
      match goal with |- context [if ?b then _ else _] => destruct b end.
      - unfold try_. pose proof (cw_set_destination_ip (a_ip r)) as H1. pose proof (cw_set_destination_port (a_port r)) as H2.
        unfold set_destination_ip, set_destination_port, write_frame in *. cbn [bind writes fst snd] in *.
        split; [apply H1|]. intros [u|x]; cbn [bind writes fst snd]; [|exact I]. split; [apply H2|].
        intros [u'|x]; cbn [bind writes fst snd]; [|exact I]. apply writes_bind; [apply cw_udp_send_all|]. intros; exact I.
      - cbn [bind fst snd]. apply writes_bind; [apply cw_udp_send_all|]. intros; exact I.
    Qed.
  End Send.
  Section Close.
    Hypothesis Hc : In CR_CLOSE l.
    Let Hc' : In (command_u8 CmClose) l := Hc.
    Lemma cw_tcp_close d : W (tcp_close d (mkTcp s)).
    Proof. unfold tcp_close, tcp_socket_close, t_socket. ms. Qed.
    Lemma cw_udp_close d dst prt : W (udp_close d (mkUdp s dst prt)).
    Proof. unfold udp_close, udp_socket_close, u_socket. ms. Qed.
    Section Open.
      Hypothesis Ho : In CR_OPEN l.
      Let Ho' : In (command_u8 CmOpen) l := Ho.
      Lemma cw_tcp_reopen : W (tcp_reopen (mkTcp s)). Proof. unfold tcp_reopen, t_socket. ms. Qed.
      Lemma cw_tcp_open p : W (tcp_open (mkTcp s) p). Proof. unfold tcp_open, t_socket. ms. Qed.
      Lemma cw_tcp_socket_close : W (tcp_socket_close (mkTcp s)). Proof. unfold tcp_socket_close, t_socket. ms. Qed.
      Lemma cw_tcp_connect_wait fuel : W (tcp_connect_wait fuel (mkTcp s)).
      Proof.
        induction fuel as [|fuel IH]; cbn [tcp_connect_wait t_socket]; [exact I|]. apply writes_try; [apply cw_read_then|]. intros st.
        destruct (status_try_from st) as [[]|]; try exact IH; try exact I. apply writes_try; [apply cw_tcp_socket_close|]. intros a. apply cw_tcp_reopen.
      Qed.
      Lemma cw_udp_open dst prt : W (udp_open (mkUdp s dst prt)). Proof. unfold udp_open. cbn [u_socket u_port]. ms. Qed.
      Lemma cw_udp_set_destination dst prt r : W (udp_set_destination (mkUdp s dst prt) r).
      Proof. unfold udp_set_destination. cbn [u_socket u_dest u_port]. ms. Qed.
      Lemma cw_udp_connect dst prt r : W (udp_connect (mkUdp s dst prt) r).
      Proof. unfold udp_connect. destruct r as [r|]; [|exact I]. apply writes_try; [apply cw_udp_open|]. intros a. apply cw_udp_set_destination. Qed.
      Lemma cw_udp_bind dst prt p : W (udp_bind (mkUdp s dst prt) p).
      Proof.
        pose proof (cw_set_source_port p) as Mp. unfold udp_bind, udp_set_port, set_source_port, write_frame, try_ in *.
        cbn [u_socket u_port u_dest bind writes] in *. split; [apply Mp|]. intros [a|x]; [|exact I]. cbn [bind fst snd].
        apply writes_bind; [apply cw_udp_open|]. intros [b|x]; exact I.
      Qed.
      Hypothesis Hd : In CR_CONNECT l.
      Let Hd' : In (command_u8 CmConnect) l := Hd.
      Lemma cw_tcp_do_connect fuel r : W (tcp_do_connect fuel (mkTcp s) r).
      Proof. unfold tcp_do_connect, t_socket. ms. apply cw_tcp_connect_wait. Qed.
      Lemma cw_tcp_connect fuel r : W (tcp_connect fuel (mkTcp s) r).
      Proof.
        unfold tcp_connect. destruct r as [r|]; [|exact I]. apply writes_try; [apply cw_tcp_open|]. intros a.
        apply writes_try; [|intros b; exact I]. unfold tcp_socket_connect. apply writes_try; [apply cw_read_then|]. intros st.
        destruct (status_try_from st) as [[]|]; try exact I; try apply cw_tcp_do_connect;
          (apply writes_try; [apply cw_tcp_socket_close|]; intros c; apply writes_try; [apply cw_tcp_reopen|]; intros d; apply cw_tcp_do_connect).
      Qed.
    End Open.
  End Close.
  Lemma cw_udp_set_port dst prt p : W (udp_set_port (mkUdp s dst prt) p).
  Proof. unfold udp_set_port. cbn [u_socket u_dest u_port]. ms. Qed.
  Lemma cw_sockop fuel q : match q with KCommand c => In (command_u8 c) l | _ => True end -> W (run_sockop fuel s q).
  Proof. intros H. destruct q; cbn [run_sockop]; ms. Qed.
  Lemma cw_devop q : W (run_devop q).
  Proof.
    destruct q; cbn [run_devop]; (apply writes_bind; [|intros; exact I]).
    all: try (cbn; intros got r _; destruct r; exact I).
    all: unfold dev_set_mode, dev_set_retry_timeout, dev_set_retry_count, reset_device; ms.
  Qed.
End Calls.

(** the commands of each call *)
Definition op_commands (o : op) : list N :=
  match o with
  | OpTcpConnect _ _ => [CR_CLOSE; CR_OPEN; CR_CONNECT]
  | OpUdpConnect _ _ | OpUdpBind _ _ => [CR_CLOSE; CR_OPEN]
  | OpTcpSend _ _ | OpUdpSend _ _ | OpUdpSendTo _ _ _ => [CR_SEND]
  | OpTcpReceive _ _ | OpUdpReceive _ _ => [CR_RECV]
  | OpTcpClose _ | OpUdpClose _ => [CR_CLOSE]
  | OpSocket _ (KCommand c) => [command_u8 c]
  | _ => []
  end.
(** the number of the socket a call is about *)
Definition op_socket (a : app) (o : op) : N :=
  match op_handle o with
  | Some h => match lookup h (handles a) with Some y => index (handle_socket y) | None => 0 end
  | None => 0
  end.
(** calls about no handle, or about one that is not live, write to no socket at all *)
Lemma cw_step_at fuel a o j0 : good (handles a) ->
  (forall h y, op_handle o = Some h -> lookup h (handles a) = Some y -> j0 = index (handle_socket y)) ->
  writes (cmdw j0 (op_commands o)) (step fuel a o).
Proof.
  intros G H. destruct (op_handle o) as [h|] eqn:E.
  - destruct (lookup h (handles a)) as [y|] eqn:L.
    + destruct (good_lookup _ _ _ G L) as (j & Hj & Ej). pose proof (H h y eq_refl L) as H'. rewrite Ej in H'. change (index (socket_new j)) with j in H'. subst j0. clear H.
      destruct o; cbn [op_handle] in E; try discriminate E; injection E as ->; cbn [step op_commands]; rewrite ?L; destruct y as [sk0|t|u]; try exact Logic.I; cbn [handle_socket] in Ej.
      all: try (destruct t as [t]; cbn [t_socket] in Ej; subst t).
      all: try (destruct u as [us ud up]; cbn [u_socket] in Ej; subst us).
      all: try subst sk0.
      all: try (match goal with |- writes _ (match ?b with _ => _ end) => destruct b; exact Logic.I end).
      all: try (apply writes_bind; [|intros; exact Logic.I]).
      all: try solve [apply cw_tcp_connect; auto; cbn; auto | apply cw_tcp_send; cbn; auto | apply cw_tcp_receive; cbn; auto | apply cw_tcp_close; cbn; auto
        | apply cw_udp_connect; cbn; auto | apply cw_udp_bind; cbn; auto | apply cw_udp_send_all; cbn; auto | apply cw_udp_send_to; cbn; auto
        | apply cw_udp_receive; cbn; auto | apply cw_udp_close; cbn; auto | apply cw_udp_set_port; auto ].
      all: apply cw_sockop; [exact Hj|]; destruct q; cbn; auto.
    + destruct o; cbn [op_handle] in E; try discriminate E; injection E as ->; cbn [step]; rewrite ?L; exact Logic.I.
  - destruct o; cbn [op_handle] in E; try discriminate E; cbn [step op_commands]; try exact Logic.I.
    + destruct (take_socket (dev a)) as [? []]; exact Logic.I.
    + destruct (tcp_socket (dev a)) as [? []]; exact Logic.I.
    + destruct (udp_socket (dev a)) as [? []]; exact Logic.I.
    + apply writes_bind; [|intros; exact Logic.I]. apply cw_devop.
Qed.

Lemma cw_step fuel a o : good (handles a) -> writes (cmdw (op_socket a o) (op_commands o)) (step fuel a o).
Proof. intros G. apply cw_step_at; [exact G|]. intros h y E L. unfold op_socket. now rewrite E, L. Qed.

(** MACRAW calls *)
Definition raw_commands (o : rawop) : list N :=
  match o with RwRead _ => [CR_RECV] | RwWrite _ => [CR_SEND] | _ => [] end.
Lemma cw_raw_step fuel o : writes (cmdw 0 (raw_commands o)) (raw_step fuel raw0 o).
Proof.
  assert (H0 : 0 < 8) by reflexivity.
  destruct o as [w| | |f|f]; cbn [raw_step raw_commands raw0 raw_socket]; (apply writes_bind; [|intros; exact I]);
    unfold raw_enable_interrupts, raw_clear_interrupts, raw_disable_interrupts, raw_read_frame, raw_write_frame, raw_read_body, rx_new, rx_commit, tx_new, tx_write, tx_commit;
    cbn [raw0 raw_socket].
  1: { apply writes_try; [now apply cw_set_interrupt_mask|]. intros. apply writes_try; [apply cw_common|]. intros. exact I. }
  1: { now apply cw_reset_interrupt. }
  1: { apply writes_try; [apply cw_common|]. intros. apply writes_try; [now apply cw_set_interrupt_mask|]. intros. exact I. }
  - assert (Rd : forall c b, writes (cmdw 0 [CR_RECV]) (rx_read (socket_new 0) c b)).
    { intros c [|v b]; cbn [rx_read]; [exact I|]. apply writes_slice_to. intros x. apply writes_bind; [apply cw_read_into|]. intros [g [u|er]]; exact I. }
    apply writes_try. { apply writes_try; [now apply cw_get_receive_size|]. intros z. apply writes_try; [apply cw_read_then|]. intros; exact I. }
    intros c. destruct (_ =? 0); [exact I|]. apply writes_bind; [apply Rd|]. intros [h [cn|er]]; cbn [fst snd]; [|exact I].
    destruct (_ =? 2); [|exact I]. apply writes_bind.
    { unfold rx_read_upto. destruct (_ <? _); [|apply Rd]. apply writes_slice_to. intros x. apply writes_bind; [apply Rd|]. intros; exact I. }
    intros [g [cn'|er]]; cbn [fst snd]; [|exact I]. apply writes_try; [|intros; exact I].
    apply writes_try; [now apply cw_set_rx_read_pointer|]. intros. apply writes_try; [|intros; exact I]. apply cw_command; [exact H0|now left].
  - apply writes_try; [now apply cw_reset_interrupt|]. intros. apply writes_try.
    { apply writes_try; [apply cw_read_then|]. intros. apply writes_try; [apply cw_read_then|]. intros; exact I. }
    intros c. apply writes_try.
    { destruct (_ || _); [exact I|]. cbv zeta. apply writes_slice_to. intros x. apply writes_try; [now apply cw_tx|]. intros. destruct (_ <? _); exact I. }
    intros cn. apply writes_try.
    { apply writes_try; [now apply cw_set_tx_write_pointer|]. intros. apply writes_try; [|intros; exact I]. apply cw_command; [exact H0|now left]. }
    intros. apply writes_try; [now apply cw_wait_send_ok|]. intros. exact I.
Qed.
