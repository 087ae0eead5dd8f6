(** What a computation reads between two commands it gives a socket. *)
From Verif Require Export Commands.
From Verif Require Import Datasheet AccessFacts.

(** ** A watcher of socket [j] *)
Inductive watch :=
| Idle                          (* no SEND or CONNECT is on its way *)
| Sending (rd : option N)       (* SEND was given; Sn_TX_RD, if it was the register read last *)
| Connecting.                   (* CONNECT was given *)
(** the read reaches no command register *)
Definition no_cr (b a : N) (n : nat) : Prop := forall i, b = BSB_REG i -> ~ (a <= Sn_CR < a + N.of_nat n).
Section Watch.
  Context (j : N).
  (** a bus error ends the watch *)
  Definition sees_read (st : watch) (b a : N) (got : list byte) (r : res unit berr) : watch :=
    match r with
    | Err _ => Idle
    | Ok _ =>
      if b =? BSB_REG j then
        match st with
        | Sending rd =>
            if a =? Sn_IR then if N.testbit (from_be got) 4 || N.testbit (from_be got) 3 then Idle else Sending None
            else if a =? Sn_TX_RD then Sending (Some (from_be got))
            else if a =? Sn_TX_WR then match rd with Some v => if v =? from_be got then Idle else Sending None | None => Sending None end
            else Sending None
        | Connecting => if (a =? Sn_SR) && ((from_be got =? SOCK_ESTABLISHED) || (from_be got =? SOCK_CLOSED)) then Idle else Connecting
        | Idle => Idle
        end
      else match st with Sending _ => Sending None | _ => st end
    end.
  Definition command_to (b a : N) (d : list byte) : option N :=
    if (b =? BSB_REG j) && (a =? Sn_CR) then Some (from_be d) else None.
  Definition sees_write (st : watch) (b a : N) (d : list byte) (r : res unit berr) : watch :=
    match r with
    | Err _ => Idle
    | Ok _ =>
        match command_to b a d with
        | Some c => if c =? CR_SEND then Sending None else if c =? CR_CONNECT then Connecting else Idle
        | None => match st with Sending _ => Sending None | _ => st end
        end
    end.
  Fixpoint watched {A} (G : A -> watch -> Prop) (st : watch) (p : prog A) : Prop :=
    match p with
    | Ret a => G a st
    | Panic _ | Spin => True
    | BusRead b a d k => no_cr b a (length d) /\ forall got r, length got = length d -> watched G (sees_read st b a got r) (k (got, r))
    | BusWrite b a d k => (command_to b a d <> None -> st = Idle) /\ forall r, watched G (sees_write st b a d r) (k r)
    end.
  Lemma watched_bind {A B} (G : A -> watch -> Prop) (G' : B -> watch -> Prop) (f : A -> prog B) : forall p st,
    watched G st p -> (forall a st', G a st' -> watched G' st' (f a)) -> watched G' st (bind p f).
  Proof. induction p as [a|w| |b a d k IH|b a d k IH]; cbn; intros st H Hf; auto; destruct H as [H1 H2]; split; auto. Qed.
  Lemma watched_mono {A} (G G' : A -> watch -> Prop) : forall (p : prog A) st, watched G st p -> (forall a st', G a st' -> G' a st') -> watched G' st p.
  Proof. induction p as [a|w| |b a d k IH|b a d k IH]; cbn; intros st H Hf; auto; destruct H as [H1 H2]; split; auto. Qed.
  Definition calm {A} (_ : A) (st : watch) : Prop := st = Idle.
  Notation M p := (watched calm Idle p).
  Lemma m_bind {A B} (p : prog A) (f : A -> prog B) : M p -> (forall a, M (f a)) -> M (bind p f).
  Proof. intros H Hf. apply (watched_bind _ _ _ _ _ H). intros a st ->. apply Hf. Qed.
  Lemma m_try {A E R} (p : prog (res A E)) (h : E -> R) (k : A -> prog R) : M p -> (forall a, M (k a)) -> M (try_ p h k).
  Proof. intros H Hk. apply m_bind; [exact H|]. intros [a|x]; [apply Hk|reflexivity]. Qed.
  Lemma m_slice_to {R} w n l (k : list byte -> prog R) : (forall x, M (k x)) -> M (slice_to w n l k).
  Proof. intros H. unfold slice_to. destruct (n <=? len l); [apply H|exact I]. Qed.
  Lemma m_slice_from {R} w n l (k : list byte -> prog R) : (forall x, M (k x)) -> M (slice_from w n l k).
  Proof. intros H. unfold slice_from. destruct (n <=? len l); [apply H|exact I]. Qed.

  (** ** Leaves *)
  Lemma sees_idle b a got r : sees_read Idle b a got r = Idle.
  Proof. unfold sees_read. destruct r; [|reflexivity]. now destruct (_ =? _). Qed.
  Lemma m_read blk a n : no_cr blk a n -> M (read_reg blk a n).
  Proof. intros H. unfold read_reg. cbn [watched]. unfold zeros. rewrite (repeat_length _ n). split; [exact H|]. intros got [u|er] L; cbn [watched]; apply sees_idle. Qed.
  Lemma m_read_into blk a buf : no_cr blk a (length buf) -> M (read_into blk a buf).
  Proof. intros H. unfold read_into. cbn [watched]. split; [exact H|]. intros got r L. cbn [watched]. apply sees_idle. Qed.
  Lemma m_common a d : M (write_frame COMMON a d).
  Proof.
    cbn [write_frame watched]. split; [reflexivity|]. intros r. cbn [watched]. unfold calm, sees_write, command_to. change COMMON with 0.
    destruct (N.eqb_spec 0 (BSB_REG j)) as [E|]; [exfalso; unfold BSB_REG in E; clear - E; lia|]. cbn [andb]. now destruct r.
  Qed.
  Lemma cr_common a n : no_cr COMMON a n. Proof. intros i E. change COMMON with 0 in E. unfold BSB_REG in E. clear - E. lia. Qed.

  Section Calls.
    Context (i : N) (Hi : i < 8).
    Notation s := (socket_new i).
    Lemma cr_rx a n : no_cr (rx_buffer s) a n. Proof. rewrite so_rx by exact Hi. intros k E. unfold BSB_RX, BSB_REG in E. clear - E. lia. Qed.
    Lemma cr_reg a n : Sn_CR < a -> no_cr (register s) a n.
    Proof. intros H k _ X. lia. Qed.
    Lemma m_reg a d : a <> Sn_CR -> M (write_frame (register s) a d).
    Proof.
      intros H. cbn [write_frame watched]. unfold sees_write, command_to. destruct (N.eqb_spec a Sn_CR); [contradiction|]. rewrite andb_false_r. split; [reflexivity|]. intros [|]; reflexivity.
    Qed.
    Lemma m_tx a d : M (write_frame (tx_buffer s) a d).
    Proof.
      cbn [write_frame watched]. unfold sees_write, command_to. rewrite so_tx by exact Hi.
      destruct (N.eqb_spec (BSB_TX i) (BSB_REG j)) as [E|]; [exfalso; unfold BSB_REG, BSB_TX in E; lia|]. cbn [andb]. split; [reflexivity|]. intros [|]; reflexivity.
    Qed.
    (** after a command *)
    Definition given (c : N) : watch := if i =? j then if c =? CR_SEND then Sending None else if c =? CR_CONNECT then Connecting else Idle else Idle.
    Lemma m_command_st c : watched (fun r st => match r with Ok _ => st = given (command_u8 c) | Err _ => st = Idle end) Idle (command s c).
    Proof.
      unfold command. cbn [write_frame watched]. unfold sees_write, command_to, given. rewrite so_reg by exact Hi. change s_COMMAND with Sn_CR. rewrite N.eqb_refl, andb_true_r.
      split; [reflexivity|]. intros [u|er]; [|reflexivity]. cbn [watched].
      assert (E : (BSB_REG i =? BSB_REG j) = (i =? j)). { destruct (N.eqb_spec i j) as [->|]; [apply N.eqb_refl|]. apply N.eqb_neq. unfold BSB_REG. lia. }
      rewrite E. destruct (i =? j); [|reflexivity]. now destruct c.
    Qed.
    Lemma m_command c : c <> CmSend -> c <> CmConnect -> M (command s c).
    Proof.
      intros H1 H2. apply (watched_mono _ _ _ _ (m_command_st c)). intros [u|er] st ->; [|reflexivity]. unfold calm, given. destruct (i =? j); [|reflexivity].
      destruct c; try reflexivity; [now destruct H2|now destruct H1].
    Qed.
    Lemma m_read_then {R} a n (f : list byte -> R) : Sn_CR < a -> M (try d <- read_reg (register s) a n else Err ;; Ret (Ok (f d))).
    Proof. intros H. apply m_try; [apply m_read, cr_reg, H|]. intros d. reflexivity. Qed.
    Ltac reg1 := apply m_reg; discriminate.
    Lemma m_set_mode m : M (set_mode s m). Proof. reg1. Qed.
    Lemma m_reset_interrupt m : M (reset_interrupt s m). Proof. reg1. Qed.
    Lemma m_set_interrupt_mask m : M (set_interrupt_mask s m). Proof. reg1. Qed.
    Lemma m_set_source_port m : M (set_source_port s m). Proof. reg1. Qed.
    Lemma m_set_destination_port m : M (set_destination_port s m). Proof. reg1. Qed.
    Lemma m_set_rx_read_pointer m : M (set_rx_read_pointer s m). Proof. reg1. Qed.
    Lemma m_set_tx_read_pointer m : M (set_tx_read_pointer s m). Proof. reg1. Qed.
    Lemma m_set_tx_write_pointer m : M (set_tx_write_pointer s m). Proof. reg1. Qed.
    Lemma m_set_destination_ip m : M (set_destination_ip s m). Proof. destruct m. reg1. Qed.
    Lemma m_get_receive_size fuel : M (get_receive_size fuel s).
    Proof.
      induction fuel as [|fuel IH]; cbn [get_receive_size]; [exact I|]. apply m_try; [apply m_read, cr_reg; reflexivity|]. intros a.
      apply m_try; [apply m_read, cr_reg; reflexivity|]. intros b. destruct (bytes_eqb a b); [reflexivity|exact IH].
    Qed.

    (** ** The waits *)
    Lemma reg_same a got u st : i = j -> sees_read st (register s) a got (Ok u) = match st with
        | Sending rd =>
            if a =? Sn_IR then if N.testbit (from_be got) 4 || N.testbit (from_be got) 3 then Idle else Sending None
            else if a =? Sn_TX_RD then Sending (Some (from_be got))
            else if a =? Sn_TX_WR then match rd with Some v => if v =? from_be got then Idle else Sending None | None => Sending None end
            else Sending None
        | Connecting => if (a =? Sn_SR) && ((from_be got =? SOCK_ESTABLISHED) || (from_be got =? SOCK_CLOSED)) then Idle else Connecting
        | Idle => Idle
        end.
    Proof. intros E. unfold sees_read. rewrite so_reg by exact Hi. rewrite E, N.eqb_refl. reflexivity. Qed.
    Lemma one_byte (got : list byte) : length got = 1%nat -> exists b, got = [b]. Proof. destruct got as [|b [|]]; try discriminate. eauto. Qed.
    Lemma bit_set b k : k < 8 -> negb (N.land (b2n b) (2 ^ k) =? 0) = N.testbit (b2n b) k.
    Proof.
      intros _. destruct (N.testbit (b2n b) k) eqn:T.
      - apply negb_true_iff, N.eqb_neq. intros E. apply (f_equal (fun x => N.testbit x k)) in E. rewrite N.land_spec, T, N.pow2_bits_true, N.bits_0 in E. discriminate E.
      - apply negb_false_iff, N.eqb_eq. apply N.bits_inj. intros m. rewrite N.land_spec, N.bits_0. destruct (N.eq_dec m k) as [->|E]; [now rewrite T|].
        rewrite N.pow2_bits_false by congruence. apply andb_false_r.
    Qed.
    Lemma flag_sending rd : i = j -> watched (fun r st => match r with Ok b => if b : bool then st = Idle else exists rd', st = Sending rd' \/ st = Idle | Err _ => st = Idle end)
      (Sending rd) (has_interrupt s InSendOk).
    Proof.
      intros E. unfold has_interrupt, read_reg, try_. cbn [bind watched]. split; [apply cr_reg; reflexivity|]. intros got [u|er] L; [|reflexivity]. cbn [bind fst snd watched].
      destruct (one_byte got L) as (b & ->). rewrite reg_same by exact E. change (s_INTERRUPT =? Sn_IR) with true. cbn [byte0]. change (interrupt_u8 InSendOk) with (2 ^ 4). rewrite bit_set by reflexivity.
      change (from_be [b]) with (b2n b). change (byte0 [b]) with b. cbn [watched]. destruct (N.testbit (b2n b) 4); cbn [orb negb]; [reflexivity|]. exists None. destruct (N.testbit (b2n b) 3); auto.
    Qed.
    Lemma m_has_interrupt c : M (has_interrupt s c). Proof. apply m_read_then. reflexivity. Qed.
    Lemma m_wait_idle fuel : M (wait_send_ok fuel s).
    Proof. induction fuel as [|fuel IH]; cbn [wait_send_ok]; [exact I|]. apply m_try; [apply m_has_interrupt|]. intros [|]; [reflexivity|exact IH]. Qed.
    Lemma m_wait_sending fuel : forall rd, i = j -> watched calm (Sending rd) (wait_send_ok fuel s).
    Proof.
      induction fuel as [|fuel IH]; intros rd E; cbn [wait_send_ok]; [exact I|]. eapply watched_bind; [apply (flag_sending rd E)|].
      intros [b|er] st H; [destruct b|]; [exact H| |exact H]. destruct H as (rd' & [-> | ->]); [apply IH, E|]. apply m_wait_idle.
    Qed.
    Lemma m_wait fuel : watched calm (given CR_SEND) (wait_send_ok fuel s).
    Proof. unfold given. destruct (N.eqb_spec i j) as [E|]; [now apply m_wait_sending|apply m_wait_idle]. Qed.

    Ltac m1 := first
      [ reflexivity | exact I | (apply m_read_then; reflexivity) | (apply m_read, cr_reg; reflexivity) | (apply m_read, cr_rx) | (apply m_read, cr_common) | (apply m_read_into, cr_rx) | apply m_set_mode | apply m_reset_interrupt
      | apply m_set_interrupt_mask | apply m_set_source_port | apply m_set_destination_port | apply m_set_rx_read_pointer
      | apply m_set_tx_write_pointer | apply m_set_tx_read_pointer | apply m_tx
      | apply m_set_destination_ip | apply m_get_receive_size | apply m_common
      | (apply m_command; discriminate)
      | (apply m_try; [|intros ?]) | (apply m_bind; [|intros ?]) | (apply m_slice_to; intros ?) | (apply m_slice_from; intros ?)
      | match goal with
        | |- watched calm Idle (if ?b then _ else _) => destruct b
        | |- watched calm Idle (match ?b with _ => _ end) => destruct b
        end ].
    Ltac ms := repeat (cbv zeta; m1).
    Ltac mw H := repeat (cbv zeta; first [apply H|m1]).

    Lemma m_tcp_send fuel d : M (tcp_send fuel (mkTcp s) d).
    Proof.
      assert (D : forall w, M (tcp_send_data fuel (mkTcp s) w)).
      { intros w. unfold tcp_send_data, t_socket. cbv zeta. do 3 (apply m_try; [solve [ms]|intros ?]).
        eapply watched_bind; [apply m_command_st|]. intros [u|er] st ->; [|reflexivity].
        eapply watched_bind; [apply m_wait|]. intros [u'|er] st ->; [|reflexivity]. ms. }
      unfold tcp_send, tcp_socket_send, tcp_is_connected, t_socket. mw D.
    Qed.
    Lemma m_tcp_receive fuel d : M (tcp_receive fuel (mkTcp s) d).
    Proof. unfold tcp_receive, tcp_socket_receive, tcp_is_connected, tcp_receive_data, t_socket. ms. Qed.
    Lemma m_udp_receive fuel d dst prt : M (udp_receive fuel (mkUdp s dst prt) d).
    Proof. unfold udp_receive, udp_socket_receive, u_socket. ms. Qed.
    Lemma m_tcp_close d : M (tcp_close d (mkTcp s)).
    Proof. unfold tcp_close, tcp_socket_close, t_socket. ms. Qed.
    Lemma m_udp_close d dst prt : M (udp_close d (mkUdp s dst prt)).
    Proof. unfold udp_close, udp_socket_close, u_socket. ms. Qed.
    Lemma m_tcp_reopen : M (tcp_reopen (mkTcp s)). Proof. unfold tcp_reopen, t_socket. ms. Qed.
    Lemma m_tcp_open p : M (tcp_open (mkTcp s) p). Proof. unfold tcp_open, t_socket. ms. Qed.
    Lemma m_tcp_socket_close : M (tcp_socket_close (mkTcp s)). Proof. unfold tcp_socket_close, t_socket. ms. Qed.
    Lemma est_17 b : status_try_from b = Some StEstablished -> b2n b = SOCK_ESTABLISHED.
    Proof. intros X. destruct b; first [discriminate X|reflexivity]. Qed.
    Lemma closed_0 b : status_try_from b = Some StClosed -> b2n b = SOCK_CLOSED.
    Proof. intros X. destruct b; first [discriminate X|reflexivity]. Qed.
    Lemma m_connect_wait fuel : forall st, (st = Idle \/ (st = Connecting /\ i = j)) -> watched calm st (tcp_connect_wait fuel (mkTcp s)).
    Proof.
      induction fuel as [|fuel IH]; intros st H; cbn [tcp_connect_wait t_socket]; [exact I|]. unfold get_status, read_reg, try_. cbn [bind watched].
      split; [apply cr_reg; reflexivity|]. intros got [u|er] L; [|reflexivity]. cbn [bind fst snd]. destruct (one_byte got L) as (b & ->). change (byte0 [b]) with b.
      assert (N : forall x, status_try_from b = x -> sees_read st (register s) s_STATUS [b] (Ok u) = Idle \/ (x <> Some StEstablished /\ x <> Some StClosed /\ sees_read st (register s) s_STATUS [b] (Ok u) = Connecting /\ i = j)).
      { intros x Hx. destruct H as [->|(-> & E)]; [left; apply sees_idle|]. rewrite reg_same by exact E. change (s_STATUS =? Sn_SR) with true. change (from_be [b]) with (b2n b). cbn [andb].
        destruct (N.eqb_spec (b2n b) SOCK_ESTABLISHED) as [|X1]; [now left|]. destruct (N.eqb_spec (b2n b) SOCK_CLOSED) as [|X2]; [now left|]. right. subst x.
        split; [intros X; apply X1, est_17, X|]. split; [intros X; apply X2, closed_0, X|auto]. }
      specialize (N _ eq_refl). remember (sees_read st (register s) s_STATUS [b] (Ok u)) as st' eqn:E'. clear E'.
      assert (W : st' = Idle -> watched calm st' (match status_try_from b with
        | Some StEstablished => Ret (Ok tt)
        | Some StClosed => bind (tcp_socket_close (mkTcp s)) (fun r => match r with Ok _ => tcp_reopen (mkTcp s) | Err e => Ret (Err e) end)
        | _ => tcp_connect_wait fuel (mkTcp s) end)).
      { intros ->. destruct (status_try_from b) as [[]|]; try (apply IH; now left); try reflexivity. apply m_bind; [apply m_tcp_socket_close|]. intros [x|x]; [apply m_tcp_reopen|reflexivity]. }
      destruct N as [N|(N1 & N2 & N3 & N4)]; [apply W, N|]. destruct (status_try_from b) as [[]|]; try (apply IH; right; auto); congruence.
    Qed.
    Lemma m_tcp_do_connect fuel r : M (tcp_do_connect fuel (mkTcp s) r).
    Proof.
      unfold tcp_do_connect, t_socket. cbv zeta. do 2 (apply m_try; [solve [ms]|intros ?]). eapply watched_bind; [apply m_command_st|]. intros [u|er] st ->; [|reflexivity].
      apply m_connect_wait. unfold given. destruct (N.eqb_spec i j); [right|left]; auto.
    Qed.
    Lemma m_tcp_connect fuel r : M (tcp_connect fuel (mkTcp s) r).
    Proof.
      unfold tcp_connect. destruct r as [r|]; [|reflexivity]. apply m_try; [apply m_tcp_open|]. intros a.
      apply m_try; [|intros b; reflexivity]. unfold tcp_socket_connect. apply m_try; [apply m_read_then; reflexivity|]. intros st.
      destruct (status_try_from st) as [[]|]; try reflexivity; try apply m_tcp_do_connect;
        (apply m_try; [apply m_tcp_socket_close|]; intros c; apply m_try; [apply m_tcp_reopen|]; intros d; apply m_tcp_do_connect).
    Qed.
    Lemma m_try_flush_idle dst prt : M (udp_try_flush_tx (mkUdp s dst prt)).
    Proof. unfold udp_try_flush_tx, u_socket. ms. Qed.
    Lemma m_try_flush rd dst prt : i = j ->
      watched (fun r st => st = Idle \/ r = Err WouldBlock /\ exists rd', st = Sending rd') (Sending rd) (udp_try_flush_tx (mkUdp s dst prt)).
    Proof.
      intros E. unfold udp_try_flush_tx, u_socket, get_tx_read_pointer, get_tx_write_pointer, read_reg, try_. cbv zeta. cbn [bind watched].
      split; [apply cr_reg; reflexivity|]. intros got [u|er] L; [|left; reflexivity]. cbn [bind fst snd watched]. split; [apply cr_reg; reflexivity|].
      intros got' [u'|er] L'; [|left; reflexivity]. cbn [bind fst snd]. rewrite !reg_same by exact E. change (s_TX_DATA_READ_POINTER =? Sn_IR) with false. change (s_TX_DATA_READ_POINTER =? Sn_TX_RD) with true.
      change (s_TX_DATA_WRITE_POINTER =? Sn_IR) with false. change (s_TX_DATA_WRITE_POINTER =? Sn_TX_RD) with false. change (s_TX_DATA_WRITE_POINTER =? Sn_TX_WR) with true. cbv iota.
      destruct (from_be got =? from_be got'); [|right; split; [reflexivity|eauto]].
      eapply watched_mono; [|intros a st H; left; exact H]. fold (@calm (res unit (nberr uerr))). ms.
    Qed.
    Lemma m_flush_loop_idle fuel dst prt : M (udp_flush_loop fuel (mkUdp s dst prt)).
    Proof.
      induction fuel as [|fuel IH]; cbn [udp_flush_loop]; [exact I|]. apply m_bind; [apply m_try_flush_idle|]. intros [u|[|x]]; [reflexivity|exact IH|reflexivity].
    Qed.
    Lemma m_flush_loop fuel dst prt : forall rd, i = j -> watched calm (Sending rd) (udp_flush_loop fuel (mkUdp s dst prt)).
    Proof.
      induction fuel as [|fuel IH]; intros rd E; cbn [udp_flush_loop]; [exact I|]. eapply watched_bind; [apply (m_try_flush rd dst prt E)|].
      intros r st [->|(-> & rd' & ->)]; [|apply IH, E]. destruct r as [u|[|x]]; [reflexivity|apply m_flush_loop_idle|reflexivity].
    Qed.
    Lemma m_block_send fuel dst prt : M (udp_block_send_command fuel (mkUdp s dst prt)).
    Proof.
      unfold udp_block_send_command, u_socket. eapply watched_bind; [apply m_command_st|]. intros [u|er] st ->; [|reflexivity]. unfold given.
      destruct (N.eqb_spec i j) as [E|]; [now apply m_flush_loop|apply m_flush_loop_idle].
    Qed.
    Lemma m_udp_socket_send fuel dst prt d : M (udp_socket_send fuel (mkUdp s dst prt) d).
    Proof.
      assert (D : forall w, M (udp_send_data fuel (mkUdp s dst prt) w)).
      { intros w. unfold udp_send_data. cbn [u_socket]. cbv zeta. do 3 (apply m_try; [solve [ms]|intros ?]). apply m_try; [apply m_block_send|reflexivity]. }
      unfold udp_socket_send. cbn [u_socket u_dest]. mw D.
    Qed.
    Lemma m_udp_send_loop fuel dst prt d : forall outer f tot, M (udp_send_loop outer fuel (mkUdp s dst prt) d f tot).
    Proof.
      induction outer as [|outer IH]; intros f tot; cbn [udp_send_loop]; destruct (_ =? _); try exact I; try reflexivity.
      apply m_slice_from. intros rem. cbv zeta. apply m_slice_to. intros b.
      apply m_try; [apply m_udp_socket_send|]. intros n. apply m_try; [apply m_read_then; reflexivity|]. intros fr. apply IH.
    Qed.
    Lemma m_udp_send_all fuel dst prt d : M (udp_send_all fuel (mkUdp s dst prt) d).
    Proof.
      unfold udp_send_all. cbn [u_socket u_dest]. apply m_try; [apply m_read_then; reflexivity|]. intros st. destruct (udp_status_gate st); [|reflexivity]. destruct dst; [|reflexivity].
      apply m_try; [apply m_read_then; reflexivity|]. intros fr. destruct (fr =? 0); [reflexivity|]. apply m_udp_send_loop.
    Qed.
    Lemma m_udp_send_to fuel dst prt r d : M (udp_send_to fuel (mkUdp s dst prt) r d).
    Proof.
      unfold udp_send_to. destruct r as [r|]; [|reflexivity]. unfold udp_send_to_v4, udp_set_destination. cbn [u_socket u_dest u_port].
      match goal with |- context [if ?b then _ else _] => destruct b end.
      - unfold try_. pose proof (m_set_destination_ip (a_ip r)) as H1. pose proof (m_set_destination_port (a_port r)) as H2.
        unfold set_destination_ip, set_destination_port, write_frame in *. cbn [bind watched fst snd] in *.
        split; [apply H1|]. intros r1. pose proof (proj2 H1 r1) as K1. unfold calm in K1. rewrite K1. destruct r1 as [u|x]; cbn [bind watched fst snd]; [|reflexivity].
        split; [apply H2|]. intros r2. pose proof (proj2 H2 r2) as K2. unfold calm in K2. rewrite K2. destruct r2 as [u'|x]; cbn [bind watched fst snd]; [|reflexivity]. apply m_bind; [apply m_udp_send_all|]. intros; reflexivity.
      - cbn [bind fst snd]. apply m_bind; [apply m_udp_send_all|]. intros; reflexivity.
    Qed.
    Lemma m_udp_open dst prt : M (udp_open (mkUdp s dst prt)). Proof. unfold udp_open. cbn [u_socket u_port]. ms. Qed.
    Lemma m_udp_set_destination dst prt r : M (udp_set_destination (mkUdp s dst prt) r).
    Proof. unfold udp_set_destination. cbn [u_socket u_dest u_port]. ms. Qed.
    Lemma m_udp_connect dst prt r : M (udp_connect (mkUdp s dst prt) r).
    Proof. unfold udp_connect. destruct r as [r|]; [|reflexivity]. apply m_try; [apply m_udp_open|]. intros a. apply m_udp_set_destination. Qed.
    Lemma m_udp_set_port dst prt p : M (udp_set_port (mkUdp s dst prt) p).
    Proof. unfold udp_set_port. cbn [u_socket u_dest u_port]. ms. Qed.
    Lemma m_udp_bind dst prt p : M (udp_bind (mkUdp s dst prt) p).
    Proof.
      pose proof (m_set_source_port p) as Mp. unfold udp_bind, udp_set_port, set_source_port, write_frame, try_ in *.
      cbn [u_socket u_port u_dest bind watched] in *. split; [apply Mp|]. intros r1. pose proof (proj2 Mp r1) as K1. unfold calm in K1. rewrite K1. destruct r1 as [a|x]; [|reflexivity]. cbn [bind fst snd].
      apply m_bind; [apply m_udp_open|]. intros [b|x]; reflexivity.
    Qed.
    Lemma m_command_other c : i <> j -> M (command s c).
    Proof.
      intros H. apply (watched_mono _ _ _ _ (m_command_st c)). intros [u|er] st ->; [|reflexivity]. unfold calm, given. now destruct (N.eqb_spec i j).
    Qed.
    Lemma m_sockop fuel q : (forall c, q = KCommand c -> i <> j) -> M (run_sockop fuel s q).
    Proof. intros H. destruct q; cbn [run_sockop]; try solve [ms]. apply m_bind; [apply m_command_other, (H c), eq_refl|reflexivity]. Qed.
  End Calls.
  Lemma m_devop q : M (run_devop q).
  Proof.
    destruct q; cbn [run_devop]; (apply m_bind; [|intros; reflexivity]).
    all: unfold dev_set_mode, dev_set_retry_timeout, dev_set_retry_count, reset_device.
    all: repeat (cbv zeta; first [apply m_common|apply m_read, cr_common|(apply m_try; [|intros ?])|(apply m_bind; [|intros ?])|reflexivity]).
  Qed.

  (** ** Programs *)
  Definition quiet_op (o : op) : Prop := forall h c, o = OpSocket h (KCommand c) -> 8 <= j.
  Lemma m_step_k fuel a o : (forall h y, lookup h (handles a) = Some y -> exists k, k < 8 /\ handle_socket y = socket_new k) ->
    quiet_op o -> M (step fuel a o).
  Proof.
    intros GL Q.
    destruct (op_handle o) as [h|] eqn:E.
    - destruct (lookup h (handles a)) as [y|] eqn:L.
      + destruct (GL _ _ L) as (k & Hk & Ej).
        destruct o; cbn [op_handle] in E; try discriminate E; injection E as ->; cbn [step]; rewrite ?L; destruct y as [sk0|t|u]; try reflexivity; cbn [handle_socket] in Ej.
        all: try (destruct t as [t]; cbn [t_socket] in Ej; subst t).
        all: try (destruct u as [us ud up]; cbn [u_socket] in Ej; subst us).
        all: try subst sk0.
        all: try (match goal with |- watched _ _ (match ?b with _ => _ end) => destruct b; reflexivity end).
        all: try (apply m_bind; [|intros; reflexivity]).
        all: try solve [apply m_tcp_connect; auto | apply m_tcp_send; auto | apply m_tcp_receive; auto | apply m_tcp_close; auto
          | apply m_udp_connect; auto | apply m_udp_bind; auto | apply m_udp_send_all; auto | apply m_udp_send_to; auto
          | apply m_udp_receive; auto | apply m_udp_close; auto | apply m_udp_set_port; auto ].
        all: apply m_sockop; [exact Hk|]; intros c ->; specialize (Q _ _ eq_refl); lia.
      + destruct o; cbn [op_handle] in E; try discriminate E; injection E as ->; cbn [step]; rewrite ?L; reflexivity.
    - destruct o; cbn [op_handle] in E; try discriminate E; cbn [step]; try reflexivity.
      + destruct (take_socket (dev a)) as [? []]; reflexivity.
      + destruct (tcp_socket (dev a)) as [? []]; reflexivity.
      + destruct (udp_socket (dev a)) as [? []]; reflexivity.
      + apply m_bind; [|intros; reflexivity]. apply m_devop.
  Qed.
  Lemma m_step fuel a o : pool_inv a -> quiet_op o -> M (step fuel a o).
  Proof. intros G. apply m_step_k. intros h y L. destruct (pi_lookup _ _ _ G L) as (k & Hk & Ek & _). eauto. Qed.
  Lemma watched_and_ptree {A} (G : A -> watch -> Prop) B W (H : A -> Prop) : forall (p : prog A) st, watched G st p -> ptree B W H p -> watched (fun x st => G x st /\ H x) st p.
  Proof. induction p as [x|w| |b x d k IH|b x d k IH]; cbn; intros st Hw Hp; auto; destruct Hw, Hp; split; auto. Qed.
  Lemma watched_and_atree {A} R Wr (G : A -> watch -> Prop) (H : A -> Prop) : forall (p : prog A) st, watched G st p -> atree R Wr H p -> watched (fun x st => G x st /\ H x) st p.
  Proof. induction p as [x|w| |b x d k IH|b x d k IH]; cbn; intros st Hw Hp; auto; destruct Hw, Hp; split; auto. Qed.
  Lemma m_run_ops fuel ops : forall a, pool_inv a -> Forall quiet_op ops -> M (run_ops fuel a ops).
  Proof.
    induction ops as [|o ops IH]; intros a G F; cbn [run_ops]; [reflexivity|]. inversion F; subst.
    eapply watched_bind; [apply (watched_and_ptree _ _ _ _ _ _ (m_step fuel a o G ltac:(assumption)) (pt_step fuel a o G))|].
    intros r st [-> Hr]. apply m_bind; [|reflexivity]. apply IH; [apply Hr|assumption].
  Qed.
  Lemma m_write_if b ad d c c' k : (forall c, M (k c)) -> M (write_if b ad d c c' k).
  Proof. intros Hk. unfold write_if. destruct b; [|apply Hk]. apply m_bind; [apply m_common|]. intros [u|er]; [apply Hk|reflexivity]. Qed.
  Lemma m_refresh h : M (refresh h).
  Proof. destruct h as [[] st c|]; cbn [refresh]; try reflexivity. apply m_bind; [|reflexivity]. unfold write_settings. repeat (apply m_write_if; intros). reflexivity. Qed.
  Lemma m_initialize_with_host b h m : M (initialize_with_host b h m).
  Proof.
    unfold initialize_with_host. cbv zeta. destruct b.
    1: apply m_try; [unfold assert_chip_version, dev_version; apply m_try; [apply m_try; [apply m_read, cr_common|reflexivity]|intros v; destruct (negb _); reflexivity]|intros _].
    all: apply m_try; [apply m_common|intros _]; apply m_try; [apply m_common|intros _]; apply m_bind; [apply m_refresh|]; intros [h' [u|er]]; reflexivity.
  Qed.
  Lemma m_device_program b h m fuel ops : Forall quiet_op ops -> M (device_program b h m fuel ops).
  Proof.
    intros F. unfold device_program. eapply watched_bind; [apply (watched_and_atree _ _ _ _ _ _ (m_initialize_with_host b h m) (at_initialize_with_host (fun _ _ _ => True) b h m))|].
    intros [d|er] st [-> Hd]; [|reflexivity]. apply m_bind; [|reflexivity]. apply m_run_ops; [now apply pool_inv_ds|exact F].
  Qed.

  (** ** MACRAW *)
  Lemma m_raw_zero l : Forall (fun i => i < 8) l -> M (raw_zero_buffers l).
  Proof.
    induction l as [|i l IH]; intros F; cbn [raw_zero_buffers]; [reflexivity|]. inversion F; subst. cbv zeta.
    do 2 (apply m_try; [apply m_reg; discriminate|intros _]). now apply IH.
  Qed.
  Lemma m_raw_new : watched (fun r st => st = Idle /\ match r with Ok r => r = raw0 | Err _ => True end) Idle raw_new.
  Proof.
    assert (H0 : 0 < 8) by reflexivity.
    assert (K : M raw_new).
    { unfold raw_new. cbv zeta. do 2 (apply m_try; [apply m_reg; discriminate|intros _]).
      apply m_try; [apply m_raw_zero; repeat constructor|intros _]. apply m_try; [apply m_reg; discriminate|intros _].
      apply m_try; [apply m_command; [exact H0| |]; discriminate|reflexivity]. }
    assert (X : frees (fun _ _ _ => True)) by (intros ? ? ? ?; exact I).
    exact (watched_and_atree _ _ _ _ _ _ K (at_raw_new _ X)).
  Qed.
  Lemma m_raw_step fuel o : M (raw_step fuel raw0 o).
  Proof.
    assert (H0 : 0 < 8) by reflexivity.
    destruct o as [w| | |f|f]; cbn [raw_step raw0 raw_socket]; (apply m_bind; [|intros; reflexivity]);
      unfold raw_enable_interrupts, raw_clear_interrupts, raw_disable_interrupts, raw_read_frame, raw_write_frame, raw_read_body, rx_new, rx_commit, tx_new, tx_write, tx_commit;
      cbn [raw0 raw_socket].
    1: { apply m_try; [now apply m_set_interrupt_mask|]. intros. apply m_try; [apply m_common|]. reflexivity. }
    1: { now apply m_reset_interrupt. }
    1: { apply m_try; [apply m_common|]. intros. apply m_try; [now apply m_set_interrupt_mask|]. reflexivity. }
    - assert (Rd : forall c b, M (rx_read (socket_new 0) c b)).
      { intros c [|v b]; cbn [rx_read]; [reflexivity|]. apply m_slice_to. intros x. apply m_bind; [apply m_read_into; now apply cr_rx|]. intros [g [u|er]]; reflexivity. }
      apply m_try. { apply m_try; [now apply m_get_receive_size|]. intros z. apply m_try; [now apply m_read_then|]. reflexivity. }
      intros c. destruct (_ =? 0); [reflexivity|]. apply m_bind; [apply Rd|]. intros [h [cn|er]]; cbn [fst snd]; [|reflexivity].
      destruct (_ =? 2); [|reflexivity]. apply m_bind.
      { unfold rx_read_upto. destruct (_ <? _); [|apply Rd]. apply m_slice_to. intros x. apply m_bind; [apply Rd|]. reflexivity. }
      intros [g [cn'|er]]; cbn [fst snd]; [|reflexivity]. apply m_try; [|reflexivity].
      apply m_try; [now apply m_set_rx_read_pointer|]. intros. apply m_try; [|reflexivity]. apply m_command; [exact H0| |]; discriminate.
    - apply m_try; [now apply m_reset_interrupt|]. intros. apply m_try.
      { apply m_try; [now apply m_read_then|]. intros. apply m_try; [now apply m_read_then|]. reflexivity. }
      intros c. apply m_try.
      { destruct (_ || _); [reflexivity|]. cbv zeta. apply m_slice_to. intros x. apply m_try; [now apply m_tx|]. intros. destruct (_ <? _); reflexivity. }
      intros cn. eapply watched_bind with (G := fun r st => match r with Ok _ => st = given 0 CR_SEND | Err _ => st = Idle end).
      { eapply watched_bind; [apply (m_set_tx_write_pointer 0)|]. intros [u|er] st ->; [|reflexivity].
        eapply watched_bind; [now apply m_command_st|]. intros [u'|er] st ->; reflexivity. }
      intros [u|er] st ->; [|reflexivity]. eapply watched_bind; [now apply m_wait|]. intros [u'|er] st ->; reflexivity.
  Qed.
  Lemma m_run_raw fuel ops : M (run_raw fuel raw0 ops).
  Proof. induction ops as [|o ops IH]; cbn [run_raw]; [reflexivity|]. apply m_bind; [apply m_raw_step|intros]. apply m_bind; [apply IH|reflexivity]. Qed.
  Lemma m_macraw_program m fuel ops : M (macraw_program m fuel ops).
  Proof.
    unfold macraw_program, initialize_macraw. cbv zeta.
    eapply watched_bind with (G := fun r st => st = Idle /\ match r with Ok r => r = raw0 | Err _ => True end).
    - eapply watched_bind; [apply m_common|]. intros [u|er] st ->; [|cbn; auto].
      eapply watched_bind; [apply m_common|]. intros [u'|er] st ->; [|cbn; auto]. exact m_raw_new.
    - intros [d|er] st [-> Hd]; [subst d|reflexivity]. apply m_bind; [apply m_run_raw|reflexivity].
  Qed.

  (** ** What a watched computation's traces look like *)
  Definition sees (st : watch) (ev : event) : watch :=
    match ev with ERead b a got r => sees_read st b a got r | EWrite b a d r => sees_write st b a d r end.
  Definition fine (st : watch) (ev : event) : Prop :=
    match ev with ERead b a got _ => no_cr b a (length got) | EWrite b a d _ => command_to b a d <> None -> st = Idle end.
  Fixpoint accepted (st : watch) (tr : list event) : Prop :=
    match tr with [] => True | ev :: tr => fine st ev /\ accepted (sees st ev) tr end.
  Lemma watched_exec {A} (G : A -> watch -> Prop) (p : prog A) tr o : exec p tr o -> forall st, watched G st p -> accepted st tr.
  Proof.
    intros E. induction E; cbn; intros st HT; auto.
    - destruct HT as [H1 H2]. split; [now rewrite H|]. now apply IHE, H2.
    - destruct HT as [H1 H2]. split; [exact H1|]. now apply IHE, H2.
  Qed.
  Lemma accepted_app t1 : forall st t2, accepted st (t1 ++ t2) -> exists st', accepted st' t2.
  Proof. induction t1 as [|ev t1 IH]; intros st t2 H; [now exists st|]. cbn in H. now apply (IH (sees st ev)). Qed.
  Lemma accepted_reads st tr b a got r : accepted st tr -> In (ERead b a got r) tr -> no_cr b a (length got).
  Proof. revert st. induction tr as [|ev tr IH]; intros st; cbn; [intros _ []|]. intros [H1 H2] [->|X]; [exact H1|]. eapply IH; eauto. Qed.
End Watch.
