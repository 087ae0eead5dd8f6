(** Which registers and which bytes a computation can access, for arbitrary bus behaviour. *)
From Verif Require Export HistoryFacts RawHistory.
From Verif Require Import Datasheet.

(** ** The register map: address, width in bytes, and whether the host may write it
    (W5500 datasheet v1.1.0, section 3.1 and 4) *)
Definition common_map : list (N * nat * bool) :=
  [(0x00, 1%nat, true) (* MR *);      (0x01, 4%nat, true) (* GAR *);     (0x05, 4%nat, true) (* SUBR *);
   (0x09, 6%nat, true) (* SHAR *);    (0x0F, 4%nat, true) (* SIPR *);    (0x13, 2%nat, true) (* INTLEVEL *);
   (0x15, 1%nat, true) (* IR *);      (0x16, 1%nat, true) (* IMR *);     (0x17, 1%nat, false) (* SIR *);
   (0x18, 1%nat, true) (* SIMR *);    (0x19, 2%nat, true) (* RTR *);     (0x1B, 1%nat, true) (* RCR *);
   (0x1C, 1%nat, true) (* PTIMER *);  (0x1D, 1%nat, true) (* PMAGIC *);  (0x1E, 6%nat, true) (* PHAR *);
   (0x24, 2%nat, true) (* PSID *);    (0x26, 2%nat, true) (* PMRU *);    (0x28, 4%nat, false) (* UIPR *);
   (0x2C, 2%nat, false) (* UPORTR *); (0x2E, 1%nat, true) (* PHYCFGR *); (0x39, 1%nat, false) (* VERSIONR *)].
Definition socket_map : list (N * nat * bool) :=
  [(0x00, 1%nat, true) (* Sn_MR *);      (0x01, 1%nat, true) (* Sn_CR *);      (0x02, 1%nat, true) (* Sn_IR *);
   (0x03, 1%nat, false) (* Sn_SR *);     (0x04, 2%nat, true) (* Sn_PORT *);    (0x06, 6%nat, true) (* Sn_DHAR *);
   (0x0C, 4%nat, true) (* Sn_DIPR *);    (0x10, 2%nat, true) (* Sn_DPORT *);   (0x12, 2%nat, true) (* Sn_MSSR *);
   (0x15, 1%nat, true) (* Sn_TOS *);     (0x16, 1%nat, true) (* Sn_TTL *);
   (0x1E, 1%nat, true) (* Sn_RXBUF_SIZE *); (0x1F, 1%nat, true) (* Sn_TXBUF_SIZE *);
   (0x20, 2%nat, false) (* Sn_TX_FSR *); (0x22, 2%nat, false) (* Sn_TX_RD *);  (0x24, 2%nat, true) (* Sn_TX_WR *);
   (0x26, 2%nat, false) (* Sn_RX_RSR *); (0x28, 2%nat, true) (* Sn_RX_RD *);   (0x2A, 2%nat, false) (* Sn_RX_WR *);
   (0x2C, 1%nat, true) (* Sn_IMR *);     (0x2D, 2%nat, true) (* Sn_FRAG *);    (0x2F, 1%nat, true) (* Sn_KPALVTR *)].

Definition whole_register (m : list (N * nat * bool)) (a : N) (n : nat) : Prop :=
  exists rw, In (a, n, rw) m.
Definition writable_register (m : list (N * nat * bool)) (a : N) (n : nat) : Prop :=
  In (a, n, true) m.

(** the values the datasheet defines for the registers where others are reserved *)
Definition defined_value (a : N) (d : list byte) : Prop :=
  (a = Sn_CR -> exists c, d = [c] /\
     In (b2n c) [CR_OPEN; CR_LISTEN; CR_CONNECT; CR_DISCON; CR_CLOSE; CR_SEND; CR_RECV]) /\
  (a = Sn_MR -> exists m, d = [m] /\
     In (b2n m) [MR_CLOSE; MR_TCP; MR_UDP; MR_MACRAW; MR_MACRAW + MR_MFEN]) /\
  (a = Sn_RXBUF_SIZE \/ a = Sn_TXBUF_SIZE -> exists k, d = [k] /\ In (b2n k) [0; 1; 2; 4; 8; 16]).

(** reads: a whole register, or RX memory; never TX memory *)
Definition read_ok (blk a : N) (n : nat) : Prop :=
  (blk = BSB_COMMON /\ whole_register common_map a n) \/
  exists i, i < 8 /\
    ((blk = BSB_REG i /\ whole_register socket_map a n) \/
     (blk = BSB_RX i /\ a < 65536 /\ N.of_nat n < 65536)).
(** writes: a whole writable register, with a defined value, or TX memory; never RX memory *)
Definition write_ok (blk a : N) (d : list byte) : Prop :=
  (blk = BSB_COMMON /\ writable_register common_map a (length d)) \/
  exists i, i < 8 /\
    ((blk = BSB_REG i /\ writable_register socket_map a (length d) /\ defined_value a d) \/
     (blk = BSB_TX i /\ a < 65536 /\ N.of_nat (length d) < 65536)).
(** the same, buffer sizes left alone *)
Definition plain_write (blk a : N) (d : list byte) : Prop :=
  write_ok blk a d /\ forall i, i < 8 -> blk = BSB_REG i -> a <> Sn_RXBUF_SIZE /\ a <> Sn_TXBUF_SIZE.
Definition access_ok (ev : event) : Prop :=
  match ev with
  | ERead blk a got _ => read_ok blk a (length got)
  | EWrite blk a d _ => write_ok blk a d
  end.

(** ** Computations all of whose accesses are in [R] / [Wr] *)
Section Atree.
  Context (R : N -> N -> nat -> Prop) (Wr : N -> N -> list byte -> Prop).

  Fixpoint atree {A} (G : A -> Prop) (p : prog A) : Prop :=
    match p with
    | Ret a => G a
    | Panic _ | Spin => True
    | BusRead b a d k => R b a (length d) /\ forall got r, length got = length d -> atree G (k (got, r))
    | BusWrite b a d k => Wr b a d /\ forall r, atree G (k r)
    end.

  Lemma atree_bind {A C} (G : A -> Prop) (G' : C -> Prop) p f :
    atree G p -> (forall a, G a -> atree G' (f a)) -> atree G' (bind p f).
  Proof.
    induction p as [a|w| |b a d k IH|b a d k IH]; cbn; intros H Hf; auto;
      destruct H as [Hb H]; split; auto.
  Qed.
  Lemma atree_mono {A} (G G' : A -> Prop) p :
    (forall a, G a -> G' a) -> atree G p -> atree G' p.
  Proof.
    intros HG. induction p as [a|w| |b a d k IH|b a d k IH]; cbn; intros H; auto;
      destruct H; split; auto.
  Qed.
  Lemma atree_try {A E C} (G : res A E -> Prop) (G' : C -> Prop) (p : prog (res A E)) h k :
    atree G p -> (forall a, G (Ok a) -> atree G' (k a)) -> (forall e, G' (h e)) ->
    atree G' (try_ p h k).
  Proof.
    intros Hp Hk Hh. unfold try_. eapply atree_bind; [exact Hp|].
    intros [a|e] Ha; [auto|apply Hh].
  Qed.
  Lemma atree_slice_to {C} w n l (k : list byte -> prog C) G :
    (n <= len l -> atree G (k (take n l))) -> atree G (slice_to w n l k).
  Proof. intros H. unfold slice_to. destruct (N.leb_spec n (len l)); [auto|exact I]. Qed.
  Lemma atree_slice_from {C} w n l (k : list byte -> prog C) G :
    (n <= len l -> atree G (k (drop n l))) -> atree G (slice_from w n l k).
  Proof. intros H. unfold slice_from. destruct (N.leb_spec n (len l)); [auto|exact I]. Qed.

  (** results known from another walk over the same computation *)
  Lemma ptree_atree {A} B W (H : A -> Prop) (G G' : A -> Prop) p :
    ptree B W H p -> atree G p -> (forall a, H a -> G' a) -> atree G' p.
  Proof.
    intros Hp Ha HG. induction p as [a|w| |b a d k IH|b a d k IH]; cbn in *; auto;
      destruct Hp, Ha; split; auto.
  Qed.

  Definition in_rw (ev : event) : Prop :=
    match ev with ERead b a got _ => R b a (length got) | EWrite b a d _ => Wr b a d end.
  Lemma atree_exec {A} (G : A -> Prop) p tr o :
    atree G p -> exec p tr o -> Forall in_rw tr /\ match o with Done a => G a | _ => True end.
  Proof.
    intros H E. revert H. induction E; cbn; intros HT; try (now split; [constructor|]).
    - destruct HT as [Hb HT]. destruct (IHE (HT _ _ H)) as [I1 I2].
      split; [|exact I2]. constructor; [cbn; now rewrite H|exact I1].
    - destruct HT as [Hb HT]. destruct (IHE (HT _)) as [I1 I2].
      split; [|exact I2]. constructor; auto.
  Qed.
End Atree.
Notation any := (fun _ => True).

(** [X]: the writes made besides *)
Section Extra.
Context (X : N -> N -> list byte -> Prop).
Notation AT G p := (atree read_ok (fun b a d => plain_write b a d \/ X b a d) G p).

(** ** Leaves *)
Lemma at_cread a n : whole_register common_map a n ->
  AT (fun r => match r with Ok d => length d = n | Err _ => True end) (read_reg COMMON a n).
Proof.
  intros H. unfold read_reg. cbn [atree]. unfold zeros. rewrite (repeat_length _ n).
  split; [left; split; [reflexivity|exact H]|].
  intros got [u|e] L; cbn; auto.
Qed.
Lemma at_cwrite a d : writable_register common_map a (length d) -> AT any (write_frame COMMON a d).
Proof.
  intros H. cbn. split; [|auto]. left. split; [left; split; [reflexivity|exact H]|].
  intros i Hi E. unfold BSB_REG in E. change COMMON with 0 in E. lia.
Qed.

Section Sock.
  Context (i : N) (Hi : i < 8).
  Notation s := (socket_new i).

  Lemma reg_blk : register s = BSB_REG i.
  Proof. clear X. unfold socket_new, BSB_REG; cbn [register]. rewrite (N.mod_small (i * 4)) by lia. rewrite N.mod_small by lia. lia. Qed.
  Lemma tx_blk : tx_buffer s = BSB_TX i.
  Proof. clear X. unfold socket_new, BSB_TX; cbn [tx_buffer]. rewrite (N.mod_small (i * 4)) by lia. rewrite N.mod_small by lia. lia. Qed.
  Lemma rx_blk : rx_buffer s = BSB_RX i.
  Proof. clear X. unfold socket_new, BSB_RX; cbn [rx_buffer]. rewrite (N.mod_small (i * 4)) by lia. rewrite N.mod_small by lia. lia. Qed.

  Lemma at_sread a n : whole_register socket_map a n ->
    AT (fun r => match r with Ok d => length d = n | Err _ => True end) (read_reg (register s) a n).
  Proof.
    intros H. unfold read_reg. cbn [atree]. unfold zeros. rewrite (repeat_length _ n). split.
    - right. exists i. split; [exact Hi|]. left. split; [apply reg_blk|exact H].
    - intros got [u|e] L; cbn; auto.
  Qed.
  Lemma at_swrite a d : writable_register socket_map a (length d) -> defined_value a d ->
    a <> Sn_RXBUF_SIZE /\ a <> Sn_TXBUF_SIZE ->
    AT any (write_frame (register s) a d).
  Proof.
    intros H V NS. unfold write_frame. cbn [atree]. split; [|auto]. left. split; [|intros _ _ _; exact NS].
    right. exists i. split; [exact Hi|]. left. split; [apply reg_blk|split; assumption].
  Qed.
  Lemma at_rxread a buf : a < 65536 -> len buf < 65536 ->
    AT (fun gr => length (fst gr) = length buf) (read_into (rx_buffer s) a buf).
  Proof.
    intros H L. unfold read_into. cbn [atree]. split; [|auto].
    right. exists i. split; [exact Hi|]. right. split; [apply rx_blk|split; assumption].
  Qed.
  Lemma at_txwrite a d : a < 65536 -> len d < 65536 -> AT any (write_frame (tx_buffer s) a d).
  Proof.
    intros H L. unfold write_frame. cbn [atree]. split; [|auto]. left. split.
    - right. exists i. split; [exact Hi|]. right. split; [apply tx_blk|split; assumption].
    - intros j Hj E. rewrite tx_blk in E. unfold BSB_REG, BSB_TX in E. lia.
  Qed.
End Sock.

Ltac inmap := unfold whole_register, writable_register; repeat (eexists || idtac); cbn; tauto.
Ltac inlist := repeat (first [left; reflexivity | right]).
Lemma whole_in (m : list (N * nat * bool)) a n rw : In (a, n, rw) m -> whole_register m a n.
Proof. now exists rw. Qed.

Section SockOps.
  Context (i : N) (Hi : i < 8).
  Notation s := (socket_new i).

  Lemma dv_other a d : a <> Sn_CR -> a <> Sn_MR -> a <> Sn_RXBUF_SIZE -> a <> Sn_TXBUF_SIZE -> defined_value a d.
  Proof. intros. unfold defined_value. repeat split; intros E; try (exfalso; auto; fail); destruct E; exfalso; auto. Qed.

  Ltac wr := apply (at_swrite i Hi); [inlist|apply dv_other; discriminate|split; discriminate].
  Lemma at_set_mode m : AT any (set_mode s m).
  Proof.
    apply (at_swrite i Hi); [inlist| |split; discriminate]. unfold defined_value.
    split; [discriminate|]. split; [|intros [E|E]; discriminate].
    intros _. eexists. split; [reflexivity|]. destruct m; cbn; tauto.
  Qed.
  Lemma at_reset_interrupt c : AT any (reset_interrupt s c). Proof. wr. Qed.
  Lemma at_set_source_port p : AT any (set_source_port s p). Proof. wr. Qed.
  Lemma at_set_destination_ip p : AT any (set_destination_ip s p). Proof. destruct p. wr. Qed.
  Lemma at_set_destination_port p : AT any (set_destination_port s p). Proof. wr. Qed.
  Lemma at_set_tx_write_pointer p : AT any (set_tx_write_pointer s p). Proof. wr. Qed.
  Lemma at_set_rx_read_pointer p : AT any (set_rx_read_pointer s p). Proof. wr. Qed.
  Lemma at_set_interrupt_mask m : AT any (set_interrupt_mask s m). Proof. wr. Qed.
  Lemma at_command c : AT any (command s c).
  Proof.
    apply (at_swrite i Hi); [inlist| |split; discriminate]. unfold defined_value.
    split; [|split; [discriminate|intros [E|E]; discriminate]].
    intros _. eexists. split; [reflexivity|]. destruct c; cbn; tauto.
  Qed.

  Ltac rd := eapply atree_try; [apply (at_sread i Hi); eapply whole_in; inlist|..].
  Lemma at_read16 a : whole_register socket_map a 2 ->
    AT r_lt (try d <- read_reg (register s) a 2 else Err ;; Ret (Ok (from_be d))).
  Proof.
    intros H. eapply atree_try; [apply (at_sread i Hi); exact H| |].
    - intros d L. cbn. now apply from_be_lt.
    - cbn. auto.
  Qed.
  Lemma at_get_tx_read_pointer : AT r_lt (get_tx_read_pointer s).
  Proof. apply at_read16. eapply whole_in; inlist. Qed.
  Lemma at_get_tx_write_pointer : AT r_lt (get_tx_write_pointer s).
  Proof. apply at_read16. eapply whole_in; inlist. Qed.
  Lemma at_get_rx_read_pointer : AT r_lt (get_rx_read_pointer s).
  Proof. apply at_read16. eapply whole_in; inlist. Qed.
  Lemma at_get_tx_free_size : AT r_lt (get_tx_free_size s).
  Proof. apply at_read16. eapply whole_in; inlist. Qed.
  Lemma at_get_receive_size fuel : AT r_lt (get_receive_size fuel s).
  Proof.
    induction fuel as [|fuel IH]; cbn [get_receive_size]; [exact I|].
    rd; [|cbn; auto]. intros d L. rd; [|cbn; auto]. intros d' L'.
    destruct (bytes_eqb d d'); [|exact IH]. cbn. now apply from_be_lt.
  Qed.
  Lemma at_get_status : AT any (get_status s).
  Proof. unfold get_status. rd; cbn; auto. Qed.
  Lemma at_has_interrupt c : AT any (has_interrupt s c).
  Proof. unfold has_interrupt. rd; cbn; auto. Qed.
  Lemma at_wait_send_ok fuel : AT any (wait_send_ok fuel s).
  Proof.
    induction fuel as [|fuel IH]; cbn [wait_send_ok]; [exact I|].
    eapply atree_try; [apply at_has_interrupt|..]; [|cbn; auto].
    intros [|] _; [cbn; auto|exact IH].
  Qed.
End SockOps.

Ltac aleaf := first
  [ simple apply at_set_mode | simple apply at_reset_interrupt | simple apply at_set_source_port
  | simple apply at_set_destination_ip | simple apply at_set_destination_port | simple apply at_set_tx_write_pointer
  | simple apply at_set_rx_read_pointer | simple apply at_set_interrupt_mask | simple apply at_command
  | simple apply at_get_tx_read_pointer | simple apply at_get_tx_write_pointer | simple apply at_get_rx_read_pointer
  | simple apply at_get_tx_free_size | simple apply at_get_receive_size | simple apply at_get_status
  | simple apply at_has_interrupt | simple apply at_wait_send_ok ]; assumption.
Ltac astep := eapply atree_try; [first [aleaf | solve [eauto 2 with at_]] | intros ? ? | try (intros ?; exact I)].
Ltac asteps := repeat (astep; cbv beta in *).

Lemma len_take_le {A} n (l : list A) : len (take n l) <= n.
Proof. unfold len, take. rewrite firstn_length. lia. Qed.

Section Calls.
  Context (i : N) (Hi : i < 8).
  Notation s := (socket_new i).
  Notation t := (mkTcp s).

  Lemma at_tcp_reopen : AT any (tcp_reopen t).
  Proof. unfold tcp_reopen. cbn [t_socket]. cbv zeta. asteps. exact I. Qed.
  Lemma at_tcp_open p : AT any (tcp_open t p).
  Proof. unfold tcp_open. cbn [t_socket]. cbv zeta. asteps. exact I. Qed.
  Lemma at_tcp_socket_close : AT any (tcp_socket_close t).
  Proof. unfold tcp_socket_close. cbn [t_socket]. cbv zeta. asteps. exact I. Qed.
  Hint Resolve at_tcp_reopen at_tcp_open at_tcp_socket_close : at_.
  Lemma at_tcp_connect_wait fuel : AT any (tcp_connect_wait fuel t).
  Proof.
    induction fuel as [|fuel IH]; cbn [tcp_connect_wait]; [exact I|]. cbn [t_socket]. astep.
    destruct (status_try_from _) as [[]|]; try exact IH; try exact I. astep. apply at_tcp_reopen.
  Qed.
  Hint Resolve at_tcp_connect_wait : at_.
  Lemma at_tcp_do_connect fuel r : AT any (tcp_do_connect fuel t r).
  Proof. unfold tcp_do_connect. cbn [t_socket]. cbv zeta. asteps. apply at_tcp_connect_wait. Qed.
  Hint Resolve at_tcp_do_connect : at_.
  Lemma at_tcp_socket_connect fuel r : AT any (tcp_socket_connect fuel t r).
  Proof.
    unfold tcp_socket_connect. cbn [t_socket]. astep.
    destruct (status_try_from _) as [[]|]; try exact I; try (asteps; apply at_tcp_do_connect).
    all: apply at_tcp_do_connect.
  Qed.
  Hint Resolve at_tcp_socket_connect : at_.
  Lemma at_tcp_connect fuel r : AT any (tcp_connect fuel t r).
  Proof. unfold tcp_connect. destruct r as [r|]; [|exact I]. asteps. exact I. Qed.
  Lemma at_tcp_is_connected : AT any (tcp_is_connected t).
  Proof. unfold tcp_is_connected. cbn [t_socket]. asteps. exact I. Qed.
  Hint Resolve at_tcp_is_connected : at_.
  Lemma at_tcp_send_data fuel d : len d < 65536 -> AT any (tcp_send_data fuel t d).
  Proof.
    intros L. unfold tcp_send_data. cbn [t_socket]. cbv zeta. astep.
    eapply atree_try; [apply (at_txwrite i Hi); eauto|intros ? ?|intros; exact I]. asteps. exact I.
  Qed.
  Lemma at_tcp_socket_send fuel d : AT any (tcp_socket_send fuel t d).
  Proof.
    unfold tcp_socket_send. astep. destruct (negb _); [exact I|]. cbn [t_socket]. astep.
    cbn [r_lt] in *. destruct (N.ltb_spec (len d) a0).
    - apply at_tcp_send_data. lia.
    - apply atree_slice_to. intros _. apply at_tcp_send_data.
      pose proof (len_take_le a0 d). lia.
  Qed.
  Hint Resolve at_tcp_socket_send : at_.
  Lemma at_tcp_send fuel d : AT any (tcp_send fuel t d).
  Proof. unfold tcp_send. asteps. exact I. Qed.
  Lemma at_tcp_receive_data n d : n < 65536 -> AT any (tcp_receive_data t n d).
  Proof.
    intros L. unfold tcp_receive_data. cbn [t_socket]. cbv zeta. astep.
    eapply atree_bind; [apply (at_rxread i Hi); [assumption|]|].
    - pose proof (len_take_le n d). lia.
    - intros [got [u|e]] _; cbn [fst snd]; [|exact I]. asteps. exact I.
  Qed.
  Lemma at_tcp_socket_receive fuel d : AT any (tcp_socket_receive fuel t d).
  Proof.
    unfold tcp_socket_receive. astep. destruct (negb _); [exact I|]. cbn [t_socket]. astep.
    destruct (negb _); [exact I|]. astep. cbn [r_lt] in *.
    destruct (N.ltb_spec (len d) a1); [apply at_tcp_receive_data; lia|].
    destruct (_ <=? _); [|exact I]. now apply at_tcp_receive_data.
  Qed.
  Lemma at_tcp_receive fuel d : AT any (tcp_receive fuel t d).
  Proof. unfold tcp_receive. eapply atree_bind; [apply at_tcp_socket_receive|]. intros. exact I. Qed.

  (** UDP *)
  Context (u : UdpSocket) (Hu : u_socket u = s).
  Lemma at_udp_open : AT any (udp_open u).
  Proof. unfold udp_open. rewrite Hu. cbv zeta. asteps. exact I. Qed.
  Hint Resolve at_udp_open : at_.
  Lemma at_udp_set_port p : AT (fun r => u_socket (fst r) = s) (udp_set_port u p).
  Proof. unfold udp_set_port. cbv zeta. cbn [u_socket]. rewrite Hu. eapply atree_try; [aleaf|..]; cbn; auto. Qed.
  Lemma at_udp_set_destination r : AT (fun r => u_socket (fst r) = s) (udp_set_destination u r).
  Proof.
    unfold udp_set_destination. destruct (match u_dest u with Some _ => _ | None => _ end); [|cbn; auto].
    rewrite Hu. eapply atree_try; [aleaf|intros ? _|cbn; auto].
    eapply atree_try; [aleaf|intros ? _|cbn; auto]. cbn. auto.
  Qed.
  Lemma at_udp_try_flush_tx : AT any (udp_try_flush_tx u).
  Proof.
    unfold udp_try_flush_tx. rewrite Hu. cbv zeta. asteps. destruct (_ =? _); [|exact I]. astep.
    destruct a1; [asteps; exact I|]. astep. destruct a1; asteps; exact I.
  Qed.
  Hint Resolve at_udp_try_flush_tx : at_.
  Lemma at_udp_flush_loop fuel : AT any (udp_flush_loop fuel u).
  Proof.
    induction fuel as [|fuel IH]; cbn [udp_flush_loop]; [exact I|].
    eapply atree_bind; [apply at_udp_try_flush_tx|]. intros [a|[|e]] _; [exact I|exact IH|exact I].
  Qed.
  Lemma at_udp_block fuel : AT any (udp_block_send_command fuel u).
  Proof. unfold udp_block_send_command. rewrite Hu. astep. apply at_udp_flush_loop. Qed.
  Hint Resolve at_udp_block : at_.
  Lemma at_udp_send_data fuel d : len d < 65536 -> AT any (udp_send_data fuel u d).
  Proof.
    intros L. unfold udp_send_data. cbv zeta. rewrite Hu. astep.
    eapply atree_try; [apply (at_txwrite i Hi); eauto|intros ? ?|intros; exact I]. asteps. exact I.
  Qed.
  Lemma at_udp_socket_send fuel d : AT any (udp_socket_send fuel u d).
  Proof.
    unfold udp_socket_send. cbv zeta. rewrite Hu. astep. destruct (udp_status_gate _); [|exact I].
    destruct (u_dest u); [|exact I]. astep. cbn [r_lt] in *. destruct (_ =? 0); [exact I|].
    destruct (N.ltb_spec (len d) a2).
    - apply at_udp_send_data. lia.
    - apply atree_slice_to. intros _. apply at_udp_send_data. pose proof (len_take_le a2 d). lia.
  Qed.
  Hint Resolve at_udp_socket_send : at_.
  Lemma at_udp_send_loop fuel d outer : forall f tot, AT any (udp_send_loop outer fuel u d f tot).
  Proof.
    induction outer as [|outer IH]; intros f tot; cbn [udp_send_loop]; destruct (_ =? _); try exact I.
    apply atree_slice_from. intros _. cbv zeta. apply atree_slice_to. intros _. astep. rewrite Hu. astep.
    apply IH.
  Qed.
  Lemma at_udp_send_all fuel d : AT any (udp_send_all fuel u d).
  Proof.
    unfold udp_send_all. cbv zeta. rewrite Hu. astep. destruct (udp_status_gate _); [|exact I].
    destruct (u_dest u); [|exact I]. astep. destruct (_ =? 0); [exact I|]. apply at_udp_send_loop.
  Qed.
  Lemma at_udp_socket_receive fuel d : AT any (udp_socket_receive fuel u d).
  Proof.
    unfold udp_socket_receive. cbv zeta. rewrite Hu. astep. destruct (udp_status_gate _); [|exact I]. astep.
    destruct (negb _); [exact I|]. astep. destruct (_ =? 0); [exact I|]. destruct (_ =? 0); [exact I|]. astep.
    cbn [r_lt] in *.
    unfold read_reg. unfold try_ at 1. cbn [bind atree]. split.
    { right. exists i. split; [exact Hi|]. right. split; [now apply rx_blk|]. split; [assumption|reflexivity]. }
    intros got r L. cbn [snd fst]. destruct r as [[]|e]; [|exact I].
    apply atree_slice_to. intros Hle.
    assert (Hl : h_len (udp_header_from got) < 65536) by (unfold udp_header_from; cbn [h_len]; now apply from_be_lt).
    eapply atree_bind; [apply (at_rxread i Hi); [apply wadd16_lt|]|].
    - pose proof (len_take_le (N.max (N.min a2 (len d)) (h_len (udp_header_from got))) d). lia.
    - intros [g [v|e]] _; cbn [fst snd]; [|exact I]. asteps. exact I.
  Qed.
  Lemma at_udp_receive fuel d : AT any (udp_receive fuel u d).
  Proof. unfold udp_receive. eapply atree_bind; [apply at_udp_socket_receive|]. intros. exact I. Qed.
  Lemma at_udp_socket_close : AT any (udp_socket_close u).
  Proof. unfold udp_socket_close. rewrite Hu. cbv zeta. asteps. exact I. Qed.
  Lemma at_udp_connect r : AT any (udp_connect u r).
  Proof.
    unfold udp_connect. destruct r as [r|]; [|exact I]. asteps.
    eapply atree_mono; [|apply at_udp_set_destination]. auto.
  Qed.
End Calls.

Lemma at_udp_bind i u p : i < 8 -> u_socket u = socket_new i -> AT any (udp_bind u p).
Proof.
  intros Hi Hu. unfold udp_bind. eapply atree_bind; [now apply (at_udp_set_port i Hi)|].
  intros [u' [a|e]] Hu'; cbn [fst snd] in *; [|exact I].
  eapply atree_try; [now apply (at_udp_open i Hi)|..]; intros; exact I.
Qed.
Lemma at_udp_send_to i u fuel r d : i < 8 -> u_socket u = socket_new i -> AT any (udp_send_to fuel u r d).
Proof.
  intros Hi Hu. unfold udp_send_to. destruct r as [r|]; [|exact I]. unfold udp_send_to_v4.
  eapply atree_bind; [now apply (at_udp_set_destination i Hi)|].
  intros [u' [a|e]] Hu'; cbn [fst snd] in *; [|exact I].
  eapply atree_bind; [now apply (at_udp_send_all i Hi)|]. intros; exact I.
Qed.

(** ** Device and initialisation *)
Ltac cw := apply at_cwrite; inlist.
Ltac crd := eapply atree_try; [apply at_cread; eapply whole_in; inlist|..]; intros; exact I.
Lemma at_run_devop q : AT any (run_devop q).
Proof.
  destruct q; cbn [run_devop]; (eapply atree_bind with (G := any); [|intros; exact I]).
  1: unfold dev_gateway; crd. 1: unfold dev_subnet_mask; crd. 1: unfold dev_mac; crd. 1: unfold dev_ip; crd.
  1: unfold dev_phy_config; crd. 1: unfold dev_version; crd. 1: unfold dev_current_retry_timeout; crd.
  1: unfold dev_current_retry_count; crd. 1: unfold dev_set_mode; cw.
  1: unfold dev_set_retry_timeout; eapply atree_try; [cw|..]; intros; exact I.
  1: unfold dev_set_retry_count; eapply atree_try; [cw|..]; intros; exact I.
  unfold reset_device. cw.
Qed.

(** the one method that writes a read-only register *)
Definition sets_tx_read (o : op) : Prop := exists h p, o = OpSocket h (KSetTxRead p).
Definition tx_read_write (b a : N) (d : list byte) : Prop := exists i, i < 8 /\ b = BSB_REG i /\ a = Sn_TX_RD /\ length d = 2%nat.
Lemma at_run_sockop i fuel q : i < 8 -> (forall p, q = KSetTxRead p -> forall b a d, tx_read_write b a d -> X b a d) -> AT any (run_sockop fuel (socket_new i) q).
Proof.
  intros Hi Hq. destruct q; cbn [run_sockop];
    try (eapply atree_bind with (G := any); [|intros; exact I]; unfold set_tx_read_pointer, write_frame; cbn [atree]; split; [|auto]; right;
         eapply Hq; [reflexivity|]; exists i; rewrite (reg_blk i Hi); auto; fail);
    (eapply atree_bind; [first [aleaf | simple apply at_get_receive_size; assumption]|]; intros; exact I).
Qed.

Definition excuses (o : op) : Prop := sets_tx_read o -> forall b a d, tx_read_write b a d -> X b a d.
Lemma at_step_k fuel a o : (forall h x, lookup h (handles a) = Some x -> exists i, i < 8 /\ handle_socket x = socket_new i) ->
  excuses o -> AT any (step fuel a o).
Proof.
  intros K Hs.
  destruct o as [|h| |h r|h d|h b|h| |h r|h pt|h d|h r d|h b|h|h| |q|h pt|h q]; cbn [step].
  all: try (destruct (lookup h (handles a)) as [[sk|t|u]|] eqn:L; try exact I;
    destruct (K _ _ L) as (i & Hi & E); cbn [handle_socket] in E;
    try (destruct t as [t0]; cbn [t_socket] in E; subst t0)).
  - destruct (take_socket _) as [d [k|]]; exact I.
  - destruct (release_socket _ _); exact I.
  - destruct (tcp_socket _) as [d [k|]]; exact I.
  - eapply atree_bind; [now apply at_tcp_connect|intros; exact I].
  - eapply atree_bind; [now apply at_tcp_send|intros; exact I].
  - eapply atree_bind; [now apply at_tcp_receive|intros; exact I].
  - eapply atree_bind with (G := any); [|intros; exact I]. unfold tcp_close. cbn [t_socket].
    eapply atree_try; [now apply at_tcp_socket_close|intros|intros; exact I]. destruct (release_socket _ _); exact I.
  - destruct (udp_socket _) as [d [k|]]; exact I.
  - eapply atree_bind; [now apply (at_udp_connect i)|intros; exact I].
  - eapply atree_bind; [now apply (at_udp_bind i)|intros; exact I].
  - eapply atree_bind; [now apply (at_udp_send_all i)|intros; exact I].
  - eapply atree_bind; [now apply (at_udp_send_to i)|intros; exact I].
  - eapply atree_bind; [now apply (at_udp_receive i)|intros; exact I].
  - eapply atree_bind with (G := any); [|intros; exact I]. unfold udp_close.
    eapply atree_try; [now apply (at_udp_socket_close i)|intros|intros; exact I]. destruct (release_socket _ _); exact I.
  - exact I.
  - eapply atree_bind; [apply at_run_devop|intros; exact I].
  - eapply atree_bind; [now apply (at_udp_set_port i)|intros; exact I].
  - subst sk. eapply atree_bind; [apply at_run_sockop; [exact Hi|]|intros; exact I].
    intros p ->. apply Hs. now exists h, p.
Qed.

Lemma at_step fuel a o : pool_inv a -> excuses o -> AT any (step fuel a o).
Proof.
  intros I0. apply at_step_k. intros h x L. apply lookup_in in L. destruct (pi_socket _ I0 _ _ L) as (i & Hi & E & _). eauto.
Qed.

Lemma at_run_ops fuel ops : forall a, pool_inv a -> Forall excuses ops ->
  AT any (run_ops fuel a ops).
Proof.
  induction ops as [|o ops IH]; intros a I0 F; cbn [run_ops]; [exact I|]. inversion F; subst.
  eapply atree_bind with (G := fun r => pool_inv (fst r)).
  - eapply ptree_atree; [exact (pt_step fuel a o I0)|now apply at_step|]. intros r Hr. apply Hr.
  - intros r Ir. eapply atree_bind; [now apply IH|intros; exact I].
Qed.

(** ** Initialisation *)
Lemma at_write_if b ad d c c' k :
  writable_register common_map ad (length d) -> (forall c, AT any (k c)) -> AT any (write_if b ad d c c' k).
Proof.
  intros H Hk. unfold write_if. destruct b; [|apply Hk].
  eapply atree_try; [now apply at_cwrite|intros; apply Hk|intros; exact I].
Qed.
Lemma octets_len a : length (octets a) = 4%nat.
Proof. now destruct a. Qed.
Lemma mac_octets_len a : length (mac_octets a) = 6%nat.
Proof. now destruct a. Qed.
Lemma at_refresh h : AT any (refresh h).
Proof.
  destruct h as [[] st c|]; cbn [refresh]; try exact I. eapply atree_bind; [|intros; exact I].
  unfold write_settings.
  repeat (apply at_write_if; [rewrite ?octets_len, ?mac_octets_len; inlist|intros]). exact I.
Qed.
Lemma at_initialize_with_host b h m :
  AT (fun r => match r with Ok d => ds_sockets d = 255 | Err _ => True end) (initialize_with_host b h m).
Proof.
  unfold initialize_with_host. cbv zeta.
  assert (Rest : AT (fun r => match r with Ok d => ds_sockets d = 255 | Err _ => True end)
    (try _ <- uninit_reset else (fun e => Err (SpiError e)) ;;
     try _ <- dev_set_mode m else (fun e => Err (SpiError e)) ;;
     do r <- refresh h ;;
     match snd r with Ok _ => Ret (Ok (ds_new (fst r))) | Err e => Ret (Err (SpiError e)) end)).
  { eapply atree_try; [cw|intros|intros; exact I]. eapply atree_try; [cw|intros|intros; exact I].
    eapply atree_bind; [apply at_refresh|]. intros [h' [u|e]] _; cbn; auto. }
  destruct b; [|exact Rest].
  eapply atree_try with (G := any); [|intros; exact Rest|intros; exact I].
  unfold assert_chip_version. eapply atree_try with (G := any); [unfold dev_version; crd|intros|intros; exact I].
  destruct (negb _); exact I.
Qed.

(** ** MACRAW *)
Section Raw.
  Notation s := (socket_new 0).
  Definition frees : Prop := forall b a d, write_ok b a d -> X b a d.
  Lemma H0 : 0 < 8. Proof. reflexivity. Qed.
  Notation d := (mkRaw s).
  Lemma at_size i a k : frees -> i < 8 -> a = s_TXBUF_SIZE \/ a = s_RXBUF_SIZE -> In k [0; 16] ->
    AT any (write_frame (register (socket_new i)) a [u8 k]).
  Proof.
    intros HX Hi Ha Hk. unfold write_frame. cbn [atree]. split; [|auto]. right. apply HX. right. exists i. split; [exact Hi|]. left.
    split; [now apply reg_blk|]. split.
    - destruct Ha as [-> | ->]; inlist.
    - unfold defined_value. split; [destruct Ha; subst; discriminate|].
      split; [destruct Ha; subst; discriminate|]. intros _. eexists. split; [reflexivity|].
      destruct Hk as [<-|[<-|[]]]; cbn; tauto.
  Qed.
  Lemma at_zero l : frees -> Forall (fun i => i < 8) l -> AT any (raw_zero_buffers l).
  Proof.
    intros HX. induction l as [|i l IH]; intros F; cbn [raw_zero_buffers]; [exact I|]. inversion F; subst. cbv zeta.
    eapply atree_try; [apply at_size; cbn; auto|intros|intros; exact I].
    eapply atree_try; [apply at_size; cbn; auto|intros|intros; exact I]. auto.
  Qed.
  Lemma at_raw_new : frees -> AT (fun r => match r with Ok r => r = d | Err _ => True end) raw_new.
  Proof.
    intros HX. unfold raw_new. cbv zeta.
    eapply atree_try; [apply at_size; cbn; auto; reflexivity|intros|intros; exact I].
    eapply atree_try; [apply at_size; cbn; auto; reflexivity|intros|intros; exact I].
    eapply atree_try; [apply at_zero; [exact HX|repeat constructor]|intros|intros; exact I].
    eapply atree_try with (G := any).
    { apply (at_swrite 0 H0); [inlist| |split; discriminate]. unfold defined_value. split; [discriminate|].
      split; [|intros [E|E]; discriminate]. intros _. eexists. split; [reflexivity|]. cbn. tauto. }
    2: intros; exact I. intros. eapply atree_try; [apply (at_command 0 H0)|intros|intros; exact I]. reflexivity.
  Qed.
  Lemma at_rx_read c buf : ptr c < 65536 -> size c < 65536 ->
    AT (fun r => match snd r with Ok cn => ptr (fst cn) < 65536 /\ size (fst cn) < 65536 | Err _ => True end) (rx_read s c buf).
  Proof.
    intros Hp Hs. unfold rx_read. destruct buf as [|b0 buf]; [cbn; auto|]. cbv zeta.
    apply atree_slice_to. intros Hle. eapply atree_bind; [apply (at_rxread 0 H0); [exact Hp|]|].
    - eapply N.le_lt_trans; [apply len_take_le|]. unfold available. lia.
    - intros [g [v|e]] _; cbn [fst snd]; [|exact I]. cbn [atree fst snd rx_skip ptr size].
      split; [apply wadd16_lt|lia].
  Qed.
  Lemma at_rx_read_upto c buf m : ptr c < 65536 -> size c < 65536 ->
    AT (fun r => match snd r with Ok cn => ptr (fst cn) < 65536 /\ size (fst cn) < 65536 | Err _ => True end) (rx_read_upto s c buf m).
  Proof.
    intros Hp Hs. unfold rx_read_upto. destruct (_ <? _); [|now apply at_rx_read].
    apply atree_slice_to. intros _. eapply atree_bind; [now apply at_rx_read|]. cbn. auto.
  Qed.
  Lemma at_raw_read_frame fuel f : AT any (raw_read_frame fuel d f).
  Proof.
    unfold raw_read_frame, rx_new. cbn [raw_socket]. cbv zeta.
    eapply atree_try with (G := fun r => match r with Ok c => ptr c < 65536 /\ size c < 65536 | Err _ => True end).
    { eapply atree_try; [apply (at_get_receive_size 0 H0)|intros sz Hsz|intros; exact I].
      eapply atree_try; [apply (at_get_rx_read_pointer 0 H0)|intros p Hp|intros; exact I]. cbn in *. auto. }
    2: intros; exact I. intros c [Hp Hs]. destruct (_ =? 0); [exact I|].
    eapply atree_bind; [now apply at_rx_read|]. intros [h [[c' n]|e]]; cbn [fst snd]; [|intros; exact I].
    intros [Hp' Hs']. destruct (_ =? 2); [|exact I]. unfold raw_read_body.
    eapply atree_bind; [now apply at_rx_read_upto|]. intros [f' [[c2 n2]|e]]; cbn [fst snd]; [|intros; exact I].
    intros _. cbv zeta. unfold rx_commit. eapply atree_try with (G := any); [|intros; exact I|intros; exact I].
    eapply atree_try; [apply (at_set_rx_read_pointer 0 H0)|intros|intros; exact I].
    eapply atree_try; [apply (at_command 0 H0)|intros|intros]; exact I.
  Qed.
  Lemma at_raw_write_frame fuel f : AT any (raw_write_frame fuel d f).
  Proof.
    unfold raw_write_frame, tx_new. cbn [raw_socket]. cbv zeta.
    eapply atree_try; [apply (at_reset_interrupt 0 H0)|intros|intros; exact I].
    eapply atree_try with (G := fun r => match r with Ok c => ptr c < 65536 /\ size c < 65536 | Err _ => True end).
    { eapply atree_try; [apply (at_get_tx_free_size 0 H0)|intros sz Hsz|intros; exact I].
      eapply atree_try; [apply (at_get_tx_write_pointer 0 H0)|intros p Hp|intros; exact I]. cbn in *. auto. }
    2: intros; exact I. intros c [Hp Hs].
    eapply atree_try with (G := any); [|intros cn _|intros; exact I].
    { unfold tx_write. destruct ((len f =? 0) || _); [exact I|]. cbv zeta. apply atree_slice_to. intros Hle.
      eapply atree_try; [apply (at_txwrite 0 H0); [exact Hp|]|intros|intros; exact I].
      - eapply N.le_lt_trans; [apply len_take_le|]. unfold as_u16. now apply N.mod_lt.
      - destruct (_ <? _); exact I. }
    eapply atree_try with (G := any); [|intros|intros; exact I].
    { unfold tx_commit. eapply atree_try; [apply (at_set_tx_write_pointer 0 H0)|intros|intros; exact I].
      eapply atree_try; [apply (at_command 0 H0)|intros|intros]; exact I. }
    eapply atree_try; [apply (at_wait_send_ok 0 H0)|intros|intros]; exact I.
  Qed.
  Lemma at_raw_step fuel o : AT any (raw_step fuel d o).
  Proof.
    destruct o; cbn [raw_step]; (eapply atree_bind with (G := any); [|intros; exact I]).
    - unfold raw_enable_interrupts. cbn [raw_socket].
      eapply atree_try; [apply (at_set_interrupt_mask 0 H0)|intros|intros; exact I].
      eapply atree_try; [cw|intros|intros]; exact I.
    - apply (at_reset_interrupt 0 H0).
    - unfold raw_disable_interrupts. cbn [raw_socket].
      eapply atree_try; [cw|intros|intros; exact I].
      eapply atree_try; [apply (at_set_interrupt_mask 0 H0)|intros|intros]; exact I.
    - apply at_raw_read_frame.
    - apply at_raw_write_frame.
  Qed.
  Lemma at_run_raw fuel ops : AT any (run_raw fuel d ops).
  Proof.
    induction ops as [|o ops IH]; cbn [run_raw]; [exact I|].
    eapply atree_bind; [apply at_raw_step|intros]. eapply atree_bind; [apply IH|intros; exact I].
  Qed.
End Raw.

Section Macraw.
Hypothesis HX : frees.
Lemma at_initialize_macraw m :
  AT (fun r => match r with Ok d => d = mkRaw (socket_new 0) | Err _ => True end) (initialize_macraw m).
Proof.
  unfold initialize_macraw. cbv zeta. eapply atree_try; [cw|intros|intros; exact I].
  eapply atree_try; [apply at_cwrite; rewrite mac_octets_len; inlist|intros|intros; exact I]. now apply at_raw_new.
Qed.

Lemma at_macraw_program m fuel ops : AT any (macraw_program m fuel ops).
Proof.
  unfold macraw_program.
  eapply atree_try; [now apply at_initialize_macraw|intros d ->|intros; exact I].
  eapply atree_bind; [now apply at_run_raw|intros; exact I].
Qed.
End Macraw.

(** ** From power-up to any point of any program *)
Lemma pool_inv_ds d : ds_sockets d = 255 -> pool_inv (mkApp d [] 0).
Proof. intros E. destruct d as [h k]. cbn in E. subst k. apply (pool_inv_new h). Qed.
Lemma at_device_program b h m fuel ops : Forall excuses ops ->
  AT any (device_program b h m fuel ops).
Proof.
  intros F. unfold device_program.
  eapply atree_try; [apply at_initialize_with_host|intros d Hd|intros; exact I].
  eapply atree_bind; [apply at_run_ops; [now apply pool_inv_ds|exact F]|intros; exact I].
Qed.
End Extra.
Lemma at_access_ok {A} (G : A -> Prop) (X : N -> N -> list byte -> Prop) (p : prog A) tr o :
  (forall b a d, X b a d -> write_ok b a d) ->
  atree read_ok (fun b a d => plain_write b a d \/ X b a d) G p -> exec p tr o -> Forall access_ok tr.
Proof.
  intros HX H E. eapply Forall_impl; [|exact (proj1 (atree_exec _ _ _ _ _ _ H E))].
  intros [b a g r|b a d r]; cbn; [auto|]. intros [[W _]|W]; auto.
Qed.
(** buffer sizes, whatever the program *)
Definition sizes_kept (ev : event) : Prop :=
  match ev with
  | ERead _ _ _ _ => True
  | EWrite blk a d _ =>
      forall i, i < 8 -> blk = BSB_REG i ->
        forall reg, reg = Sn_RXBUF_SIZE \/ reg = Sn_TXBUF_SIZE -> ~ (a <= reg < a + N.of_nat (length d))
  end.
Lemma plain_keeps_sizes blk a d : plain_write blk a d \/ tx_read_write blk a d ->
  forall i, i < 8 -> blk = BSB_REG i ->
    forall reg, reg = Sn_RXBUF_SIZE \/ reg = Sn_TXBUF_SIZE -> ~ (a <= reg < a + N.of_nat (length d)).
Proof.
  intros [[W NS]|(j & Hj & E & -> & L)] i Hi Eb reg Hr.
  - specialize (NS i Hi Eb). destruct W as [[E _]|(j & Hj & [(E & W & _)|(E & _)])];
      try (unfold BSB_REG, BSB_COMMON, BSB_TX in *; lia).
    unfold writable_register in W. cbn in W.
    repeat destruct W as [W|W]; try discriminate W; try contradiction;
      injection W as Ea El; rewrite <- Ea, <- El in *; unfold Sn_RXBUF_SIZE, Sn_TXBUF_SIZE in *; lia.
  - rewrite L. unfold Sn_RXBUF_SIZE, Sn_TXBUF_SIZE, Sn_TX_RD in *. lia.
Qed.
Lemma at_sizes {A} (G : A -> Prop) (p : prog A) tr o :
  atree read_ok (fun b a d => plain_write b a d \/ tx_read_write b a d) G p -> exec p tr o -> Forall sizes_kept tr.
Proof.
  intros H E. eapply Forall_impl; [|exact (proj1 (atree_exec _ _ _ _ _ _ H E))].
  intros [b a g r|b a d r]; cbn; [auto|]. apply plain_keeps_sizes.
Qed.
