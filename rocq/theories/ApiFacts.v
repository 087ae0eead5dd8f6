(** For every API function: which blocks it touches, where it can panic, what it can return
    -- for arbitrary bus behaviour. *)
From Verif Require Export ProgFacts ValueFacts History Uninit.
From Verif Require Import Datasheet.

Section Walk.
  Context (B : N -> N -> Prop) (W : site -> Prop).

  Lemma ptree_try {A E R} (G : A -> Prop) (G' : R -> Prop) (p : prog (res A E)) h k :
    ptree B W (fun r => match r with Ok a => G a | Err _ => True end) p ->
    (forall a, G a -> ptree B W G' (k a)) ->
    (forall e, G' (h e)) ->
    ptree B W G' (try_ p h k).
  Proof.
    intros Hp Hk Hh. unfold try_. eapply ptree_bind; [exact Hp|].
    intros [a|e] Ha; [auto|apply Hh].
  Qed.

  Lemma ptree_write blk a d (G : res unit berr -> Prop) :
    B blk a -> (forall r, G r) -> ptree B W G (write_frame blk a d).
  Proof. cbn. auto. Qed.

  Lemma ptree_read_into blk a buf :
    B blk a -> ptree B W (fun gr => length (fst gr) = length buf) (read_into blk a buf).
  Proof. cbn. auto. Qed.

  Lemma ptree_read_reg blk a n :
    B blk a ->
    ptree B W (fun r => match r with Ok d => length d = n | Err _ => True end) (read_reg blk a n).
  Proof.
    intros H. cbn. split; [exact H|]. intros got [u|e] L; cbn; auto.
    unfold zeros in L. now rewrite repeat_length in L.
  Qed.

  Lemma ptree_slice_to {R} w n l (k : list byte -> prog R) G :
    n <= len l -> ptree B W G (k (take n l)) -> ptree B W G (slice_to w n l k).
  Proof. intros H1 H2. unfold slice_to. destruct (N.leb_spec n (len l)); [auto|lia]. Qed.

  Lemma ptree_slice_from {R} w n l (k : list byte -> prog R) G :
    n <= len l -> ptree B W G (k (drop n l)) -> ptree B W G (slice_from w n l k).
  Proof. intros H1 H2. unfold slice_from. destruct (N.leb_spec n (len l)); [auto|lia]. Qed.

  Lemma ptree_slice_to_w {R} (w : site) n l (k : list byte -> prog R) G :
    W w -> (n <= len l -> ptree B W G (k (take n l))) -> ptree B W G (slice_to w n l k).
  Proof. intros H1 H2. unfold slice_to. destruct (N.leb_spec n (len l)); [auto|exact H1]. Qed.
End Walk.

(** the accesses allowed to a call on socket [s] *)
Definition sblk (s : Socket) (blk a : N) : Prop :=
  (blk = register s \/ blk = tx_buffer s \/ blk = rx_buffer s) /\ a < 65536.

Lemma sblk_reg s a : a < 65536 -> sblk s (register s) a.
Proof. unfold sblk. auto. Qed.
Lemma sblk_tx s a : a < 65536 -> sblk s (tx_buffer s) a.
Proof. unfold sblk. auto. Qed.
Lemma sblk_rx s a : a < 65536 -> sblk s (rx_buffer s) a.
Proof. unfold sblk. auto. Qed.

Section SocketOps.
  Context (s : Socket) (W : site -> Prop).
  Notation PT G p := (ptree (sblk s) W G p).

  Ltac regw := apply ptree_write; [apply sblk_reg; reflexivity|auto].

  Lemma pt_set_mode m : PT (fun _ => True) (set_mode s m).
  Proof. regw. Qed.
  Lemma pt_reset_interrupt m : PT (fun _ => True) (reset_interrupt s m).
  Proof. regw. Qed.
  Lemma pt_set_source_port m : PT (fun _ => True) (set_source_port s m).
  Proof. regw. Qed.
  Lemma pt_set_destination_ip m : PT (fun _ => True) (set_destination_ip s m).
  Proof. regw. Qed.
  Lemma pt_set_destination_port m : PT (fun _ => True) (set_destination_port s m).
  Proof. regw. Qed.
  Lemma pt_set_tx_write_pointer m : PT (fun _ => True) (set_tx_write_pointer s m).
  Proof. regw. Qed.
  Lemma pt_set_rx_read_pointer m : PT (fun _ => True) (set_rx_read_pointer s m).
  Proof. regw. Qed.
  Lemma pt_set_interrupt_mask m : PT (fun _ => True) (set_interrupt_mask s m).
  Proof. regw. Qed.
  Lemma pt_command m : PT (fun _ => True) (command s m).
  Proof. regw. Qed.

  Definition r_lt (r : res N berr) : Prop := match r with Ok n => n < 65536 | Err _ => True end.

  Lemma pt_read16 a :
    a < 65536 ->
    PT r_lt (try d <- read_reg (register s) a 2 else Err ;; Ret (Ok (from_be d))).
  Proof.
    intros H. eapply ptree_try; [apply ptree_read_reg; now apply sblk_reg| |].
    - intros d L. cbn. now apply from_be_lt.
    - cbn. auto.
  Qed.
  Lemma pt_get_tx_read_pointer : PT r_lt (get_tx_read_pointer s).
  Proof. apply pt_read16. reflexivity. Qed.
  Lemma pt_get_tx_write_pointer : PT r_lt (get_tx_write_pointer s).
  Proof. apply pt_read16. reflexivity. Qed.
  Lemma pt_get_rx_read_pointer : PT r_lt (get_rx_read_pointer s).
  Proof. apply pt_read16. reflexivity. Qed.
  Lemma pt_get_tx_free_size : PT r_lt (get_tx_free_size s).
  Proof. apply pt_read16. reflexivity. Qed.
  Lemma pt_get_receive_size fuel : PT r_lt (get_receive_size fuel s).
  Proof.
    induction fuel as [|fuel IH]; cbn [get_receive_size]; [exact I|].
    eapply ptree_try; [apply ptree_read_reg; apply sblk_reg; reflexivity| |cbn; auto].
    intros d L. eapply ptree_try; [apply ptree_read_reg; apply sblk_reg; reflexivity| |cbn; auto].
    intros d' L'. destruct (bytes_eqb d d'); [|exact IH]. cbn. now apply from_be_lt.
  Qed.
  Lemma pt_get_status : PT (fun _ => True) (get_status s).
  Proof.
    eapply ptree_try; [apply ptree_read_reg; apply sblk_reg; reflexivity| |]; cbn; auto.
  Qed.
  Lemma pt_has_interrupt i : PT (fun _ => True) (has_interrupt s i).
  Proof.
    eapply ptree_try; [apply ptree_read_reg; apply sblk_reg; reflexivity| |]; cbn; auto.
  Qed.
  Lemma pt_wait_send_ok fuel : PT (fun _ => True) (wait_send_ok fuel s).
  Proof.
    induction fuel as [|fuel IH]; cbn [wait_send_ok]; [exact I|].
    eapply ptree_try; [eapply ptree_mono; [..|apply pt_has_interrupt]|..]; cbn; auto.
    - intros [|] _; exact I.
    - intros [|] _; cbn; auto.
  Qed.
End SocketOps.

Lemma wadd16_lt a b : wadd16 a b < 65536.
Proof. unfold wadd16. apply N.mod_lt. discriminate. Qed.

(** use a lemma about [p] inside a [try] *)
Lemma ptree_tryw {A E R} B W (H : res A E -> Prop) (G' : R -> Prop)
    (p : prog (res A E)) h k :
  ptree B W H p ->
  (forall a, H (Ok a) -> ptree B W G' (k a)) ->
  (forall e, G' (h e)) ->
  ptree B W G' (try_ p h k).
Proof.
  intros H1 H3 H4. eapply ptree_try with (G := fun a => H (Ok a)); [|exact H3|exact H4].
  eapply ptree_mono; [..|exact H1]; auto. intros [a|e]; auto.
Qed.

(** step over [try x <- p] whose first-order facts are in the hint database *)
Ltac pstep :=
  eapply ptree_tryw; [first [ simple apply pt_set_mode | simple apply pt_reset_interrupt | simple apply pt_set_source_port
      | simple apply pt_set_destination_ip | simple apply pt_set_destination_port | simple apply pt_set_tx_write_pointer
      | simple apply pt_set_rx_read_pointer | simple apply pt_set_interrupt_mask | simple apply pt_command
      | simple apply pt_get_tx_read_pointer | simple apply pt_get_tx_write_pointer | simple apply pt_get_rx_read_pointer
      | simple apply pt_get_tx_free_size | simple apply pt_get_receive_size | simple apply pt_get_status
      | simple apply pt_has_interrupt | simple apply pt_wait_send_ok | solve [eauto 1 with pt nocore] ]
                     | intros ? ? | try (intros ?; cbn; auto; fail)].
Ltac psteps := repeat (pstep; cbv beta in *).

(** ** TCP *)
Section TcpOps.
  Context (t : TcpSocket) (W : site -> Prop).
  Notation PT G p := (ptree (sblk (t_socket t)) W G p).
  Notation any := (fun _ => True).

  Lemma pt_tcp_reopen : PT any (tcp_reopen t).
  Proof. unfold tcp_reopen. cbv zeta. psteps; cbn; auto. Qed.
  Lemma pt_tcp_open port : PT any (tcp_open t port).
  Proof. unfold tcp_open. cbv zeta. psteps; cbn; auto. Qed.
  Lemma pt_tcp_socket_close : PT any (tcp_socket_close t).
  Proof. unfold tcp_socket_close. cbv zeta. psteps; cbn; auto. Qed.

  Hint Resolve pt_tcp_reopen pt_tcp_open pt_tcp_socket_close : pt.

  Lemma pt_tcp_connect_wait fuel : PT any (tcp_connect_wait fuel t).
  Proof.
    induction fuel as [|fuel IH]; cbn [tcp_connect_wait]; [exact I|].
    pstep. destruct (status_try_from a) as [[]|]; try exact IH; [|exact I].
    pstep. auto with pt.
  Qed.
  Hint Resolve pt_tcp_connect_wait : pt.
  Lemma pt_tcp_do_connect fuel r : PT any (tcp_do_connect fuel t r).
  Proof. unfold tcp_do_connect. cbv zeta. psteps; auto with pt. Qed.
  Hint Resolve pt_tcp_do_connect : pt.
  Lemma pt_tcp_socket_connect fuel r : PT any (tcp_socket_connect fuel t r).
  Proof.
    unfold tcp_socket_connect. pstep.
    destruct (status_try_from a) as [[]|]; cbn [ptree]; auto with pt; psteps; auto with pt.
  Qed.
  Hint Resolve pt_tcp_socket_connect : pt.

  Definition not_would_block {A E} (r : res A (nberr E)) : Prop := r <> Err WouldBlock.

  Lemma pt_tcp_connect fuel r : PT not_would_block (tcp_connect fuel t r).
  Proof.
    unfold tcp_connect, not_would_block. destruct r as [r|]; [|cbn; congruence].
    pstep; [|congruence]. pstep; [|congruence]. cbn. congruence.
  Qed.

  Lemma pt_tcp_is_connected : PT any (tcp_is_connected t).
  Proof. unfold tcp_is_connected. pstep. cbn. auto. Qed.
  Hint Resolve pt_tcp_is_connected : pt.

  Definition sent_at_most {E} (m : N) (r : res N E) : Prop :=
    match r with Ok n => n <= m | Err _ => True end.

  Lemma pt_tcp_send_data fuel d :
    PT (fun r => match r with Ok n => n = len d | Err _ => True end) (tcp_send_data fuel t d).
  Proof.
    unfold tcp_send_data. cbv zeta. pstep. cbv beta in *.
    eapply ptree_try with (G := any); [apply ptree_write; [apply sblk_tx; exact H|intros []; auto]| |cbn; auto].
    intros ? _. psteps. cbn. reflexivity.
  Qed.

  Lemma pt_tcp_socket_send fuel d : PT (sent_at_most (len d)) (tcp_socket_send fuel t d).
  Proof.
    unfold tcp_socket_send. pstep. destruct (negb a); [exact I|].
    pstep. cbv beta in *.
    destruct (N.ltb_spec (len d) a0).
    - eapply ptree_mono; [..|apply pt_tcp_send_data]; auto.
      intros [n|]; cbn; auto. lia.
    - apply ptree_slice_to; [assumption|].
      eapply ptree_mono; [..|apply pt_tcp_send_data]; auto.
      intros [n|]; cbn; auto. rewrite len_take. lia.
  Qed.

  Lemma pt_tcp_send fuel d :
    PT (fun r => not_would_block r /\ sent_at_most (len d) r) (tcp_send fuel t d).
  Proof.
    unfold tcp_send, not_would_block. eapply ptree_tryw; [apply pt_tcp_socket_send| |].
    - intros a H. cbn in *. split; [congruence|exact H].
    - cbn. split; [congruence|auto].
  Qed.

  (** the buffer keeps its length; bytes behind the count are untouched *)
  Definition filled {E} (buf : list byte) (r : list byte * res N E) : Prop :=
    length (fst r) = length buf /\ sent_at_most (len buf) (snd r).

  Lemma pt_tcp_receive_data n d :
    n <= len d -> PT (filled d) (tcp_receive_data t n d).
  Proof.
    intros Hn. unfold tcp_receive_data, filled. cbv zeta. pstep.
    eapply ptree_bind; [apply ptree_read_into; apply sblk_rx; exact H|].
    intros [got r] L. cbn [fst snd] in *.
    assert (LL : length (got ++ drop n d) = length d).
    { rewrite app_length, L, <- app_length, take_drop. reflexivity. }
    destruct r as [u|e]; [|cbn; auto].
    psteps. cbn. split; [exact LL|]. rewrite len_take. lia.
  Qed.

  Lemma pt_tcp_socket_receive fuel d : PT (filled d) (tcp_socket_receive fuel t d).
  Proof.
    unfold tcp_socket_receive. unfold filled at 1.
    pstep. destruct (negb a). { cbn. auto. }
    pstep. destruct (negb a0). { cbn. split; [auto|lia]. }
    pstep. destruct (N.ltb_spec (len d) a1).
    - apply pt_tcp_receive_data. lia.
    - destruct (N.leb_spec a1 (len d)); [|lia]. now apply pt_tcp_receive_data.
  Qed.

  Lemma pt_tcp_receive fuel d :
    PT (fun r => not_would_block (snd r) /\ filled d r) (tcp_receive fuel t d).
  Proof.
    unfold tcp_receive. eapply ptree_bind; [apply pt_tcp_socket_receive|].
    intros [b r] [H1 H2]. cbn in *. unfold not_would_block, filled; cbn.
    destruct r; cbn in *; (split; [congruence|auto]).
  Qed.
End TcpOps.

(** ** UDP *)
Section UdpOps.
  Context (u : UdpSocket) (W : site -> Prop).
  Notation PT G p := (ptree (sblk (u_socket u)) W G p).
  Notation any := (fun _ => True).

  Lemma pt_udp_open : PT any (udp_open u).
  Proof. unfold udp_open. cbv zeta. psteps; cbn; auto. Qed.

  Definition keeps_socket {R} (r : UdpSocket * R) : Prop := u_socket (fst r) = u_socket u.

  Lemma pt_udp_set_port port : PT keeps_socket (udp_set_port u port).
  Proof.
    unfold udp_set_port, keeps_socket. cbv zeta. cbn [u_socket u_port].
    pstep. cbn. auto.
  Qed.
  Lemma pt_udp_set_destination r : PT keeps_socket (udp_set_destination u r).
  Proof.
    unfold udp_set_destination, keeps_socket.
    destruct (match u_dest u with Some dest => _ | None => _ end); [|cbn; auto].
    psteps. cbn. auto.
  Qed.

  Lemma pt_udp_try_flush_tx : PT any (udp_try_flush_tx u).
  Proof.
    unfold udp_try_flush_tx. cbv zeta. psteps.
    destruct (a =? a0); [|cbn; auto]. pstep. destruct a1; [pstep; cbn; auto|].
    pstep. destruct a1; [pstep; cbn; auto|cbn; auto].
  Qed.

  Lemma pt_udp_flush_loop fuel : PT not_would_block (udp_flush_loop fuel u).
  Proof.
    induction fuel as [|fuel IH]; cbn [udp_flush_loop]; [exact I|].
    eapply ptree_bind; [apply pt_udp_try_flush_tx|].
    unfold not_would_block in *.
    intros [a|[|e]] _; cbn; auto; congruence.
  Qed.

  Lemma pt_udp_block_send fuel : PT not_would_block (udp_block_send_command fuel u).
  Proof.
    unfold udp_block_send_command. pstep; [|intros e; unfold not_would_block, uE; congruence].
    apply pt_udp_flush_loop.
  Qed.

  Definition all_sent (d : list byte) (r : res N (nberr uerr)) : Prop :=
    match r with Ok n => n = len d | Err e => e <> WouldBlock end.

  Lemma pt_udp_send_data fuel d : PT (all_sent d) (udp_send_data fuel u d).
  Proof.
    unfold udp_send_data, all_sent, uE. cbv zeta. pstep; [|congruence]. cbv beta in *.
    eapply ptree_try with (G := any);
      [apply ptree_write; [apply sblk_tx; exact H|intros []; auto]| |cbn; congruence].
    intros ? _. pstep; [|cbn; congruence].
    unfold try_. eapply ptree_bind; [apply pt_udp_block_send|].
    unfold not_would_block. intros [x|e] Hx; cbn; [reflexivity|congruence].
  Qed.

  Definition sent_some (d : list byte) (r : res N (nberr uerr)) : Prop :=
    match r with Ok n => n <= len d | Err e => e <> WouldBlock end.

  Lemma gate_not_wb st e : udp_status_gate st = Err e -> e <> WouldBlock.
  Proof. unfold udp_status_gate. destruct (status_try_from st) as [[]|]; congruence. Qed.

  Lemma pt_udp_socket_send fuel d : PT (sent_some d) (udp_socket_send fuel u d).
  Proof.
    unfold udp_socket_send. cbv zeta. pstep; [|cbn; congruence].
    destruct (udp_status_gate a) eqn:G; [|cbn; eapply gate_not_wb; eassumption].
    destruct (u_dest u); [|cbn; congruence]. pstep; [|cbn; congruence]. cbv beta in *.
    destruct (N.eqb_spec a2 0); [cbn; congruence|].
    destruct (N.ltb_spec (len d) a2).
    - eapply ptree_mono; [..|apply pt_udp_send_data]; auto. intros [n0|]; cbn; auto. lia.
    - apply ptree_slice_to; [assumption|].
      eapply ptree_mono; [..|apply pt_udp_send_data]; auto. intros [n0|]; cbn; auto.
      rewrite len_take. lia.
  Qed.

  Lemma pt_udp_send_loop outer fuel d free total :
    total <= len d -> PT not_would_block (udp_send_loop outer fuel u d free total).
  Proof.
    revert free total. induction outer as [|outer IH]; intros free total H; cbn [udp_send_loop].
    - destruct (total =? len d); cbn; auto. unfold not_would_block. congruence.
    - destruct (N.eqb_spec total (len d)); [cbn; unfold not_would_block; congruence|].
      apply ptree_slice_from; [assumption|]. cbv zeta.
      apply ptree_slice_to; [lia|].
      unfold try_. eapply ptree_bind; [apply pt_udp_socket_send|].
      intros [sent|e] Hs; cbn in Hs; [|cbn; unfold not_would_block; congruence].
      eapply ptree_bind; [apply pt_get_tx_free_size|].
      intros [fr|e] _; [|cbn; unfold not_would_block, uE; congruence].
      apply IH. rewrite len_take, len_drop in Hs. lia.
  Qed.

  Lemma pt_udp_send_all fuel d : PT not_would_block (udp_send_all fuel u d).
  Proof.
    unfold udp_send_all, not_would_block. cbv zeta. pstep; [|unfold uE; congruence].
    destruct (udp_status_gate a) eqn:G; [|cbn; intros [= E]; now apply gate_not_wb in G].
    destruct (u_dest u); [|cbn; congruence]. pstep; [|unfold uE; congruence]. cbv beta in *.
    destruct (N.eqb_spec a2 0); [cbn; congruence|].
    apply pt_udp_send_loop. lia.
  Qed.

  Lemma pt_udp_connect r : PT keeps_socket (udp_connect u r).
  Proof.
    unfold udp_connect. destruct r as [r|]; [|cbn; unfold keeps_socket; auto].
    eapply ptree_tryw; [apply pt_udp_open|..]; cbn; unfold keeps_socket; auto.
    intros _ _. apply pt_udp_set_destination.
  Qed.

  Lemma pt_udp_socket_close : PT any (udp_socket_close u).
  Proof. unfold udp_socket_close. cbv zeta. psteps; cbn; auto. Qed.

  Definition got_datagram (buf : list byte) (r : list byte * res (N * UdpHeader) (nberr uerr)) :=
    length (fst r) = length buf /\
    match snd r with Ok nh => fst nh <= len buf | Err _ => True end.

  Lemma pt_udp_socket_receive fuel d :
    W P_udp_recv_slice -> PT (got_datagram d) (udp_socket_receive fuel u d).
  Proof.
    intros HW. unfold udp_socket_receive, got_datagram. cbv zeta.
    pstep.
    destruct (udp_status_gate a) eqn:G; [|cbn; auto].
    pstep. destruct (negb a1); [cbn; auto|].
    pstep. destruct (a2 =? 0); [cbn; auto|].
    destruct (len d =? 0); [cbn; auto|].
    pstep. cbv beta in *.
    eapply ptree_try; [apply ptree_read_reg; apply sblk_rx; assumption| |cbn; auto].
    intros hd _. apply ptree_slice_to_w; [exact HW|]. intros Hle.
    eapply ptree_bind; [apply ptree_read_into; apply sblk_rx; apply wadd16_lt|].
    intros [got r] L. cbn [fst snd] in *.
    match goal with |- context [got ++ drop ?n d] =>
      assert (LL : length (got ++ drop n d) = length d)
        by (rewrite app_length, L, <- app_length, take_drop; reflexivity) end.
    destruct r; [|cbn; auto].
    psteps. cbn. auto.
  Qed.
End UdpOps.

Section UdpOps2.
  Context (u : UdpSocket) (W : site -> Prop).
  Notation PT G p := (ptree (sblk (u_socket u)) W G p).

  Lemma pt_udp_bind port : PT (keeps_socket u) (udp_bind u port).
  Proof.
    unfold udp_bind. eapply ptree_bind; [apply pt_udp_set_port|].
    intros [u' r] K. unfold keeps_socket in *. cbn [fst snd] in *. destruct r; [|cbn; auto].
    unfold try_. rewrite <- K. eapply ptree_bind; [apply pt_udp_open|].
    intros [|] _; cbn; auto.
  Qed.

  Lemma pt_udp_send_to fuel r d :
    PT (fun x => keeps_socket u x /\ not_would_block (snd x)) (udp_send_to fuel u r d).
  Proof.
    unfold udp_send_to, not_would_block. destruct r as [r|]; [|cbn; unfold keeps_socket; cbn; split; congruence].
    unfold udp_send_to_v4. eapply ptree_bind; [apply pt_udp_set_destination|].
    intros [u' q] K. unfold keeps_socket in *. cbn [fst snd] in *.
    destruct q; [|cbn; split; congruence].
    rewrite <- K. eapply ptree_bind; [apply pt_udp_send_all|].
    intros q Hq. cbn. auto.
  Qed.

  Lemma pt_udp_receive fuel d :
    W P_udp_recv_slice ->
    PT (fun r => length (fst r) = length d /\
                 match snd r with Ok no => fst no <= len d | Err _ => True end) (udp_receive fuel u d).
  Proof.
    intros HW. unfold udp_receive. eapply ptree_bind; [apply pt_udp_socket_receive; exact HW|].
    intros [b r] [H1 H2]. cbn in *. split; [exact H1|]. destruct r; cbn in *; auto.
  Qed.
End UdpOps2.

(** ** MACRAW *)
Definition rblk (s : Socket) (blk a : N) : Prop := sblk s blk a \/ (blk = COMMON /\ a < 65536).

Section RawOps.
  Context (s : Socket) (W : site -> Prop).
  Notation PT G p := (ptree (sblk s) W G p).
  Notation any := (fun _ => True).

  Definition cursor_ok (c : cursor) : Prop := ptr c < 65536 /\ size c < 65536.

  Lemma pt_rx_new fuel :
    PT (fun r => match r with Ok c => cursor_ok c | Err _ => True end) (rx_new fuel s).
  Proof. unfold rx_new. psteps. cbn. split; assumption. Qed.
  Lemma pt_tx_new :
    PT (fun r => match r with Ok c => cursor_ok c | Err _ => True end) (tx_new s).
  Proof. unfold tx_new. psteps. cbn. split; assumption. Qed.

  Lemma rx_skip_ok c n : cursor_ok c -> cursor_ok (fst (rx_skip c n)).
  Proof. unfold cursor_ok, rx_skip, available. cbn. intros [H1 H2]. split; [apply wadd16_lt|lia]. Qed.
  Lemma rx_skip_snd c n : snd (rx_skip c n) = N.min (size c) n.
  Proof. reflexivity. Qed.

  (** result of reading through the cursor *)
  Definition rx_read_post (c : cursor) (buf : list byte) (x : list byte * res (cursor * N) berr) :=
    length (fst x) = length buf /\
    match snd x with
    | Ok cn => cursor_ok (fst cn) /\ snd cn <= len buf /\ snd cn <= size c
               /\ snd cn = N.min (size c) (as_u16 (len buf))
    | Err _ => True
    end.

  Lemma as_u16_le n : as_u16 n <= n.
  Proof. unfold as_u16. lia. Qed.

  Lemma pt_rx_read c buf : cursor_ok c -> PT (rx_read_post c buf) (rx_read s c buf).
  Proof.
    intros Hc. unfold rx_read, rx_read_post. destruct buf as [|b buf].
    { cbn. unfold as_u16. cbn. split; [auto|]. split; [auto|]. lia. }
    set (l := b :: buf). cbv zeta. unfold available.
    pose proof (as_u16_le (len l)).
    apply ptree_slice_to; [lia|].
    eapply ptree_bind; [apply ptree_read_into; apply sblk_rx; apply Hc|].
    intros [got r] L. cbn [fst snd] in *.
    assert (LL : length (got ++ drop (N.min (size c) (as_u16 (len l))) l) = length l)
      by (rewrite app_length, L, <- app_length, take_drop; reflexivity).
    destruct r; cbn [ptree fst snd]; (split; [exact LL|]); [|exact I].
    split; [apply (rx_skip_ok c _ Hc)|]. rewrite rx_skip_snd. lia.
  Qed.

  Definition upto_post (c : cursor) (buf : list byte) (x : list byte * res (cursor * N) berr) :=
    length (fst x) = length buf /\
    match snd x with
    | Ok cn => cursor_ok (fst cn) /\ snd cn <= len buf /\ snd cn <= size c
    | Err _ => True
    end.

  Lemma pt_rx_read_upto c buf m : cursor_ok c -> PT (upto_post c buf) (rx_read_upto s c buf m).
  Proof.
    intros Hc. unfold rx_read_upto, upto_post.
    destruct (N.ltb_spec m (len buf)).
    - apply ptree_slice_to; [lia|]. eapply ptree_bind; [apply pt_rx_read; exact Hc|].
      intros [got r] [L R]. cbn [fst snd] in *. cbn. split.
      + rewrite app_length, L, <- app_length, take_drop. reflexivity.
      + destruct r; auto. destruct R as (R1 & R2 & R3 & R4). rewrite len_take in R2.
        split; [auto|]. lia.
    - eapply ptree_mono; [..|apply pt_rx_read; exact Hc]; auto.
      intros x [H1 H2]. split; auto. destruct (snd x); auto. tauto.
  Qed.

  Lemma pt_rx_commit c : PT any (rx_commit s c).
  Proof. unfold rx_commit. psteps. cbn. auto. Qed.
  Lemma pt_tx_commit c : PT any (tx_commit s c).
  Proof. unfold tx_commit. psteps. cbn. auto. Qed.

  Lemma pt_tx_write c buf :
    cursor_ok c ->
    PT (fun r => match r with Ok cn => snd cn = len buf \/ snd cn = 0 | Err _ => True end)
       (tx_write s c buf).
  Proof.
    intros [H1 H2]. unfold tx_write.
    destruct ((len buf =? 0) || (available c <? len buf)) eqn:E; [cbn; auto|].
    apply orb_false_iff in E as [E1 E2]. apply N.eqb_neq in E1. apply N.ltb_ge in E2.
    unfold available in E2. cbv zeta.
    assert (as_u16 (len buf) = len buf) as -> by (unfold as_u16; apply N.mod_small; lia).
    apply ptree_slice_to; [lia|].
    eapply ptree_try with (G := any);
      [apply ptree_write; [apply sblk_tx; exact H1|intros []; auto]| |cbn; auto].
    intros _ _. destruct (N.ltb_spec (size c) (len buf)); [lia|]. cbn. auto.
  Qed.
End RawOps.

Section RawOps2.
  Context (r : RawDevice) (W : site -> Prop).
  Let s := raw_socket r.
  Notation PT G p := (ptree (sblk (raw_socket r)) W G p).

  Lemma pt_raw_read_body c ex frame :
    cursor_ok c -> PT (filled frame) (raw_read_body (raw_socket r) c ex frame).
  Proof.
    intros Hc. unfold raw_read_body, filled. eapply ptree_bind; [apply pt_rx_read_upto; exact Hc|].
    intros [got x] [L R]. cbn [fst snd] in *. destruct x as [cn|e]; [|cbn; auto]. cbv zeta.
    eapply ptree_tryw; [apply pt_rx_commit|..]; cbn; auto.
    intros _ _. split; [auto|]. destruct R as (_ & R & _). exact R.
  Qed.

  Lemma pt_raw_read_frame fuel frame :
    W P_raw_assert -> PT (filled frame) (raw_read_frame fuel r frame).
  Proof.
    intros HW. unfold raw_read_frame. cbv zeta.
    eapply ptree_tryw; [apply pt_rx_new| |unfold filled; cbn; auto].
    intros c Hc. destruct (available c =? 0). { unfold filled; cbn. split; [auto|lia]. }
    eapply ptree_bind; [apply pt_rx_read; exact Hc|].
    intros [h x] [L R]. cbn [fst snd] in *. destruct x as [cn|e]; [|unfold filled; cbn; auto].
    destruct (snd cn =? 2); [|exact HW]. apply pt_raw_read_body. tauto.
  Qed.

  Lemma pt_raw_write_frame fuel frame :
    PT (fun x => match x with Ok n => n = len frame \/ n = 0 | Err _ => True end)
       (raw_write_frame fuel r frame).
  Proof.
    unfold raw_write_frame. cbv zeta. pstep.
    eapply ptree_tryw; [apply pt_tx_new| |auto]. intros c Hc.
    eapply ptree_tryw; [apply pt_tx_write; exact Hc| |auto]. intros x Hx.
    eapply ptree_tryw; [apply pt_tx_commit| |auto]. intros _ _.
    pstep. cbn. exact Hx.
  Qed.

  Lemma pt_raw_interrupts which :
    ptree (rblk (raw_socket r)) W (fun _ => True) (raw_enable_interrupts r which) /\
    ptree (rblk (raw_socket r)) W (fun _ => True) (raw_disable_interrupts r) /\
    PT (fun _ => True) (raw_clear_interrupts r).
  Proof.
    assert (H : forall a, a < 65536 -> rblk (raw_socket r) (register (raw_socket r)) a)
      by (intros; left; now apply sblk_reg).
    assert (H' : forall a, a < 65536 -> rblk (raw_socket r) COMMON a) by (right; auto).
    split; [|split].
    - cbn. split; [apply H; reflexivity|]. intros [x|e]; cbn; auto.
      split; [apply H'; reflexivity|]. intros [y|e]; cbn; auto.
    - cbn. split; [apply H'; reflexivity|]. intros [x|e]; cbn; auto.
      split; [apply H; reflexivity|]. intros [y|e]; cbn; auto.
    - apply pt_reset_interrupt.
  Qed.
End RawOps2.

(** ** Device registers and initialisation *)
Definition cblk (blk a : N) : Prop := blk = COMMON /\ a < 65536.

Lemma cblk_common a : a < 65536 -> cblk COMMON a.
Proof. unfold cblk. auto. Qed.
Lemma pt_common_read W a n {R} (f : list byte -> R) :
  a < 65536 ->
  ptree cblk W (fun _ => True) (try o <- read_reg COMMON a n else Err ;; Ret (Ok (f o))).
Proof.
  intros H. eapply ptree_try; [apply ptree_read_reg; now apply cblk_common| |]; cbn; auto.
Qed.

Lemma pt_run_devop q W : ptree cblk W (fun _ => True) (run_devop q).
Proof.
  destruct q; cbn; (split; [apply cblk_common; reflexivity|]); intros;
    repeat match goal with r : res _ _ |- _ => destruct r end; cbn; auto.
Qed.

Lemma pt_dev_reset d W : ptree cblk W (fun _ => True) (dev_reset d).
Proof.
  unfold dev_reset. destruct (any_allocated d); [cbn; auto|].
  eapply ptree_try with (G := fun _ => True);
    [apply ptree_write; [apply cblk_common; reflexivity|intros []; auto]| |]; cbn; auto.
Qed.

Lemma pt_write_if W ch a d c c' k (G : HostConfig * res unit berr -> Prop) :
  a < 65536 -> (forall x, ptree cblk W (fun _ => True) (k x)) ->
  ptree cblk W (fun _ => True) (write_if ch a d c c' k).
Proof.
  intros Ha Hk. unfold write_if. destruct ch; [|apply Hk].
  eapply ptree_try with (G := fun _ => True);
    [apply ptree_write; [now apply cblk_common|intros []; auto]| |]; cbn; auto.
Qed.

Lemma pt_refresh W h : ptree cblk W (fun _ => True) (refresh h).
Proof.
  unfold refresh. destruct h as [[] st c|]; try exact I.
  eapply ptree_bind with (G := fun _ => True); [|cbn; auto].
  unfold write_settings.
  repeat (apply pt_write_if; [exact (fun _ => True)|reflexivity|intros ?]). exact I.
Qed.

Lemma pt_initialize_with_host W a h m : ptree cblk W (fun _ => True) (initialize_with_host a h m).
Proof.
  unfold initialize_with_host. cbv zeta.
  assert (R : ptree cblk W (fun _ => True)
    (try a0 <- uninit_reset else (fun e => Err (SpiError e)) ;;
     try b <- dev_set_mode m else (fun e => Err (SpiError e)) ;;
     do r <- refresh h ;;
     match snd r with Err e => Ret (Err (SpiError e)) | Ok _ => Ret (Ok (ds_new (fst r))) end)).
  { eapply ptree_try with (G := fun _ => True);
      [apply ptree_write; [apply cblk_common; reflexivity|intros []; auto]| |cbn; auto]. intros _ _.
    eapply ptree_try with (G := fun _ => True);
      [apply ptree_write; [apply cblk_common; reflexivity|intros []; auto]| |cbn; auto]. intros _ _.
    eapply ptree_bind; [apply pt_refresh|]. intros [x [|]] _; exact I. }
  destruct a; [|exact R].
  eapply ptree_try with (G := fun _ => True); [|intros _ _; exact R|cbn; auto].
  unfold assert_chip_version.
  eapply ptree_tryw;
    [apply (pt_common_read W c_VERSION 1 byte0); reflexivity| |cbn; auto].
  intros v _. destruct (negb (b2n v =? 4)); exact I.
Qed.

(** initialize_macraw touches the common block and the socket register blocks *)
Definition reg_block (blk : N) : Prop := exists i, i < 8 /\ blk = BSB_REG i.
Definition mblk (blk a : N) : Prop := (blk = COMMON \/ reg_block blk) /\ a < 65536.

Lemma mblk_reg i a : i < 8 -> a < 65536 -> mblk (register (socket_new i)) a.
Proof.
  intros Hi Ha. split; auto. right. exists i. split; auto. now apply socket_blocks.
Qed.

Lemma pt_zero W l : (forall i, In i l -> i < 8) -> ptree mblk W (fun _ => True) (raw_zero_buffers l).
Proof.
  induction l as [|i l IH]; intros Hl; cbn [raw_zero_buffers]; [exact I|].
  cbv zeta. assert (i < 8) by (apply Hl; left; auto).
  eapply ptree_try with (G := fun _ => True);
    [apply ptree_write; [apply mblk_reg; [assumption|reflexivity]|intros []; auto]| |cbn; auto]. intros _ _.
  eapply ptree_try with (G := fun _ => True);
    [apply ptree_write; [apply mblk_reg; [assumption|reflexivity]|intros []; auto]| |cbn; auto]. intros _ _.
  apply IH. intros j Hj. apply Hl. right. exact Hj.
Qed.

Lemma pt_initialize_macraw W m :
  ptree mblk W (fun r => match r with Ok d => raw_socket d = socket_new 0 | Err _ => True end)
    (initialize_macraw m).
Proof.
  assert (HM : forall a, a < 65536 -> mblk COMMON a) by (intros; split; auto).
  assert (H0 : forall a, a < 65536 -> mblk (register (socket_new 0)) a) by (intros; apply mblk_reg; [reflexivity|auto]).
  unfold initialize_macraw. cbv zeta.
  eapply ptree_try with (G := fun _ => True);
    [apply ptree_write; [apply HM; reflexivity|intros []; auto]| |cbn; auto]. intros _ _.
  eapply ptree_try with (G := fun _ => True);
    [apply ptree_write; [apply HM; reflexivity|intros []; auto]| |cbn; auto]. intros _ _.
  unfold raw_new. cbv zeta.
  eapply ptree_try with (G := fun _ => True);
    [apply ptree_write; [apply H0; reflexivity|intros []; auto]| |cbn; auto]. intros _ _.
  eapply ptree_try with (G := fun _ => True);
    [apply ptree_write; [apply H0; reflexivity|intros []; auto]| |cbn; auto]. intros _ _.
  eapply ptree_tryw; [apply pt_zero| |]; auto.
  { intros i Hi. cbn in Hi. intuition (subst; reflexivity). }
  intros _ _.
  eapply ptree_try with (G := fun _ => True);
    [apply ptree_write; [apply H0; reflexivity|intros []; auto]| |cbn; auto]. intros _ _.
  eapply ptree_try with (G := fun _ => True);
    [apply ptree_write; [apply H0; reflexivity|intros []; auto]| |cbn; auto].
  intros _ _. reflexivity.
Qed.
