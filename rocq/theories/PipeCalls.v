(** What each call adds to the bytes that can leave a socket, bus errors included. *)
From Verif Require Export Pipe.
From Verif Require Import TcpSession FrameFacts ErrorFacts ProgFacts Datasheet HistoryFacts.

(** no two-byte register write is cut in the middle *)
Definition whole_pairs (e : env) : Prop := forall j er, fails e j <> Some (1%nat, er).

(** ** Computations all of whose written bytes are in [P] *)
Fixpoint each (P : N -> N -> byte -> Prop) (blk a : N) (d : list byte) : Prop :=
  match d with [] => True | v :: d' => P blk a v /\ each P blk (next_addr a) d' end.
Lemma each_firstn P blk : forall n d a, each P blk a d -> each P blk a (firstn n d).
Proof. induction n as [|n IH]; intros [|v d] a H; cbn in *; auto. destruct H. auto. Qed.
Lemma each_all (P : N -> N -> byte -> Prop) blk : (forall a v, P blk a v) -> forall d a, each P blk a d.
Proof. intros H. induction d as [|v d IH]; intros a; cbn; auto. Qed.

Section Mild.
  Context (P : N -> N -> byte -> Prop).
  Fixpoint mild {A} (p : prog A) : Prop :=
    match p with
    | BusRead b a d k => forall got r, length got = length d -> mild (k (got, r))
    | BusWrite b a d k => each P b a d /\ forall r, mild (k r)
    | _ => True
    end.
  Lemma mild_bind {A B} (p : prog A) (f : A -> prog B) : mild p -> (forall a, mild (f a)) -> mild (bind p f).
  Proof.
    induction p as [a|w| |b a d k IH|b a d k IH]; cbn; intros H Hf; auto. destruct H as [H1 H2]. split; auto.
  Qed.
  Lemma mild_try {A E R} (p : prog (res A E)) (h : E -> R) (k : A -> prog R) : mild p -> (forall a, mild (k a)) -> mild (try_ p h k).
  Proof. intros H Hk. apply mild_bind; [exact H|]. intros [a|x]; [apply Hk|exact I]. Qed.
  Lemma mild_slice_to {R} w n l (k : list byte -> prog R) : (forall x, mild (k x)) -> mild (slice_to w n l k).
  Proof. intros H. unfold slice_to. destruct (n <=? len l); [apply H|exact I]. Qed.
  Lemma mild_slice_from {R} w n l (k : list byte -> prog R) : (forall x, mild (k x)) -> mild (slice_from w n l k).
  Proof. intros H. unfold slice_from. destruct (n <=? len l); [apply H|exact I]. Qed.
  Lemma mild_ret {A} (a : A) : mild (Ret a). Proof. exact I. Qed.

  Context (e : env) (i : N) (J : sock -> Prop).
  Hypothesis Jev : forall x ev, ev_sock ev = Some i -> J x -> J (sock_step x ev).
  Hypothesis Jwr : forall c blk a v, P blk a v -> J (socks c i) -> J (socks (wbyte c blk a v) i).
  Lemma mild_bytes blk : forall d a s, each P blk a d -> J (sk i s) -> J (sk i (write_bytes e blk a d s)).
  Proof.
    induction d as [|v d IH]; intros a s H Hs; cbn [write_bytes each] in *; [exact Hs|]. destruct H as [H1 H2].
    apply IH; [exact H2|]. unfold sk, on_chip. cbn [s_chip]. apply Jwr; [exact H1|].
    apply (sevs_inv i J Jev (sk i s)); [apply tick_sevs|exact Hs].
  Qed.
  Lemma run_mild {A} (p : prog A) : mild p -> forall s, J (sk i s) -> J (sk i (snd (run e p s))).
  Proof.
    induction p as [a|w| |b a d k IH|b a d k IH]; cbn [mild run]; intros H s Hs; auto.
    - pose proof (bus_read_length e b a d s) as L.
      assert (E : sevs i (sk i s) (sk i (snd (bus_read e b a d s)))).
      { unfold bus_read. destruct (fails e (s_call s)) as [[q err]|].
        - pose proof (read_bytes_sevs e i b (Nat.min q (length d)) a s) as E. destruct (read_bytes _ _ _ _ _) as [g s1]. exact E.
        - pose proof (read_bytes_sevs e i b (length d) a s) as E. destruct (read_bytes _ _ _ _ _) as [g s1]. exact E. }
      destruct (bus_read e b a d s) as [[g r] s1]. cbn [fst snd] in *. apply IH; [now apply H|]. now apply (sevs_inv i J Jev (sk i s)).
    - destruct H as [Hw H].
      assert (E : J (sk i (snd (bus_write e b a d s)))).
      { unfold bus_write. destruct (fails e (s_call s)) as [[q err]|]; cbn [snd];
          change (sk i (end_call ?x)) with (sk i x); apply mild_bytes; auto. now apply each_firstn. }
      destruct (bus_write e b a d s) as [r s1]. cbn [fst snd] in *. apply IH; auto.
  Qed.
End Mild.
Lemma mild_mono {A} (P P' : N -> N -> byte -> Prop) (p : prog A) : (forall b a v, P b a v -> P' b a v) -> mild P p -> mild P' p.
Proof.
  intros H. induction p as [a|w| |b a d k IH|b a d k IH]; cbn; intros M; auto. destruct M as [M1 M2]. split; [|auto].
  clear - H M1. revert a M1. induction d as [|v d IH]; intros a M; cbn in *; auto. destruct M. auto.
Qed.
Lemma mild_spares {A} lossy i (p : prog A) : spares i p -> mild (harmless lossy i) p.
Proof.
  induction p as [a|w| |b a d k IH|b a d k IH]; cbn; intros H; auto. destruct H as [Hw H]. split; [|auto].
  apply each_all. intros a' v. destruct Hw as [(H1 & H2)|(-> & _)].
  - split; [|intros E; exfalso; apply H2]; [intros E; apply H2|]; rewrite E; [now destruct (blk_tx i) as (_ & -> & _)|now destruct (blk_reg i) as (_ & -> & _)].
  - unfold harmless, BSB_TX, BSB_REG. split; [lia|intros E; exfalso; lia].
Qed.

Section Leaves.
  Context (lossy : bool) (i j : N) (Hi : i < 8) (Hj : j < 8).
  Notation M := (mild (harmless lossy i)).
  Notation s := (socket_new j).
  Definition mild_reg (a : N) : bool :=
    negb ((a =? Sn_TX_WR) || (a =? Sn_TX_WR + 1) || (a =? Sn_TXBUF_SIZE) || (a =? Sn_CR)).
  Lemma harmless_reg a v : mild_reg a = true -> harmless lossy i (BSB_REG j) a v.
  Proof.
    unfold mild_reg. intros H. rewrite negb_true_iff in H. bsplit.
    split; [unfold BSB_REG, BSB_TX; lia|]. intros _. repeat (split; [assumption|]). intros E. contradiction.
  Qed.
  Lemma mild_read blk a n : M (read_reg blk a n).
  Proof. cbn. intros got [u|er] _; exact I. Qed.
  Lemma mild_read_into blk a buf : M (read_into blk a buf).
  Proof. cbn. intros got [u|er] _; exact I. Qed.
  Lemma mild_common a d : M (write_frame COMMON a d).
  Proof. cbn [mild]. unfold write_frame. cbn [mild]. split; [|intros []; exact I]. apply each_all. intros a' v.
    change COMMON with 0. unfold harmless, BSB_TX, BSB_REG. split; [lia|intros E; exfalso; lia]. Qed.
  Lemma mild_wr1 a v : mild_reg a = true -> M (write_frame (register s) a [v]).
  Proof.
    intros H. unfold write_frame. cbn [mild each]. rewrite so_reg by exact Hj. split; [|intros []; exact I]. split; [|exact I]. now apply harmless_reg.
  Qed.
  Lemma mild_wr2 a v : mild_reg a = true -> mild_reg (next_addr a) = true -> M (write_frame (register s) a (to_be v)).
  Proof.
    intros H H'. unfold write_frame, to_be. cbn [mild each]. rewrite so_reg by exact Hj. split; [|intros []; exact I].
    split; [|split; [|exact I]]; now apply harmless_reg.
  Qed.
  Lemma mild_command c : (lossy = true \/ (c <> CmOpen /\ c <> CmConnect)) -> M (command s c).
  Proof.
    intros H. unfold command, write_frame. cbn [mild each]. rewrite so_reg by exact Hj. split; [|intros []; exact I]. split; [|exact I].
    split; [unfold BSB_REG, BSB_TX; lia|]. intros _. split; [discriminate|]. split; [discriminate|]. split; [discriminate|]. intros _.
    destruct H as [H|(H1 & H2)]; [now left|right]. destruct c; try contradiction; split; discriminate.
  Qed.
  Lemma mild_set_mode m : M (set_mode s m). Proof. apply mild_wr1. reflexivity. Qed.
  Lemma mild_reset_interrupt m : M (reset_interrupt s m). Proof. apply mild_wr1. reflexivity. Qed.
  Lemma mild_set_interrupt_mask m : M (set_interrupt_mask s m). Proof. apply mild_wr1. reflexivity. Qed.
  Lemma mild_set_source_port m : M (set_source_port s m). Proof. apply mild_wr2; reflexivity. Qed.
  Lemma mild_set_destination_port m : M (set_destination_port s m). Proof. apply mild_wr2; reflexivity. Qed.
  Lemma mild_set_rx_read_pointer m : M (set_rx_read_pointer s m). Proof. apply mild_wr2; reflexivity. Qed.
  Lemma mild_set_tx_read_pointer m : M (set_tx_read_pointer s m). Proof. apply mild_wr2; reflexivity. Qed.
  Lemma mild_set_destination_ip m : M (set_destination_ip s m).
  Proof.
    destruct m as [b0 b1 b2 b3]. unfold set_destination_ip, write_frame, octets. cbn [mild each]. rewrite so_reg by exact Hj.
    split; [|intros []; exact I]. split; [|split; [|split; [|split; [|exact I]]]]; now apply harmless_reg.
  Qed.
  Lemma mild_read_then {R} blk a n (f : list byte -> R) : M (try d <- read_reg blk a n else Err ;; Ret (Ok (f d))).
  Proof. apply mild_try; [apply mild_read|]. intros d. exact I. Qed.
  Lemma mild_get_receive_size fuel : M (get_receive_size fuel s).
  Proof.
    induction fuel as [|fuel IH]; cbn [get_receive_size]; [exact I|]. apply mild_try; [apply mild_read|]. intros a.
    apply mild_try; [apply mild_read|]. intros b. destruct (bytes_eqb a b); [exact I|exact IH].
  Qed.
  Lemma mild_wait_send_ok fuel : M (wait_send_ok fuel s).
  Proof.
    induction fuel as [|fuel IH]; cbn [wait_send_ok]; [exact I|]. apply mild_try; [apply mild_read_then|]. intros [|]; [exact I|exact IH].
  Qed.

  Ltac m1 := first
    [ exact I | apply mild_ret | apply mild_read_then | apply mild_read | apply mild_read_into | apply mild_set_mode | apply mild_reset_interrupt
    | apply mild_set_interrupt_mask | apply mild_set_source_port | apply mild_set_destination_port | apply mild_set_rx_read_pointer
    | apply mild_set_destination_ip | apply mild_get_receive_size | apply mild_wait_send_ok | apply mild_common
    | (apply mild_command; first [left; assumption|right; split; discriminate])
    | (apply mild_try; [|intros ?]) | (apply mild_bind; [|intros ?]) | (apply mild_slice_to; intros ?) | (apply mild_slice_from; intros ?)
    | match goal with
      | |- M (if ?b then _ else _) => destruct b
      | |- M (match ?b with _ => _ end) => destruct b
      end ].
  Ltac ms := repeat (cbv zeta; m1).

  Lemma mild_tcp_socket_receive fuel d : M (tcp_socket_receive fuel (mkTcp s) d).
  Proof. unfold tcp_socket_receive, tcp_is_connected, tcp_receive_data, t_socket. ms. Qed.
  Lemma mild_tcp_receive fuel d : M (tcp_receive fuel (mkTcp s) d).
  Proof. unfold tcp_receive. apply mild_bind; [apply mild_tcp_socket_receive|]. intros r. exact I. Qed.
  Lemma mild_tcp_is_connected : M (tcp_is_connected (mkTcp s)).
  Proof. unfold tcp_is_connected, t_socket. ms. Qed.
  Lemma mild_tcp_close d : M (tcp_close d (mkTcp s)).
  Proof. unfold tcp_close, tcp_socket_close, t_socket. ms. Qed.
  Lemma mild_udp_receive fuel d dst prt : M (udp_receive fuel (mkUdp s dst prt) d).
  Proof. unfold udp_receive, udp_socket_receive, u_socket. ms. Qed.
  Lemma mild_udp_close d dst prt : M (udp_close d (mkUdp s dst prt)).
  Proof. unfold udp_close, udp_socket_close, u_socket. ms. Qed.
  Lemma mild_udp_set_destination dst prt r : M (udp_set_destination (mkUdp s dst prt) r).
  Proof. unfold udp_set_destination. cbn [u_socket u_dest u_port]. ms. Qed.
  Lemma mild_udp_set_port dst prt p : M (udp_set_port (mkUdp s dst prt) p).
  Proof. unfold udp_set_port. cbn [u_socket u_dest u_port]. ms. Qed.
  Lemma mild_udp_try_flush dst prt : M (udp_try_flush_tx (mkUdp s dst prt)).
  Proof. unfold udp_try_flush_tx, u_socket. ms. Qed.
  Lemma mild_udp_flush_loop fuel dst prt : M (udp_flush_loop fuel (mkUdp s dst prt)).
  Proof.
    induction fuel as [|fuel IH]; cbn [udp_flush_loop]; [exact I|]. apply mild_bind; [apply mild_udp_try_flush|].
    intros [u|[|x]]; [exact I|exact IH|exact I].
  Qed.
  Lemma mild_udp_block_send_command fuel dst prt : M (udp_block_send_command fuel (mkUdp s dst prt)).
  Proof. unfold udp_block_send_command. cbn [u_socket]. ms. apply mild_udp_flush_loop. Qed.

  (** opening and dialling discard what the buffer holds *)
  Hypothesis Hl : lossy = true.
  Lemma mild_tcp_reopen : M (tcp_reopen (mkTcp s)).
  Proof. unfold tcp_reopen, t_socket. ms. Qed.
  Lemma mild_tcp_connect_wait fuel : M (tcp_connect_wait fuel (mkTcp s)).
  Proof.
    induction fuel as [|fuel IH]; cbn [tcp_connect_wait t_socket]; [exact I|]. apply mild_try; [apply mild_read_then|]. intros st.
    destruct (status_try_from st) as [[]|]; try exact IH; try exact I. unfold tcp_socket_close, t_socket. ms.
  Qed.
  Lemma mild_tcp_do_connect fuel r : M (tcp_do_connect fuel (mkTcp s) r).
  Proof. unfold tcp_do_connect, t_socket. ms. apply mild_tcp_connect_wait. Qed.
  Lemma mild_tcp_connect fuel r : M (tcp_connect fuel (mkTcp s) r).
  Proof.
    unfold tcp_connect. destruct r as [r|]; [|exact I]. apply mild_try. { unfold tcp_open, t_socket. ms. } intros a.
    apply mild_try; [|intros b; exact I]. unfold tcp_socket_connect. apply mild_try; [apply mild_read_then|]. intros st.
    destruct (status_try_from st) as [[]|]; try exact I; try apply mild_tcp_do_connect;
      (apply mild_try; [unfold tcp_socket_close, t_socket; ms|]; intros c; apply mild_try; [apply mild_tcp_reopen|]; intros d; apply mild_tcp_do_connect).
  Qed.
  Lemma mild_udp_open dst prt : M (udp_open (mkUdp s dst prt)).
  Proof. unfold udp_open. cbn [u_socket u_port]. ms. Qed.
  Lemma mild_udp_connect dst prt r : M (udp_connect (mkUdp s dst prt) r).
  Proof. unfold udp_connect. destruct r as [r|]; [|exact I]. apply mild_try; [apply mild_udp_open|]. intros a. apply mild_udp_set_destination. Qed.
  Lemma mild_udp_bind dst prt p : M (udp_bind (mkUdp s dst prt) p).
  Proof.
    pose proof (mild_set_source_port p) as Mp. unfold udp_bind, udp_set_port, set_source_port, write_frame, try_ in *.
    cbn [u_socket u_port u_dest bind mild] in *. split; [apply Mp|]. intros [a|x]; [|exact I]. cbn [bind fst snd].
    apply mild_bind; [apply mild_udp_open|]. intros [b|x]; exact I.
  Qed.
  Lemma mild_sockop fuel q : (forall p, q <> KSetTxWrite p) -> M (run_sockop fuel s q).
  Proof.
    intros H. destruct q; cbn [run_sockop]; try (ms; fail); try (exfalso; eapply H; reflexivity).
    - apply mild_bind; [apply mild_set_tx_read_pointer|]. intros r. exact I.
  Qed.
  Lemma mild_devop q : M (run_devop q).
  Proof.
    assert (D : q = QResetDevice \/ q <> QResetDevice) by (destruct q; auto; right; discriminate).
    destruct D as [-> |D]; [|now apply mild_spares, spares_devop]. cbn [run_devop]. apply mild_bind; [apply mild_common|]. intros r. exact I.
  Qed.
End Leaves.

(** ** Sending *)
Section Send.
  Context (lossy : bool) (S0 : list packet) (e : env) (i : N) (Hi : i < 8) (WP : whole_pairs e).
  Notation pp := (pipe lossy S0).
  Notation s_ := (socket_new i).
  Notation M := (mild (harmless lossy i)).

  Lemma run_pipe {A} C (p : prog A) s : M p -> pp C (sk i s) -> pp C (sk i (snd (run e p s))).
  Proof.
    intros H. apply (run_mild (harmless lossy i) e i (pp C)); [| |exact H].
    - intros x ev Hev. apply (pipe_sevs lossy S0 i C x). now apply sevs_one.
    - intros c blk a v. apply pipe_wbyte.
  Qed.
  Lemma wp_pipe {A} C (p : prog A) (Q : outcome A -> sys -> Prop) s : M p -> pp C (sk i s) ->
    (forall o s1, pp C (sk i s1) -> Q o s1) -> wp e p Q s.
  Proof. intros H P K. unfold wp. apply K. now apply run_pipe. Qed.
  (** a computation that may stop after a part that adds nothing *)
  Lemma wp_try_pipe {A E R} C (p : prog (res A E)) (h : E -> R) k (Q : outcome R -> sys -> Prop) s : M p -> pp C (sk i s) ->
    (forall o s1, (forall r, o = Done r -> exists x, r = h x) -> pp C (sk i s1) -> Q o s1) ->
    (forall a s1, pp C (sk i s1) -> wp e (k a) Q s1) ->
    wp e (try_ p h k) Q s.
  Proof.
    intros H P K1 K2. apply wp_try, (wp_pipe C); auto. intros [[a|x]|w| |] s1 P1; auto; apply K1; auto; cbn [cast]; try discriminate.
    intros r [= <-]. eauto.
  Qed.

  Lemma pipe_txv C x : pp C x -> shut x \/ txv x.
  Proof.
    intros (V & T & l & D & g & E & Dr & EC & [Sh|((P0 & P1 & P2 & P3 & P4) & Rm & G)]); [now left|right].
    unfold txv. repeat (split; [assumption|]). lia.
  Qed.
  Lemma wp_free C (Q : outcome (res N berr) -> sys -> Prop) s : pp C (sk i s) ->
    (forall v s1, flow lossy S0 C (tx_wr (sk i s1)) v (sk i s1) -> Q (Done (Ok v)) s1) ->
    (forall o s1, (forall v, o <> Done (Ok v)) -> pp C (sk i s1) -> Q o s1) ->
    wp e (get_tx_free_size s_) Q s.
  Proof.
    intros P K1 K2. destruct (pipe_txv C _ P) as [Sh|V].
    - assert (Sp : spares i (get_tx_free_size s_)) by apply ro_read_then.
      pose proof (run_spares e i _ Sp s) as N1. pose proof (pipe_sevs lossy S0 i C _ _ N1 P) as P1.
      assert (Sh1 : shut (sk i (snd (run e (get_tx_free_size s_) s)))) by (revert N1; intros N1; apply (sevs_inv i shut (fun x ev _ => shut_step x ev) _ _ N1 Sh)).
      unfold wp. destruct (run e (get_tx_free_size s_) s) as [[[v|x]|w| |] s1]; cbn [fst snd] in *; try (apply K2; [discriminate|exact P1]).
      apply K1. rewrite <- (app_nil_r C). now apply (flow_shut lossy S0 C (tx_wr (sk i s1)) 0).
    - apply (wp_ro eb e i); [apply ro_read_then|apply es_get_tx_free_size| |].
      2: { intros [v|x] s' Hr N1; [now contradiction Hr|]. apply K2; [discriminate|]. now apply (pipe_sevs lossy S0 i C (sk i s)). }
      apply wp_get_tx_free_size; [apply nofail_no_faults|exact Hi|exact V|]. intros x s1 v N1 N2 L _.
      pose proof (sevs_trans _ _ _ _ N1 N2) as N3. pose proof (pipe_sevs lossy S0 i C _ _ N3 P) as P1.
      destruct (sevs_txv _ _ _ N3 V) as (V1 & _). apply K1.
      destruct P1 as (Vz & T & l & D & g & E & Dr & EC & Alt). split; [exact Vz|]. split; [exact T|]. exists l, D, g.
      split; [exact E|]. split; [exact Dr|]. split; [exact EC|]. destruct Alt as [Sh|(Pv & Rm & G)]; [now left|right].
      split; [exact Pv|]. split; [|exact G]. unfold tx_fsr in L. lia.
  Qed.
  Lemma wp_ptr C w (Q : outcome (res N berr) -> sys -> Prop) s : flow lossy S0 C (tx_wr (sk i s)) (len w) (sk i s) ->
    (forall p s1, p < 65536 -> stage lossy S0 C p w 0 (sk i s1) -> Q (Done (Ok p)) s1) ->
    (forall o s1, (forall v, o <> Done (Ok v)) -> pp C (sk i s1) -> Q o s1) ->
    wp e (get_tx_write_pointer s_) Q s.
  Proof.
    intros F K1 K2. apply (wp_ro eb e i); [apply ro_read_then|apply es_get_tx_write_pointer| |].
    2: { intros [v|x] s' Hr N1; [now contradiction Hr|]. apply K2; [discriminate|]. apply (pipe_sevs lossy S0 i C (sk i s)); [exact N1|now apply pipe_less in F]. }
    apply wp_get_tx_write_pointer; [apply nofail_no_faults|exact Hi|]. intros s1 N1. apply K1; [apply tx_wr_lt|].
    split; [|right; split; reflexivity]. destruct (sevs_wr _ _ _ N1) as (-> & _). now apply (flow_sevs lossy S0 i _ _ _ (sk i s)).
  Qed.
  Lemma wp_txdata C p w (Q : outcome (res unit berr) -> sys -> Prop) s : p < 65536 -> stage lossy S0 C p w 0 (sk i s) ->
    (forall s1, stage lossy S0 C p w (length w) (sk i s1) -> Q (Done (Ok tt)) s1) ->
    (forall x s1, pp C (sk i s1) -> Q (Done (Err x)) s1) ->
    wp e (write_frame (tx_buffer s_) p w) Q s.
  Proof.
    intros Hp St K1 K2. unfold write_frame, wp. cbn [run]. rewrite so_tx by exact Hi. unfold bus_write.
    assert (Ea : p = (p + N.of_nat 0) mod 65536) by (rewrite N.add_0_r; symmetry; now apply N.mod_small).
    destruct (fails e (s_call s)) as [[k er]|]; cbn [run fst snd].
    - apply K2. change (sk i (end_call ?x)) with (sk i x). apply (stage_pipe lossy S0 C p w (0 + length (firstn k w))).
      apply stage_bytes; [exact St|exact Ea|]. cbn [skipn]. rewrite firstn_length. destruct (Nat.le_ge_cases k (length w)).
      + now rewrite Nat.min_l.
      + rewrite Nat.min_r by assumption. now rewrite firstn_all, firstn_all2.
    - apply K1. change (sk i (end_call ?x)) with (sk i x). change (length w) with (0 + length w)%nat.
      apply stage_bytes; [exact St|exact Ea|]. cbn [skipn]. apply firstn_all.
  Qed.
  Lemma wp_setptr C p w (Q : outcome (res unit berr) -> sys -> Prop) s : stage lossy S0 C p w (length w) (sk i s) ->
    (forall o s1, pp (C ++ w) (sk i s1) -> Q o s1) ->
    (forall x s1, pp C (sk i s1) -> Q (Done (Err x)) s1) ->
    wp e (set_tx_write_pointer s_ ((p + len w) mod 65536)) Q s.
  Proof.
    intros St K1 K2. unfold set_tx_write_pointer, write_frame, wp. cbn [run]. rewrite so_reg by exact Hi. unfold bus_write.
    set (p' := (p + len w) mod 65536).
    assert (F : pp (C ++ w) (sk i (write_bytes e (BSB_REG i) s_TX_DATA_WRITE_POINTER (to_be p') s))).
    { unfold to_be. cbn [write_bytes]. pose proof (stage_done lossy S0 C p w _ St) as F. fold p' in F.
      set (s1 := tick e s). set (s2 := on_chip _ s1). set (s3 := tick e s2). unfold sk at 1, on_chip. cbn [s_chip].
      rewrite wbyte_reg. fold (sk i s3).
      assert (E2 : sk i s2 = set_regs (sk i s1) (upd (regs (sk i s1)) Sn_TX_WR (u8 (p' / 256)))).
      { unfold s2, sk, on_chip. cbn [s_chip]. rewrite wbyte_reg. reflexivity. }
      change (next_addr s_TX_DATA_WRITE_POINTER) with (Sn_TX_WR + 1).
      change (sock_wr i (sk i s3) (Sn_TX_WR + 1) (u8 p')) with (set_regs (sk i s3) (upd (regs (sk i s3)) (Sn_TX_WR + 1) (u8 p'))).
      assert (F3 : flow lossy S0 (C ++ w) p' 0 (sk i s3)).
      { apply (flow_sevs lossy S0 i _ _ _ (sk i s2)); [apply tick_sevs|]. rewrite E2. apply flow_txwr.
        - intros a A1 A2. unfold upd. destruct (N.eqb_spec a Sn_TX_WR); [contradiction|reflexivity].
        - apply (flow_sevs lossy S0 i _ _ _ (sk i s)); [apply tick_sevs|exact F]. }
      assert (Ew : tx_wr (set_regs (sk i s3) (upd (regs (sk i s3)) (Sn_TX_WR + 1) (u8 p'))) = p').
      { assert (R : regs (sk i s3) = regs (sk i s2)) by apply (sevs_regs i), tick_sevs.
        unfold tx_wr, get16. sfields. rewrite R, E2. sfields. change (upd (upd ?m Sn_TX_WR ?u) (Sn_TX_WR + 1) ?v (Sn_TX_WR + 1)) with v.
        change (upd (upd ?m Sn_TX_WR ?u) (Sn_TX_WR + 1) ?v Sn_TX_WR) with u. rewrite !b2n_u8.
        assert (p' < 65536) by (apply N.mod_lt; discriminate). lia. }
      unfold pipe. rewrite Ew. apply flow_txwr; [|exact F3].
      intros a A1 A2. unfold upd. destruct (N.eqb_spec a (Sn_TX_WR + 1)); [contradiction|reflexivity]. }
    destruct (fails e (s_call s)) as [[k er]|] eqn:Ef; cbn [run fst snd]; [|apply K1; exact F].
    destruct k as [|[|k]].
    - apply K2. apply (stage_pipe lossy S0 C p w (length w)). exact St.
    - exfalso. exact (WP _ _ Ef).
    - apply K1. unfold to_be in *. cbn [firstn]. rewrite firstn_nil. exact F.
  Qed.
End Send.
