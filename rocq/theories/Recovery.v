(** Calls during which a bus access fails: what is left behind. *)
From Verif Require Export TcpReceive UdpReceive.
From Verif Require Import TcpSession FrameFacts ErrorFacts ProgFacts Datasheet ValueFacts.

(** ** Single accesses that may fail *)
(** a program that only reads from socket [i] *)
Lemma wp_ro {A} (E : A -> option berr) e i (q : prog A) (R : outcome A -> sys -> Prop) s :
  spares i q -> estop E q -> wp (nofail e) q R s ->
  (forall r s', E r <> None -> sevs i (sk i s) (sk i s') -> R (Done r) s') -> wp e q R s.
Proof.
  intros Sp Es W H. pose proof (run_spares e i q Sp s) as N. unfold wp. destruct (run e q s) as [o s'] eqn:Rn. cbn [fst snd] in *.
  assert (X : (exists r, o = Done r /\ E r <> None) \/ (forall r, o = Done r -> E r = None)).
  { destruct o as [r| | |]; try (right; discriminate). destruct (E r) eqn:Er; [left; exists r; split; congruence|].
    right. intros r' [= <-]. exact Er. }
  destruct X as [(r & -> & Er)|X]; [now apply H|].
  exact (session_call E e q R s o s' Es Rn X W).
Qed.
Section ReadOnly.
  Context (i : N).
  Lemma spares_try {A E R} (p : prog (res A E)) (h : E -> R) (k : A -> prog R) :
    spares i p -> (forall a, spares i (k a)) -> spares i (try_ p h k).
  Proof. intros H Hk. apply spares_bind; [exact H|]. intros [a|x]; [apply Hk|exact Logic.I]. Qed.
  Lemma ro_read_reg blk a n : spares i (read_reg blk a n).
  Proof. cbn. intros got [u|er] _; exact Logic.I. Qed.
  Lemma ro_read_into blk a buf : spares i (read_into blk a buf).
  Proof. cbn. intros got [u|er] _; exact Logic.I. Qed.
  Lemma ro_read_then {R} blk a n (f : list byte -> R) : spares i (try d <- read_reg blk a n else Err ;; Ret (Ok (f d))).
  Proof. apply spares_try; [apply ro_read_reg|]. intros d. exact Logic.I. Qed.
  Lemma ro_get_receive_size fuel s : spares i (get_receive_size fuel s).
  Proof.
    induction fuel as [|fuel IH]; cbn [get_receive_size]; [exact Logic.I|].
    apply spares_try; [apply ro_read_reg|]. intros s0. apply spares_try; [apply ro_read_reg|]. intros s1.
    match goal with |- spares _ (if ?b then _ else _) => destruct b end; [exact Logic.I|exact IH].
  Qed.
  Lemma ro_wait_send_ok fuel s : spares i (wait_send_ok fuel s).
  Proof.
    induction fuel as [|fuel IH]; cbn [wait_send_ok]; [exact Logic.I|].
    apply spares_try; [apply ro_read_then|]. intros [|]; [exact Logic.I|exact IH].
  Qed.
  Lemma ro_tcp_is_connected t : spares i (tcp_is_connected t).
  Proof. apply spares_try; [apply ro_read_then|]. intros st. exact Logic.I. Qed.
End ReadOnly.
Lemma wp_from_run {A} e (q : prog A) (P R : outcome A -> sys -> Prop) s : wp e q P s ->
  (forall o s', run e q s = (o, s') -> P o s' -> R o s') -> wp e q R s.
Proof. unfold wp. intros W H. destruct (run e q s) as [o s'] eqn:E. now apply H. Qed.
(** a write: done, or its first bytes done and an error answered *)
Lemma wp_write_any e blk a d (R : outcome (res unit berr) -> sys -> Prop) s :
  wp (nofail e) (write_frame blk a d) R s ->
  (forall k er, wp (nofail e) (write_frame blk a (firstn k d)) (fun _ s1 => R (Done (Err er)) s1) s) ->
  wp e (write_frame blk a d) R s.
Proof.
  unfold wp, write_frame. cbn [run]. unfold bus_write. cbn [fails nofail]. intros H1 H2.
  destruct (fails e (s_call s)) as [[k er]|]; cbn [fst snd run] in *.
  - specialize (H2 k er). now rewrite write_bytes_nofail in H2.
  - now rewrite write_bytes_nofail in H1.
Qed.

(** the first bytes of a big-endian 16 bit value *)
Definition be_part (v : N) (d : list byte) : Prop := d = [] \/ d = [u8 (v / 256)] \/ d = to_be v.
Lemma firstn_be v k : be_part v (firstn k (to_be v)).
Proof. destruct k as [|[|k]]; [left|right; left|right; right]; try reflexivity. cbn [to_be firstn]. now destruct k. Qed.

Section AnyAccess.
  Context (e : env) (i : N).
  Hypothesis Hi : i < 8.
  Let NF := nofail_no_faults e.

  Lemma wp_skip blk a (R : outcome (res unit berr) -> sys -> Prop) s :
    (forall s1, sk i s1 = sk i s -> R (Done (Ok tt)) s1) -> wp (nofail e) (write_frame blk a []) R s.
  Proof. intros H. unfold wp. cbn. apply H. reflexivity. Qed.

  Lemma wp_one_any a v (R : outcome (res unit berr) -> sys -> Prop) s :
    (forall x s1, sevs i (sk i s) x -> sk i s1 = sock_wr i x a v -> R (Done (Ok tt)) s1) ->
    (forall er x s1, sevs i (sk i s) x -> sk i s1 = x \/ sk i s1 = sock_wr i x a v -> R (Done (Err er)) s1) ->
    wp e (write_frame (register (socket_new i)) a [v]) R s.
  Proof.
    intros H1 H2. rewrite so_reg by exact Hi. apply wp_write_any.
    - apply (wp_wr1 (nofail e) i NF). intros x s1 N1 E1. apply wp_ret. exact (H1 x s1 N1 E1).
    - intros [|k] er; cbn [firstn].
      + apply wp_skip. intros s1 E1. apply (H2 er (sk i s) s1); [apply sevs_refl|now left].
      + rewrite firstn_nil. apply (wp_wr1 (nofail e) i NF). intros x s1 N1 E1. apply wp_ret. exact (H2 er x s1 N1 (or_intror E1)).
  Qed.
  Lemma wp_command_any c (R : outcome (res unit berr) -> sys -> Prop) s :
    (forall x s1, sevs i (sk i s) x -> sk i s1 = do_command i x (command_u8 c) -> R (Done (Ok tt)) s1) ->
    (forall er x s1, sevs i (sk i s) x -> sk i s1 = x \/ sk i s1 = do_command i x (command_u8 c) -> R (Done (Err er)) s1) ->
    wp e (command (socket_new i) c) R s.
  Proof.
    intros H1 H2. unfold command.
    assert (X : forall x, sock_wr i x s_COMMAND (u8 (command_u8 c)) = do_command i x (command_u8 c)).
    { intros x. unfold sock_wr. change (s_COMMAND =? Sn_CR) with true. cbv iota. rewrite b2n_u8. f_equal. apply N.mod_small. destruct c; reflexivity. }
    apply wp_one_any; intros; rewrite X in *; eauto.
  Qed.
  Lemma wp_reset_interrupt_any code (R : outcome (res unit berr) -> sys -> Prop) s :
    (forall x s1, sevs i (sk i s) x -> sk i s1 = set_ir x (N.ldiff (ir x) (interrupt_u8 code)) -> R (Done (Ok tt)) s1) ->
    (forall er x s1, sevs i (sk i s) x -> sk i s1 = x \/ sk i s1 = set_ir x (N.ldiff (ir x) (interrupt_u8 code)) -> R (Done (Err er)) s1) ->
    wp e (reset_interrupt (socket_new i) code) R s.
  Proof.
    intros H1 H2. unfold reset_interrupt.
    assert (X : forall x, sock_wr i x s_INTERRUPT (u8 (interrupt_u8 code)) = set_ir x (N.ldiff (ir x) (interrupt_u8 code))).
    { intros x. unfold sock_wr. change (s_INTERRUPT =? Sn_CR) with false. change (s_INTERRUPT =? Sn_IR) with true. cbv iota.
      rewrite b2n_u8. f_equal. f_equal. apply N.mod_small. destruct code; reflexivity. }
    apply wp_one_any; intros; rewrite X in *; eauto.
  Qed.
  Lemma wp_ptr_any a v (R : outcome (res unit berr) -> sys -> Prop) s :
    idle (sk i s) -> a = Sn_RX_RD \/ a = Sn_TX_WR ->
    (forall y s1, sevs i (sk i s) y -> sk i s1 = set_regs y (puts (regs y) a (to_be v)) -> R (Done (Ok tt)) s1) ->
    (forall er d y s1, be_part v d -> sevs i (sk i s) y -> sk i s1 = set_regs y (puts (regs y) a d) -> R (Done (Err er)) s1) ->
    wp e (write_frame (register (socket_new i)) a (to_be v)) R s.
  Proof.
    intros I Ha H1 H2. apply wp_write_any.
    - apply wp_plain_write; auto; [destruct Ha as [-> | ->]; reflexivity|destruct Ha as [-> | ->]; reflexivity].
    - intros k er. pose proof (firstn_be v k) as P. apply (wp_plain_write (nofail e) i NF Hi).
      + exact I.
      + destruct P as [-> |[-> | ->]]; destruct Ha as [-> | ->]; reflexivity.
      + destruct P as [-> |[-> | ->]]; destruct Ha as [-> | ->]; reflexivity.
      + intros y s1 N1 E1. eapply H2; eauto.
  Qed.
End AnyAccess.

(** ** Taking data out of the RX buffer *)
(** the read pointer overwritten by [d] (none, one or both bytes), RECV not issued *)
Definition repointed (y : sock) (d : list byte) : sock := set_regs y (puts (regs y) Sn_RX_RD d).
Lemma repointed_other v d y a : be_part v d -> a <> Sn_RX_RD -> a <> Sn_RX_RD + 1 -> regs (repointed y d) a = regs y a.
Proof.
  intros P H1 H2. unfold repointed. cbn [regs set_regs]. apply puts_other. unfold Sn_RX_RD in *.
  destruct P as [-> |[-> | ->]]; [change (len []) with 0|change (len [_]) with 1|change (len (to_be v)) with 2]; lia.
Qed.
Lemma repointed_same v d y : be_part v d -> same_sizes (regs y) (regs (repointed y d)).
Proof. intros P. apply puts_sizes. destruct P as [-> |[-> | ->]]; reflexivity. Qed.
Lemma repointed_rx v d y : be_part v d ->
  rx_size (repointed y d) = rx_size y /\ rx_rsr (repointed y d) = rx_rsr y /\ pending (repointed y d) = pending y /\
  (rxv y -> rxv (repointed y d)).
Proof.
  intros P. assert (E : rx_size (repointed y d) = rx_size y).
  { unfold rx_size. now rewrite (repointed_other v) by (auto; discriminate). }
  split; [exact E|]. split; [reflexivity|]. split; [unfold pending; now rewrite E|]. unfold rxv. now rewrite E.
Qed.
Lemma txkeep_repointed v d y : be_part v d -> ready y -> txkeep y (repointed y d).
Proof.
  intros P (V & B & O & S & E & L).
  assert (W : tx_wr (repointed y d) = tx_wr y /\ tx_size (repointed y d) = tx_size y).
  { unfold tx_wr, tx_size, get16. now rewrite !(repointed_other v) by (auto; discriminate). }
  destruct W as (W & Z).
  split. { split; [unfold txv; rewrite W, Z; exact V|]. split; [exact B|]. split; [exact O|]. split; [exact S|]. split; [exact E|exact L]. }
  split; [unfold unsent; rewrite W, Z; reflexivity|]. split; [reflexivity|]. split; [exact W|]. split; [reflexivity|]. split; [reflexivity|].
  intros a Ha Hb. now apply (repointed_other v).
Qed.

Section AnyRecv.
  Context (e : env) (i : N).
  Hypothesis Hi : i < 8.

  (** set the read pointer, then RECV; either may fail *)
  Lemma wp_recv_any {R} (h : berr -> R) v (k : prog R) (Q : outcome R -> sys -> Prop) s :
    idle (sk i s) -> v < 65536 ->
    (forall y s2, sevs i (sk i s) y -> sk i s2 = recv_of y v -> wp e k Q s2) ->
    (forall er d y s2, be_part v d -> sevs i (sk i s) y -> sk i s2 = repointed y d -> Q (Done (h er)) s2) ->
    (forall er y s2, sevs i (sk i s) y -> sk i s2 = recv_of y v -> Q (Done (h er)) s2) ->
    wp e (try b <- set_rx_read_pointer (socket_new i) v else h ;;
          try c <- command (socket_new i) CmReceive else h ;; k) Q s.
  Proof.
    intros I Hv H H1 H2. apply wp_try. unfold set_rx_read_pointer. apply wp_ptr_any; [exact Hi|exact I|now left| |].
    - intros y s1 N1 E1. cbv beta iota. destruct (sevs_idle _ _ _ N1 I) as (Iy & _).
      assert (X : forall z, sevs i (sk i s1) z -> exists u, sevs i (sk i s) u /\ z = repointed u (to_be v) /\
         do_command i z (command_u8 CmReceive) = recv_of u v).
      { intros z N2. rewrite E1 in N2.
        destruct (sevs_set_regs i y _ z (puts_sizes (to_be v) (regs y) Sn_RX_RD ltac:(reflexivity)) Iy N2) as (u & U1 & U2).
        assert (U3 : z = repointed u (to_be v)) by (rewrite U2; unfold repointed; now rewrite (sevs_regs _ _ _ U1)).
        exists u. split; [eapply sevs_trans; eauto|]. split; [exact U3|].
        change (do_command i z (command_u8 CmReceive)) with (set_rx_base z (rx_rd z)). rewrite U3.
        assert (E : rx_rd (repointed u (to_be v)) = v) by (unfold rx_rd; cbn [repointed regs set_regs]; now apply puts_get16).
        now rewrite E. }
      apply wp_try, wp_command_any; auto.
      + intros z s2 N2 E2. cbv beta iota. destruct (X z N2) as (u & U1 & _ & U3). apply (H u); [exact U1|congruence].
      + intros er z s2 N2 E2. destruct (X z N2) as (u & U1 & U2 & U3). destruct E2 as [E2|E2].
        * apply (H1 er (to_be v) u); [now right; right|exact U1|congruence].
        * apply (H2 er u); [exact U1|congruence].
    - intros er d y s1 P N1 E1. apply (H1 er d y); auto.
  Qed.
End AnyRecv.

(** ** TCP receive *)
(** after a failing receive into [buf]: the chip has let go of [n] bytes, which are at the
    front of the buffer; if the read pointer is not where the chip is, it has let go of none *)
Definition recv_broken (x : sock) (buf buf' : list byte) (x' : sock) : Prop :=
  len buf' = len buf /\ txkeep x x' /\ rxv x' /\
  exists ch n, n <= len buf /\ n <= len (pending x ++ ch) /\ rxlog x' = rxlog x ++ ch /\
    pending x' = drop n (pending x ++ ch) /\
    ((n = 0 /\ rx_base x' = rx_base x) \/ (buf' = take n (pending x ++ ch) ++ drop n buf /\ rx_rd x' = rx_base x')).

Section AnyReceive.
  Context (e : env) (i : N).
  Hypothesis Hi : i < 8.
  Let NF := nofail_no_faults e.

  Lemma recv_broken_none x buf buf' x' : len buf' = len buf -> sevs i x x' -> ready x -> rready x -> recv_broken x buf buf' x'.
  Proof.
    intros L N R Rr. destruct (sevs_rx _ _ _ N (proj1 Rr)) as (V & c & P & Lg & _).
    split; [exact L|]. split; [now apply (txkeep_sevs i)|]. split; [exact V|].
    exists c, 0. split; [lia|]. split; [lia|]. split; [exact Lg|]. split; [exact P|]. left. split; [reflexivity|now apply (sevs_rx_base i)].
  Qed.
  Lemma recv_broken_before x0 x buf buf' x' : sevs i x0 x -> ready x0 -> rready x0 ->
    recv_broken x buf buf' x' -> recv_broken x0 buf buf' x'.
  Proof.
    intros N R0 (V & _) (H1 & H2 & H3 & ch & n & H4 & H5 & H6 & H7 & H8).
    destruct (sevs_rx _ _ _ N V) as (_ & c & P & L & _).
    split; [exact H1|]. split; [eapply txkeep_trans; [now apply (txkeep_sevs i _ _ N)|exact H2]|]. split; [exact H3|].
    exists (c ++ ch), n. rewrite app_assoc, <- P. split; [exact H4|]. split; [exact H5|]. split; [rewrite H6, L; symmetry; apply app_assoc|].
    split; [exact H7|]. rewrite <- (sevs_rx_base i _ _ N). exact H8.
  Qed.

  Lemma recv_broken_clear x buf buf' z : recv_broken x buf buf' z ->
    recv_broken x buf buf' (set_ir z (N.ldiff (ir z) (interrupt_u8 InReceive))).
  Proof.
    intros (H1 & H2 & H3 & H4). split; [exact H1|]. split; [|split; [exact H3|exact H4]].
    eapply txkeep_trans; [exact H2|]. apply txkeep_clear, H2.
  Qed.
  Lemma recv_broken_repointed v x buf buf' y d : be_part v d -> len buf' = len buf -> sevs i x y -> ready x -> rready x ->
    recv_broken x buf buf' (repointed y d).
  Proof.
    intros P L N R Rr. destruct (recv_broken_none x buf buf' y L N R Rr) as (H1 & H2 & H3 & ch & n & _).
    destruct (sevs_rx _ _ _ N (proj1 Rr)) as (V & c & P1 & Lg & _).
    destruct (repointed_rx v d y P) as (_ & _ & P2 & V2).
    split; [exact L|]. split; [eapply txkeep_trans; [exact H2|]; apply (txkeep_repointed v); [exact P|apply H2]|]. split; [auto|].
    exists c, 0. split; [lia|]. split; [lia|]. split; [exact Lg|]. split; [rewrite P2; exact P1|]. left. split; [reflexivity|].
    change (rx_base (repointed y d)) with (rx_base y). now apply (sevs_rx_base i).
  Qed.

  Lemma wp_tcp_receive_data_any n data (Q : outcome (list byte * res N terr) -> sys -> Prop) s :
    ready (sk i s) -> rready (sk i s) -> n <= len data -> n <= rx_rsr (sk i s) ->
    (forall s' d' m, Q (Done (d', Ok m)) s') ->
    (forall s' d' er, recv_broken (sk i s) data d' (sk i s') -> Q (Done (d', Err (TOther er))) s') ->
    wp e (tcp_receive_data (mkTcp (socket_new i)) n data) Q s.
  Proof.
    intros Rd Rr Hn Hr Hok H. unfold tcp_receive_data. cbn [t_socket]. cbv zeta.
    assert (Ln : len (take n data) = n) by (rewrite len_take; lia).
    apply wp_try, (wp_ro eb e i); [apply ro_read_then|apply es_get_rx_read_pointer| |].
    2: { intros [a|er] s1 Er N1; [now elim Er|]. apply H. now apply recv_broken_none. }
    apply wp_get_rx_read_pointer; auto. intros s1 N1. cbv beta iota.
    pose proof (rready_sevs _ _ _ N1 Rr) as (V1 & E1). pose proof V1 as (Vz & Vw & Vb & Vr).
    destruct (sevs_rx _ _ _ N1 (proj1 Rr)) as (_ & ch1 & P1 & L1 & _ & S1).
    pose proof (ready_sevs _ _ _ N1 Rd) as R1.
    rewrite E1. apply wp_bind.
    assert (Rl : forall r s2, run e (read_into (rx_buffer (socket_new i)) (rx_base (sk i s1)) (take n data)) s1 = (Done r, s2) -> len (fst r) = n).
    { intros r s2. unfold read_into. cbn [run]. pose proof (bus_read_length e (rx_buffer (socket_new i)) (rx_base (sk i s1)) (take n data) s1) as BL.
      destruct (bus_read _ _ _ _ _) as [[g rr] s2']. intros [= <- <-]. cbn [fst snd] in *. unfold len in *. lia. }
    match goal with |- wp e ?q _ _ => set (q0 := q) in * end.
    enough (W : wp e q0 (fun o s2 => sevs i (sk i s1) (sk i s2) /\ exists r, o = Done r /\
      (snd r = Ok tt -> fst r = take n (pending (sk i s1)))) s1).
    { unfold wp in W |- *. destruct (run e q0 s1) as [o s2] eqn:Rn. cbn [fst snd] in *.
      destruct W as (N2 & r & -> & W). specialize (Rl r s2 eq_refl).
      assert (Lb : len (fst r ++ drop n data) = len data) by (rewrite len_app, Rl, len_drop; lia).
      pose proof (ready_sevs _ _ _ N2 R1) as R2. assert (N12 : sevs i (sk i s) (sk i s2)) by (eapply sevs_trans; eauto).
      fold (wp e (match snd r with Ok _ =>
            try b <- set_rx_read_pointer (socket_new i) (wadd16 (rx_base (sk i s1)) (as_u16 (len (take n data)))) else (fun e => (fst r ++ drop n data, tE e)) ;;
            try c <- command (socket_new i) CmReceive else (fun e => (fst r ++ drop n data, tE e)) ;;
            try d <- reset_interrupt (socket_new i) InReceive else (fun e => (fst r ++ drop n data, tE e)) ;;
            Ret (fst r ++ drop n data, Ok (len (take n data))) | Err e0 => Ret (fst r ++ drop n data, tE e0) end) Q s2).
      destruct (snd r) as [[]|er]; [specialize (W eq_refl)|apply wp_ret, H; now apply recv_broken_none].
      assert (Hv : wadd16 (rx_base (sk i s1)) (as_u16 (len (take n data))) = (rx_base (sk i s1) + n) mod 65536).
      { rewrite Ln. unfold wadd16, as_u16. apply N.add_mod_idemp_r. discriminate. }
      rewrite Hv. set (v := (rx_base (sk i s1) + n) mod 65536). assert (Lv : v < 65536) by (apply N.mod_lt; discriminate).
      (* RECV done, whatever happens afterwards *)
      assert (Fin : forall y x', sevs i (sk i s2) y -> sevs i (recv_of y v) x' ->
         recv_broken (sk i s) data (fst r ++ drop n data) x').
      { intros y x' N3 N4. assert (Ny : sevs i (sk i s1) y) by (eapply sevs_trans; eauto).
        pose proof (ready_sevs _ _ _ Ny R1) as Ry. pose proof (rready_sevs _ _ _ Ny (conj V1 E1)) as (Vy & Ey).
        destruct (sevs_rx _ _ _ Ny V1) as (_ & ch2 & P2 & L2 & _ & S2).
        assert (By : rx_base y = rx_base (sk i s1)) by now apply (sevs_rx_base i).
        destruct (recv_rx y n Vy ltac:(lia)) as (V3 & P3). rewrite By in V3, P3. fold v in V3, P3.
        destruct (recv_fields y v Lv) as (_ & _ & _ & F1 & F2). pose proof (txkeep_recv y v Lv Ry) as T3.
        pose proof (txkeep_sevs i _ _ N4 (proj1 T3)) as T4. pose proof (rxrel_sevs i _ _ N4) as (X1 & X2 & _ & _ & X5).
        destruct (X5 V3) as (V4 & ch3 & P4 & L4 & _).
        split; [exact Lb|]. split.
        { eapply txkeep_trans; [apply (txkeep_sevs i _ _ N1 Rd)|]. eapply txkeep_trans; [apply (txkeep_sevs i _ _ Ny R1)|].
          eapply txkeep_trans; eauto. }
        split; [exact V4|]. exists (ch1 ++ ch2 ++ ch3), n.
        assert (Lp : len (pending (sk i s)) = rx_rsr (sk i s)) by apply len_pending.
        assert (Lp1 : len (pending (sk i s1)) = rx_rsr (sk i s1)) by apply len_pending.
        split; [exact Hn|]. split; [rewrite len_app; lia|]. split.
        { rewrite L4. change (rxlog (recv_of y v)) with (rxlog y). rewrite L2, L1, !app_assoc. reflexivity. }
        split. { rewrite P4, P3, P2, P1. rewrite !app_assoc. rewrite !drop_app_le by (rewrite ?len_app; lia). reflexivity. }
        right. split; [|congruence]. f_equal. rewrite W, P1. rewrite !take_app_le by lia. reflexivity. }
      apply wp_recv_any; auto; [apply R2| | |].
      - intros y s3 N3 E3. apply wp_try, wp_reset_interrupt_any; auto.
        + intros z s4 N4 E4. cbv beta iota. apply wp_ret. apply Hok.
        + intros er z s4 N4 E4. apply H. rewrite E3 in N4. pose proof (Fin y z N3 N4) as F. destruct E4 as [-> | ->]; [exact F|].
          now apply recv_broken_clear.
      - intros er d y s3 P N3 E3. apply H. assert (Ny : sevs i (sk i s) y) by (eapply sevs_trans; eauto).
        rewrite E3. now apply (recv_broken_repointed v).
      - intros er y s3 N3 E3. apply H. rewrite E3. apply (Fin y); [exact N3|apply sevs_refl]. }
    subst q0. apply (wp_ro (fun gr => eb (snd gr)) e i); [apply ro_read_into|apply es_read_into| |].
    2: { intros [g [[]|er]] s2 Er N2; [now elim Er|]. split; [exact N2|]. eexists. split; [reflexivity|]. discriminate. }
    unfold read_into. rewrite so_rx by exact Hi.
    apply (wp_rrx (nofail e) i NF _ _ 0); [exact V1|exact Vb|now rewrite N.add_0_r|rewrite Ln; lia|].
    intros s2 N2. apply wp_ret. split; [exact N2|]. eexists. split; [reflexivity|]. intros _. cbn [fst].
    change (N.to_nat 0) with 0%nat. cbn [skipn]. unfold take at 2. f_equal. unfold len in Ln. lia.
  Qed.

  Lemma wp_tcp_receive_any fuel data (Q : outcome (list byte * res N (nberr terr)) -> sys -> Prop) s :
    ready (sk i s) -> rready (sk i s) ->
    (forall d' s' r, ent r = None -> Q (Done (d', r)) s') ->
    (forall d' s' er, recv_broken (sk i s) data d' (sk i s') -> Q (Done (d', Err (NbOther (TOther er)))) s') ->
    (forall s', Q Looping s') ->
    wp e (tcp_receive fuel (mkTcp (socket_new i)) data) Q s.
  Proof.
    intros Rd Rr Hok H HL. unfold tcp_receive, tcp_socket_receive. cbn [t_socket].
    apply wp_bind, wp_try, (wp_ro et e i); [apply ro_tcp_is_connected|apply es_tcp_is_connected| |].
    2: { intros [a|[| | |er|]] s1 Er N1; try (now elim Er). apply wp_ret. apply H. now apply recv_broken_none. }
    apply wp_tcp_is_connected; auto using nofail_no_faults; [apply Rd|]. intros s1 N1. cbv beta iota.
    destruct (sr (sk i s1) =? SOCK_ESTABLISHED); cbn [negb]; [|apply wp_ret, wp_ret, Hok; reflexivity].
    apply wp_try, (wp_ro eb e i); [apply ro_read_then|apply es_has_interrupt| |].
    2: { intros [a|er] s2 Er N2; [now elim Er|]. apply wp_ret. apply H. apply recv_broken_none; auto. eapply sevs_trans; eauto. }
    apply (wp_has_interrupt (nofail e) i NF Hi InReceive 2); [reflexivity|reflexivity|]. intros s2 N2. cbv beta iota.
    assert (N12 : sevs i (sk i s) (sk i s2)) by (eapply sevs_trans; eauto).
    destruct (N.testbit (ir (sk i s2)) 2); cbn [negb]; [|apply wp_ret, wp_ret, Hok; reflexivity].
    pose proof (rready_sevs _ _ _ N12 Rr) as Rr2.
    apply wp_try, (wp_ro eb e i); [apply ro_get_receive_size|apply es_get_receive_size| |].
    2: { intros [a|er] s3 Er N3; [now elim Er|]. apply wp_ret. apply H. apply recv_broken_none; auto. eapply sevs_trans; eauto. }
    apply wp_get_receive_size; auto using nofail_no_faults; [apply Rr2| |intros; apply HL].
    intros x s3 N3 N3'. cbv beta iota.
    assert (N2x : sevs i (sk i s) x) by (eapply sevs_trans; eauto).
    assert (N23 : sevs i (sk i s) (sk i s3)) by (eapply sevs_trans; eauto).
    pose proof (ready_sevs _ _ _ N23 Rd) as R3. pose proof (rready_sevs _ _ _ N23 Rr) as Rr3.
    assert (Hx : rx_rsr x <= rx_rsr (sk i s3)).
    { destruct (sevs_rx _ _ _ N3' (proj1 (rready_sevs _ _ _ N2x Rr))) as (_ & ch & _ & _ & _ & E). lia. }
    destruct (N.ltb_spec (len data) (rx_rsr x)).
    - apply wp_tcp_receive_data_any; auto; [lia|lia|intros; apply wp_ret, Hok; reflexivity|].
      intros s' d' er D. apply wp_ret. apply H. eapply recv_broken_before; eauto.
    - destruct (N.leb_spec (rx_rsr x) (len data)); [|lia].
      apply wp_tcp_receive_data_any; auto; [intros; apply wp_ret, Hok; reflexivity|].
      intros s' d' er D. apply wp_ret. apply H. eapply recv_broken_before; eauto.
  Qed.
End AnyReceive.

(** ** Putting data into the TX buffer *)
(** [w] written behind the pointer, of which the bytes [d] have been written *)
Definition half_staged (y : sock) (w d : list byte) : sock :=
  set_regs (set_txm y (ring_write (txm y) (tx_size y) (tx_wr y) w)) (puts (regs y) Sn_TX_WR d).
Lemma half_staged_full y w : half_staged y w (to_be ((tx_wr y + len w) mod 65536)) = staged_of y w.
Proof. reflexivity. Qed.
Lemma half_staged_other v d y w a : be_part v d -> a <> Sn_TX_WR -> a <> Sn_TX_WR + 1 -> regs (half_staged y w d) a = regs y a.
Proof.
  intros P H1 H2. unfold half_staged. cbn [regs set_regs]. apply puts_other. unfold Sn_TX_WR in *.
  destruct P as [-> |[-> | ->]]; [change (len []) with 0|change (len [_]) with 1|change (len (to_be v)) with 2]; lia.
Qed.
Lemma half_staged_rxrel v d y w : be_part v d -> rxrel y (half_staged y w d).
Proof.
  intros P. apply rxrel_same; try reflexivity; unfold rx_rd, rx_size, get16; now rewrite !(half_staged_other v) by (auto; discriminate).
Qed.
(** the data has been written, the pointer has not *)
Definition written (y : sock) (w : list byte) : sock := half_staged y w [].
Lemma written_wr y w : tx_wr (written y w) = tx_wr y /\ tx_size (written y w) = tx_size y.
Proof. split; reflexivity. Qed.
Lemma written_tx y w : txv y -> len w <= tx_fsr y ->
  txv (written y w) /\ unacked (written y w) = unacked y /\ unsent (written y w) = unsent y.
Proof.
  intros V L. pose proof V as (Vz & H1 & H2 & H3 & H4 & H5). pose proof (valid_le _ Vz) as Hz. unfold tx_fsr in L.
  split; [exact V|]. split.
  - unfold unacked. change (tx_wr (written y w)) with (tx_wr y). change (tx_size (written y w)) with (tx_size y).
    change (tx_ack (written y w)) with (tx_ack y). change (txm (written y w)) with (txm (staged_of y w)).
    apply staged_window; auto; lia.
  - unfold unsent. change (tx_wr (written y w)) with (tx_wr y). change (tx_size (written y w)) with (tx_size y).
    change (tx_end (written y w)) with (tx_end y). change (txm (written y w)) with (txm (staged_of y w)).
    apply staged_window; auto; lia.
Qed.

Section AnyStage.
  Context (e : env) (i : N).
  Hypothesis Hi : i < 8.
  Let NF := nofail_no_faults e.
  Lemma wp_stage_any {R} (h : berr -> R) w (k : prog R) Q s :
    idle (sk i s) -> valid_size (tx_size (sk i s)) -> len w < 65536 ->
    (forall y s3, sevs i (sk i s) y -> sk i s3 = staged_of y w -> wp e k Q s3) ->
    (forall er w' d y s3, (exists m, w' = firstn m w) -> be_part ((tx_wr y + len w) mod 65536) d -> d = [] \/ w' = w ->
       sevs i (sk i s) y -> sk i s3 = half_staged y w' d -> Q (Done (h er)) s3) ->
    wp e (try wp <- get_tx_write_pointer (socket_new i) else h ;;
          try a <- write_frame (tx_buffer (socket_new i)) wp w else h ;;
          try b <- set_tx_write_pointer (socket_new i) (wadd16 wp (as_u16 (len w))) else h ;;
          k) Q s.
  Proof.
    intros I V L H HE.
    assert (Triv : forall er s3, sevs i (sk i s) (sk i s3) -> Q (Done (h er)) s3).
    { intros er s3 N3. apply (HE er [] [] (sk i s3)); [now exists 0%nat|now left|now left|exact N3|]. now destruct (sk i s3). }
    apply wp_try, (wp_ro eb e i); [apply ro_read_then|apply es_get_tx_write_pointer| |].
    2: { intros [a|er] s1 Er N1; [now elim Er|]. now apply Triv. }
    apply wp_get_tx_write_pointer; auto. intros s1 N1. cbv beta iota.
    destruct (sevs_idle _ _ _ N1 I) as (I1 & _). destruct (sevs_wr _ _ _ N1) as (W1 & Z1 & _).
    assert (X : forall w' (Q' : outcome (res unit berr) -> sys -> Prop),
      (forall y2 s2, sevs i (sk i s1) y2 -> sk i s2 = written y2 w' -> Q' (Done (Ok tt)) s2) ->
      wp (nofail e) (write_frame (tx_buffer (socket_new i)) (tx_wr (sk i s1)) w') Q' s1).
    { intros w' Q' HQ. unfold write_frame. rewrite so_tx by exact Hi.
      apply wp_wtx; [exact NF|exact I1|now rewrite Z1|]. intros y2 s2 N2 E2. apply wp_ret. apply (HQ y2); [exact N2|].
      rewrite E2. unfold written, half_staged. destruct (sevs_wr _ _ _ N2) as (W2 & _). rewrite W2. now destruct y2. }
    apply wp_try, wp_write_any.
    2: { intros m er. apply X. intros y2 s2 N2 E2. apply (HE er (firstn m w) [] y2); [now exists m|now left|now left| |exact E2].
         eapply sevs_trans; eauto. }
    apply X. intros y2 s2 N2 E2. cbv beta iota.
    destruct (sevs_idle _ _ _ N2 I1) as (I2 & _). destruct (sevs_wr _ _ _ N2) as (W2 & Z2 & _).
    assert (Hv : wadd16 (tx_wr (sk i s1)) (as_u16 (len w)) = (tx_wr (sk i s1) + len w) mod 65536).
    { unfold wadd16, as_u16. now rewrite (N.mod_small (len w)) by exact L. }
    rewrite Hv.
    assert (Y : forall y3, sevs i (sk i s2) y3 -> exists y, sevs i (sk i s) y /\ tx_wr y = tx_wr (sk i s1) /\
       forall d, set_regs y3 (puts (regs y3) Sn_TX_WR d) = half_staged y w d).
    { intros y3 N3. assert (N3' : sevs i (set_txm y2 (ring_write (txm y2) (tx_size y2) (tx_wr y2) w)) y3).
      { rewrite E2 in N3. unfold written, half_staged in N3. now destruct y2. }
      destruct (sevs_set_txm i y2 _ _ I2 N3') as (y & N4 & ->).
      destruct (sevs_wr _ _ _ N4) as (W4 & Z4 & _). exists y. split; [eapply sevs_trans; [exact N1|eapply sevs_trans; eauto]|].
      split; [congruence|]. intros d. unfold half_staged. cbn [regs set_txm]. now rewrite (sevs_txm _ _ _ N4), Z4, W4. }
    apply wp_try. unfold set_tx_write_pointer. apply wp_ptr_any; [exact Hi|rewrite E2; exact I2|now right| |].
    - intros y3 s3 N3 E3. cbv beta iota. destruct (Y y3 N3) as (y & N4 & W4 & E4). apply (H y); [exact N4|].
      rewrite E3, E4, <- W4. reflexivity.
    - intros er d y3 s3 P N3 E3. destruct (Y y3 N3) as (y & N4 & W4 & E4).
      apply (HE er w d y); [exists (length w); now rewrite firstn_all|now rewrite W4|now right|exact N4|]. rewrite E3. apply E4.
  Qed.
End AnyStage.

(** ** TCP send *)
(** after a failing send of [w]: nothing happened; or the bytes are in the buffer and go out
    with the next SEND; or the write pointer is torn; or the SEND was issued *)
Definition send_broken (x : sock) (w : list byte) (x' : sock) : Prop :=
  rxrel x x' /\ same_but_wr x x' /\ dialled x' = dialled x /\
  ((sent x' = sent x /\ ready x' /\ tx_wr x' = tx_wr x /\ unsent x' = unsent x /\ txgrow x [] x') \/
   (sent x' = sent x /\ ready x' /\ tx_wr x' = (tx_wr x + len w) mod 65536 /\ unsent x' = unsent x ++ w /\ txgrow x w x') \/
   (sent x' = sent x /\ tx_busy x' = false /\ tx_end x' = tx_rd x' /\
      tx_wr x' = (tx_wr x + len w) mod 65536 / 256 * 256 + tx_wr x mod 256) \/
   (exists l k, sent x' = sent x ++ l /\ Forall (addressed (regs x)) l /\ (k <= length (unsent x ++ w))%nat /\
      payload l = firstn k (unsent x ++ w) /\ tx_wr x' = (tx_wr x + len w) mod 65536 /\ txgrow x w x')).
Lemma torn_wr y w : tx_wr (half_staged y w [u8 ((tx_wr y + len w) mod 65536 / 256)]) =
  (tx_wr y + len w) mod 65536 / 256 * 256 + tx_wr y mod 256.
Proof.
  assert (L : (tx_wr y + len w) mod 65536 < 65536) by (apply N.mod_lt; discriminate).
  unfold tx_wr at 1, half_staged, get16. cbn [regs set_regs puts]. unfold upd at 1 2. rewrite N.eqb_refl.
  change (Sn_TX_WR + 1 =? Sn_TX_WR) with false. cbv iota. rewrite b2n_u8.
  rewrite (N.mod_small _ 256) by (apply N.div_lt_upper_bound; [discriminate|exact L]). f_equal.
  unfold tx_wr, get16. pose proof (b2n_lt (regs y (Sn_TX_WR + 1))).
  rewrite (N.add_comm (b2n (regs y Sn_TX_WR) * 256)), N.mod_add by discriminate. symmetry. now apply N.mod_small.
Qed.
Section AnySend.
  Context (e : env) (i : N).
  Hypothesis Hi : i < 8.
  Let NF := nofail_no_faults e.

  Lemma send_broken_before x0 x w x' : sevs i x0 x -> ready x0 -> send_broken x w x' -> send_broken x0 w x'.
  Proof.
    intros N R0 (M1 & M2 & M3 & M4). destruct R0 as (V & B & O & _).
    assert (Hg : forall w', txgrow x w' x' -> txgrow x0 w' x') by (intros w' Hg; apply (txgrow_trans _ [] x w'); [now apply (txgrow_sevs i)|exact Hg]).
    destruct (calm_sevs _ _ _ N B O) as (_ & _ & _ & _ & _ & Es). destruct (sevs_wr _ _ _ N) as (W & _).
    pose proof (sevs_regs _ _ _ N) as Rg.
    split; [eapply rxrel_trans; [now apply (rxrel_sevs i); eauto|auto]|]. split; [unfold same_but_wr in *; now rewrite <- Rg|].
    split; [now rewrite M3, (sevs_dialled _ _ _ N)|].
    rewrite <- (unsent_sevs i x0 x N B O), <- W, <- Rg, <- Es.
    destruct M4 as [(A1 & A2 & A3 & A4 & A5)|[(A1 & A2 & A3 & A4 & A5)|[A|(l & k & A1 & A2 & A3 & A4 & A5 & A6)]]]; auto 10.
    right. right. right. exists l, k. auto 10.
  Qed.
  Lemma send_broken_none x w x' : sevs i x x' -> ready x -> send_broken x w x'.
  Proof.
    intros N R. pose proof R as (V & B & O & _). destruct (calm_sevs _ _ _ N B O) as (_ & _ & _ & _ & _ & Es).
    split; [now apply (rxrel_sevs i)|]. split; [intros a _ _; now rewrite (sevs_regs _ _ _ N)|]. split; [exact (sevs_dialled _ _ _ N)|].
    left. split; [exact Es|]. split; [exact (ready_sevs _ _ _ N R)|]. split; [apply (sevs_wr i _ _ N)|].
    split; [now apply (unsent_sevs i)|now apply (txgrow_sevs i)].
  Qed.

  Lemma wp_tcp_send_data_any fuel w (Q : outcome (res N terr) -> sys -> Prop) s :
    ready (sk i s) -> conn_states (sr (sk i s)) -> len w <= tx_fsr (sk i s) ->
    (forall s' n, Q (Done (Ok n)) s') -> (forall s', Q Looping s') ->
    (forall s' er, send_broken (sk i s) w (sk i s') -> Q (Done (Err (TOther er))) s') ->
    wp e (tcp_send_data fuel (mkTcp (socket_new i)) w) Q s.
  Proof.
    intros Rd C L Hok HL H. unfold tcp_send_data. cbn [t_socket]. cbv zeta.
    pose proof Rd as (V & B & O & So & E & Ls). pose proof (valid_le _ (proj1 V)) as Hz.
    assert (Lw : len w < 65536) by (unfold tx_fsr in L; lia).
    apply wp_stage_any; auto; [apply V| |].
    2: { (* staging failed *)
      intros er w' d y s3 (m & Ew) P Dw N1 E3. apply H. rewrite E3.
      assert (Lw' : len w' <= len w) by (rewrite Ew; unfold len; rewrite firstn_length; lia).
      pose proof (ready_sevs _ _ _ N1 Rd) as Ry. pose proof Ry as (Vy & By & Oy & Soy & Ey & Lsy).
      assert (Ly : len w <= tx_fsr y) by (pose proof (sevs_fsr _ _ _ N1 V); lia).
      destruct (sevs_wr _ _ _ N1) as (W1 & _).
      split; [eapply rxrel_trans; [now apply (rxrel_sevs i); eauto|]; eapply half_staged_rxrel; eauto|].
      split. { intros a Ha Hb. rewrite (half_staged_other _ _ _ _ _ P) by assumption. now rewrite (sevs_regs _ _ _ N1). }
      split; [exact (sevs_dialled _ _ _ N1)|].
      assert (S3 : sent (half_staged y w' d) = sent (sk i s)) by (now destruct (calm_sevs _ _ _ N1 B O) as (_ & _ & _ & _ & _ & ?)).
      destruct P as [-> |[-> | ->]].
      - left. destruct (written_tx y w' Vy ltac:(lia)) as (V3 & A3 & U3).
        split; [exact S3|]. split. { split; [exact V3|]. split; [exact By|]. split; [exact Oy|]. split; [exact Soy|]. split; [exact Ey|exact Lsy]. }
        split; [exact W1|]. split; [unfold written in U3; rewrite U3; now apply (unsent_sevs i)|].
        apply (txgrow_trans _ [] y []); [now apply (txgrow_sevs i)|]. now apply txgrow_same.
      - right. right. left. destruct Dw as [[=]| ->]. split; [exact S3|]. split; [exact By|]. split; [exact Ey|].
        rewrite torn_wr, W1. reflexivity.
      - right. left. destruct Dw as [[=]| ->]. rewrite half_staged_full in *.
        destruct (staged_txv y w Vy Ly) as (V3 & A3 & U3).
        split; [exact S3|]. split. { split; [exact V3|]. split; [exact By|]. split; [exact Oy|]. split; [exact Soy|]. split; [exact Ey|exact Lsy]. }
        split; [rewrite (proj1 (staged_fields y w)), W1; reflexivity|]. split; [rewrite U3; f_equal; now apply (unsent_sevs i)|].
        apply (txgrow_trans _ [] y w); [now apply (txgrow_sevs i)|]. split; [exact V3|]. exists 0%nat. split; [lia|exact A3]. }
    intros y s3 N1 E3.
    pose proof (ready_sevs _ _ _ N1 Rd) as Ry. pose proof Ry as (Vy & By & Oy & Soy & Ey & Lsy).
    assert (Ly : len w <= tx_fsr y) by (pose proof (sevs_fsr _ _ _ N1 V); lia).
    destruct (staged_txv y w Vy Ly) as (V3 & A3 & U3). destruct (sevs_wr _ _ _ N1) as (W1 & _).
    assert (U4 : unsent (sk i s3) = unsent (sk i s) ++ w) by (rewrite E3, U3; f_equal; now apply (unsent_sevs i)).
    assert (R3 : ready (sk i s3)). { rewrite E3. split; [exact V3|]. split; [exact By|]. split; [exact Oy|]. split; [exact Soy|]. split; [exact Ey|exact Lsy]. }
    assert (G3 : txgrow (sk i s) w (sk i s3)).
    { apply (txgrow_trans _ [] y w); [now apply (txgrow_sevs i)|]. rewrite E3. split; [exact V3|]. exists 0%nat. split; [lia|exact A3]. }
    assert (C3 : conn_states (sr (sk i s3))) by (rewrite E3; now apply (conn_sevs i _ _ N1)).
    assert (X3 : rxrel (sk i s) (sk i s3)).
    { eapply rxrel_trans; [now apply (rxrel_sevs i); eauto|]. rewrite E3. apply staged_rxrel. }
    assert (Sent3 : sent (sk i s3) = sent (sk i s)). { rewrite E3. now destruct (calm_sevs _ _ _ N1 B O) as (_ & _ & _ & _ & _ & ?). }
    assert (Dl3 : dialled (sk i s3) = dialled (sk i s)). { rewrite E3. exact (sevs_dialled _ _ _ N1). }
    assert (Rg3 : same_but_wr (sk i s) (sk i s3)).
    { intros a Ha Hb. rewrite E3. unfold staged_of. cbn [regs set_regs]. rewrite tx_regs_other by assumption. now rewrite (sevs_regs _ _ _ N1). }
    assert (W3 : tx_wr (sk i s3) = (tx_wr (sk i s) + len w) mod 65536). { rewrite E3, (proj1 (staged_fields y w)), W1. reflexivity. }
    (* SEND issued at [x] *)
    assert (Fin : forall x z, sevs i (sk i s3) x -> sevs i (do_command i x (command_u8 CmSend)) z ->
      rxrel (sk i s) z /\ same_but_wr (sk i s) z /\ dialled z = dialled (sk i s) /\
      exists l k, sent z = sent (sk i s) ++ l /\ Forall (addressed (regs (sk i s))) l /\ (k <= length (unsent (sk i s) ++ w))%nat /\
        payload l = firstn k (unsent (sk i s) ++ w) /\ tx_wr z = (tx_wr (sk i s) + len w) mod 65536 /\ txgrow (sk i s) w z).
    { intros x z N4 N5. rewrite do_send in N5.
      pose proof (ready_sevs _ _ _ N4 R3) as Rx. pose proof Rx as (Vx & Bx & Ox & Sx & Ex & Lx).
      pose proof (conn_sevs _ _ _ N4 C3) as Cx. pose proof (flight_start x Vx Ex Bx Ox Sx Cx) as F.
      destruct (unsent_flight x Vx Ex) as (L1 & _ & L3).
      assert (F' : flight x (unsent x) z). { apply (flight_sevs i x _ _ _ L1 ltac:(apply Vx) ltac:(apply Vx) L3 N5 F). }
      assert (U : unsent x = unsent (sk i s) ++ w). { rewrite <- U4. destruct R3 as (_ & b & o & _). now apply (unsent_sevs i). }
      set (x4 := if is_sending_state (sr x) then send_of x else x) in *.
      assert (V4 : txv x4). { unfold x4. destruct (is_sending_state (sr x)); [now apply send_of_txv|exact Vx]. }
      assert (Rx4 : regs x4 = regs x) by (unfold x4; now destruct (is_sending_state (sr x))).
      destruct F' as (F1 & F2 & F3 & l & k & F4 & F5 & F6 & F7 & _).
      assert (Rz : regs z = regs (sk i s3)) by (rewrite F2; now apply (sevs_regs i)).
      split. { eapply rxrel_trans; [exact X3|]. eapply rxrel_trans; [now apply (rxrel_sevs i); eauto|].
        eapply rxrel_trans; [|apply (rxrel_sevs i _ _ N5)]. unfold x4. destruct (is_sending_state (sr x)); [apply rxrel_send|apply rxrel_same; reflexivity]. }
      split; [intros a Ha Hb; rewrite Rz; now apply Rg3|].
      split. { rewrite (sevs_dialled _ _ _ N5). transitivity (dialled x); [unfold x4; now destruct (is_sending_state (sr x))|].
        now rewrite (sevs_dialled _ _ _ N4). }
      exists l, k. rewrite <- U. split.
      { rewrite F5. f_equal. destruct R3 as (_ & b & o & _). destruct (calm_sevs _ _ _ N4 b o) as (_ & _ & _ & _ & _ & Es). congruence. }
      split. { eapply Forall_impl; [|exact F6]. intros p Hp. eapply addressed_ext; [|exact Hp]. intros a Ha Hb. rewrite (sevs_regs _ _ _ N4). now apply Rg3. }
      split; [exact F4|]. split; [exact F7|]. split; [unfold tx_wr at 1; rewrite Rz; exact W3|].
      rewrite <- (app_nil_r w). apply (txgrow_trans _ w (sk i s3) []); [exact G3|].
      apply (txgrow_trans _ [] x []); [apply (txgrow_sevs i); [exact N4|apply R3]|].
      apply (txgrow_trans _ [] x4 []); [|now apply (txgrow_sevs i)].
      apply txgrow_same; [exact V4|]. unfold x4. now destruct (is_sending_state (sr x)). }
    assert (Fin' : forall x z er s', sevs i (sk i s3) x -> sevs i (do_command i x (command_u8 CmSend)) z -> sk i s' = z -> Q (Done (Err (TOther er))) s').
    { intros x z er s' N4 N5 E5. destruct (Fin x z N4 N5) as (F1 & F2 & F3 & F4). apply H. rewrite E5.
      split; [exact F1|]. split; [exact F2|]. split; [exact F3|]. right. right. now right. }
    apply wp_try, wp_command_any; auto.
    - intros x s4 N4 E4. cbv beta iota. apply wp_try, (wp_ro eb e i); [apply ro_wait_send_ok|apply es_wait_send_ok| |].
      2: { intros [a|er] s5 Er N5; [now elim Er|]. rewrite E4 in N5. now apply (Fin' x (sk i s5) er s5). }
      apply wp_wait_send_ok; auto.
      intros s5 N5 _. cbv beta iota. rewrite E4 in N5. apply wp_try, wp_reset_interrupt_any; auto.
      + intros z s6 N6 E6. apply wp_ret, Hok.
      + intros er z s6 N6 [E6|E6]; [apply (Fin' x z er s6); auto; eapply sevs_trans; eauto|].
        destruct (Fin x z N4 ltac:(eapply sevs_trans; eauto)) as (F1 & F2 & F3 & l & k & F4 & F5 & F6 & F7 & F8 & F9). apply H. rewrite E6.
        split; [eapply rxrel_trans; [exact F1|apply rxrel_clear_sendok]|]. split; [exact F2|]. split; [exact F3|].
        right. right. right. exists l, k. split; [exact F4|]. split; [exact F5|]. split; [exact F6|]. split; [exact F7|]. split; [exact F8|exact F9].
    - intros er x s4 N4 [E4|E4]; [|apply (Fin' x (sk i s4) er s4); auto; rewrite E4; apply sevs_refl].
      apply H. apply (send_broken_before (sk i s) (sk i s)); [apply sevs_refl|exact Rd|].
      pose proof (ready_sevs _ _ _ N4 R3) as Rx. rewrite E4.
      split; [eapply rxrel_trans; [exact X3|now apply (rxrel_sevs i)]|].
      split; [intros a Ha Hb; rewrite (sevs_regs _ _ _ N4); now apply Rg3|]. split; [now rewrite (sevs_dialled _ _ _ N4)|].
      right. left. destruct R3 as (v3 & b3 & o3 & _). split; [destruct (calm_sevs _ _ _ N4 b3 o3) as (_ & _ & _ & _ & _ & ->); exact Sent3|].
      split; [exact Rx|]. split; [rewrite (proj1 (sevs_wr _ _ _ N4)); exact W3|].
      split; [rewrite (unsent_sevs i _ _ N4 b3 o3); exact U4|].
      rewrite <- (app_nil_r w). apply (txgrow_trans _ w (sk i s3) []); [exact G3|now apply (txgrow_sevs i)].
  Qed.

  Lemma wp_tcp_send_any fuel data (Q : outcome (res N (nberr terr)) -> sys -> Prop) s :
    ready (sk i s) ->
    (forall s' r, ent r = None -> Q (Done r) s') -> (forall s', Q Looping s') ->
    (forall n s' er, n <= len data -> send_broken (sk i s) (take n data) (sk i s') -> Q (Done (Err (NbOther (TOther er)))) s') ->
    wp e (tcp_send fuel (mkTcp (socket_new i)) data) Q s.
  Proof.
    intros Rd Hok HL H. unfold tcp_send, tcp_socket_send. cbn [t_socket].
    assert (Triv : forall er s1, sevs i (sk i s) (sk i s1) -> Q (Done (Err (NbOther (TOther er)))) s1).
    { intros er s1 N1. apply (H 0); [lia|]. now apply send_broken_none. }
    apply wp_try, wp_try, (wp_ro et e i); [apply ro_tcp_is_connected|apply es_tcp_is_connected| |].
    2: { intros [a|[| | |er|]] s1 Er N1; try (now elim Er). now apply Triv. }
    apply wp_tcp_is_connected; auto; [apply Rd|]. intros s1 N1. cbv beta iota.
    destruct (sr (sk i s1) =? SOCK_ESTABLISHED) eqn:Est; cbn [negb]; [apply N.eqb_eq in Est|apply wp_ret; now apply Hok].
    pose proof (ready_sevs _ _ _ N1 Rd) as R1.
    apply wp_try, (wp_ro eb e i); [apply ro_read_then|apply es_get_tx_free_size| |].
    2: { intros [a|er] s2 Er N2; [now elim Er|]. apply Triv. eapply sevs_trans; eauto. }
    apply wp_get_tx_free_size; auto; [apply R1|].
    intros x s2 v N2 N2' Hv _. cbv beta iota.
    assert (N3 : sevs i (sk i s) (sk i s2)) by (eapply sevs_trans; [exact N1|]; eapply sevs_trans; eauto).
    pose proof (ready_sevs _ _ _ N3 Rd) as R2.
    assert (C2 : conn_states (sr (sk i s2))) by (apply (conn_sevs i _ _ N2'), (conn_sevs i _ _ N2); left; exact Est).
    assert (G : forall w n, w = take n data -> n <= len data -> n <= v ->
       wp e (tcp_send_data fuel (mkTcp (socket_new i)) w) (fun o s' => match o with
          | Done (Ok a) => wp e (Ret (Ok a)) Q s' | Done (Err x) => Q (Done (Err (NbOther x))) s' | o => Q (cast o) s' end) s2).
    { intros w n -> Hn Hnv. assert (Ln : len (take n data) = n) by (rewrite len_take; lia).
      apply wp_tcp_send_data_any; [exact R2|exact C2|lia|intros; apply wp_ret; now apply Hok|intros; apply HL|].
      intros s' er D. apply (H n); [exact Hn|]. eapply send_broken_before; eauto. }
    destruct (N.ltb_spec (len data) v) as [Hlt|Hge].
    - apply (G _ (len data)); [now rewrite take_len|lia|lia].
    - apply wp_slice_to; [|lia]. intros _. apply (G _ v); [reflexivity|lia|lia].
  Qed.
End AnySend.

(** ** UDP receive *)
Lemma pkeep_repointed v d y : be_part v d -> rested y -> pkeep y (repointed y d).
Proof.
  intros P (M & V & B & E1 & E2 & E3).
  assert (W : tx_wr (repointed y d) = tx_wr y /\ tx_size (repointed y d) = tx_size y).
  { unfold tx_wr, tx_size, get16. now rewrite !(repointed_other v) by (auto; discriminate). }
  destruct W as (W & Z).
  split. { split; [exact M|]. split; [now rewrite Z|]. split; [exact B|]. rewrite W. auto. }
  do 5 (split; [reflexivity|]). intros a Ha Hb. now apply (repointed_other v).
Qed.
(** after a failing receive, [q0] being the queue before: all datagrams are still in the chip
    (with the read pointer where it was, or not); or those that were waiting when the size was
    read are gone, the first one's data being in the buffer *)
Definition urecv_broken (x : sock) (q0 : list dgram) (buf buf' : list byte) (x' : sock) : Prop :=
  pkeep x x' /\ rxv x' /\ len buf' = len buf /\
  exists q', rxlog x' = rxlog x ++ records q' /\ Forall wf_dgram (q0 ++ q') /\
    ((queue x' (q0 ++ q') /\ rx_base x' = rx_base x) \/
     (rx_rd x' = rx_base x' /\ exists g q later, q0 ++ q' = (g :: q) ++ later /\ queue x' later /\
        len (g_data g) <= len buf /\ take (len (g_data g)) buf' = g_data g)).

Section AnyUdpReceive.
  Context (e : env) (i : N).
  Hypothesis Hi : i < 8.
  Let NF := nofail_no_faults e.
  Context (d : option addr4) (p : N).
  Let so := mkUdp (socket_new i) d p.

  Lemma urecv_broken_none x q0 buf buf' x' : sr x = SOCK_UDP -> rested x -> rready x -> queue x q0 -> len buf' = len buf -> sevs i x x' ->
    urecv_broken x q0 buf buf' x'.
  Proof.
    intros Su R Rr Q0 L N. destruct (sevs_queue i _ _ q0 N Su (proj1 Rr) Q0) as (q1 & Q1 & L1).
    split; [now apply (pkeep_sevs i)|]. split; [now apply (rready_sevs i x)|]. split; [exact L|].
    exists q1. split; [exact L1|]. split; [apply Q1|]. left. split; [exact Q1|now apply (sevs_rx_base i)].
  Qed.
  Lemma urecv_broken_repointed v dd x q0 buf buf' y : be_part v dd -> sr x = SOCK_UDP -> rested x -> rready x -> queue x q0 -> len buf' = len buf -> sevs i x y ->
    urecv_broken x q0 buf buf' (repointed y dd).
  Proof.
    intros P Su R Rr Q0 L N. destruct (sevs_queue i _ _ q0 N Su (proj1 Rr) Q0) as (q1 & Q1 & L1).
    destruct (rested_sevs i _ _ N R) as (Ry & _). destruct (repointed_rx v dd y P) as (_ & _ & E & V).
    split; [eapply pkeep_trans; [now apply (pkeep_sevs i x y)|now apply (pkeep_repointed v)]|].
    split; [apply V, (rready_sevs i x y N Rr)|]. split; [exact L|]. exists q1. split; [exact L1|]. split; [apply Q1|].
    left. split; [unfold queue; rewrite E; exact Q1|]. change (rx_base (repointed y dd)) with (rx_base y). now apply (sevs_rx_base i).
  Qed.

  Lemma wp_udp_receive_any fuel buf q0 (Q : outcome (list byte * res (N * UdpHeader) (nberr uerr)) -> sys -> Prop) s :
    sr (sk i s) = SOCK_UDP -> rested (sk i s) -> rready (sk i s) -> queue (sk i s) q0 ->
    (forall buf' r s', enu r = None -> Q (Done (buf', r)) s') -> (forall w s', Q (Panicked w) s') -> (forall s', Q Looping s') ->
    (forall buf' er s', urecv_broken (sk i s) q0 buf buf' (sk i s') -> Q (Done (buf', Err (NbOther (UOther er)))) s') ->
    wp e (udp_socket_receive fuel so buf) Q s.
  Proof.
    intros Su R Rr Q0 Hok HP HL H. unfold udp_socket_receive. cbn [u_socket so]. cbv zeta.
    assert (Triv : forall er s1, sevs i (sk i s) (sk i s1) -> Q (Done (buf, Err (NbOther (UOther er)))) s1).
    { intros er s1 N1. apply H. now apply urecv_broken_none. }
    apply wp_try, (wp_ro eb e i); [apply ro_read_then|apply es_get_status| |].
    2: { intros [a|er] s1 Er N1; [now elim Er|]. now apply Triv. }
    apply wp_get_status; auto. intros s1 N1. cbv beta iota.
    destruct (rested_sevs i _ _ N1 R) as (_ & _ & _ & _ & _ & S1). rewrite S1, Su. change (udp_status_gate (u8 SOCK_UDP)) with (@Ok unit (nberr uerr) tt).
    cbv iota.
    apply wp_try, (wp_ro eb e i); [apply ro_read_then|apply es_has_interrupt| |].
    2: { intros [a|er] s2 Er N2; [now elim Er|]. apply Triv. eapply sevs_trans; eauto. }
    apply (wp_has_interrupt (nofail e) i NF Hi InReceive 2); [reflexivity|reflexivity|]. intros s2 N2. cbv beta iota.
    assert (N02 : sevs i (sk i s) (sk i s2)) by (eapply sevs_trans; eauto).
    destruct (N.testbit (ir (sk i s2)) 2); cbn [negb]; [|apply wp_ret, Hok; reflexivity].
    pose proof (rready_sevs _ _ _ N02 Rr) as Rr2.
    apply wp_try, (wp_ro eb e i); [apply ro_get_receive_size|apply es_get_receive_size| |].
    2: { intros [a|er] s3 Er N3; [now elim Er|]. apply Triv. eapply sevs_trans; eauto. }
    apply wp_get_receive_size; [exact NF|exact Hi|apply Rr2| |intros; apply HL].
    intros y s3 N3 N3'. cbv beta iota.
    assert (N0y : sevs i (sk i s) y) by (eapply sevs_trans; eauto).
    assert (N03 : sevs i (sk i s) (sk i s3)) by (eapply sevs_trans; eauto).
    destruct (sevs_queue i _ _ q0 N0y Su (proj1 Rr) Q0) as (q1 & Qy & Ly).
    pose proof (rready_sevs _ _ _ N0y Rr) as (Vy & Ey).
    destruct (N.eqb_spec (rx_rsr y) 0) as [Z|Nz]; [apply wp_ret, Hok; reflexivity|].
    destruct (N.eqb_spec (len buf) 0) as [Zb|Nb]; [apply wp_ret, Hok; reflexivity|].
    destruct Qy as (Q1 & Q2). destruct (q0 ++ q1) as [|g q] eqn:Eq.
    { exfalso. rewrite <- len_pending, Q1 in Nz. now apply Nz. }
    pose proof (Forall_inv Q2) as Wg. pose proof (len_record g Wg) as Lg.
    assert (Tot : rx_rsr y = len (records (g :: q))) by (rewrite <- Q1; symmetry; apply len_pending).
    assert (Tge : 8 + len (g_data g) <= len (records (g :: q))) by (unfold records; cbn [map concat]; rewrite len_app, Lg; lia).
    apply wp_try, (wp_ro eb e i); [apply ro_read_then|apply es_get_rx_read_pointer| |].
    2: { intros [a|er] s4 Er N4; [now elim Er|]. apply Triv. eapply sevs_trans; eauto. }
    apply wp_get_rx_read_pointer; auto. intros s4 N4. cbv beta iota.
    assert (N04 : sevs i (sk i s) (sk i s4)) by (eapply sevs_trans; eauto). assert (Ny4 : sevs i y (sk i s4)) by (eapply sevs_trans; eauto).
    pose proof (rready_sevs _ _ _ N04 Rr) as (V4 & E4). pose proof V4 as (Vz & Vw & Vb & Vr).
    destruct (sevs_rx _ _ _ Ny4 Vy) as (_ & c4 & P4 & _ & _ & R4).
    rewrite E4.
    apply wp_try, (wp_ro eb e i); [apply ro_read_reg|apply es_read_reg| |].
    2: { intros [a|er] s5 Er N5; [now elim Er|]. apply Triv. eapply sevs_trans; eauto. }
    unfold read_reg. cbn [bind]. cbn [u_socket]. rewrite so_rx by exact Hi.
    apply (wp_rrx (nofail e) i NF _ _ 0); [exact V4|exact Vb|now rewrite N.add_0_r|change (len (zeros 8)) with 8; lia|].
    intros s5 N5. apply wp_ret. cbn [fst snd]. cbv beta iota.
    change (firstn (length (zeros 8)) (skipn (N.to_nat 0) (pending (sk i s4)))) with (take 8 (pending (sk i s4))).
    destruct (header_of g (records q ++ c4) Wg) as (Hs & Hl). cbv zeta in Hs, Hl.
    assert (Ep : pending (sk i s4) = record_of g ++ (records q ++ c4)).
    { rewrite P4, Q1. unfold records at 1. cbn [map concat]. now rewrite <- app_assoc. }
    rewrite <- Ep in Hs, Hl. rewrite Hl. set (h := udp_header_from _) in *.
    assert (N05 : sevs i (sk i s) (sk i s5)) by (eapply sevs_trans; eauto).
    set (n := N.max (N.min (rx_rsr y) (len buf)) (len (g_data g))).
    apply wp_slice_to; [|intros; apply HP].
    intros Hn. assert (En : n = N.min (rx_rsr y) (len buf)) by (unfold n in *; lia).
    assert (Hd : len (g_data g) <= n) by (unfold n; lia).
    assert (Ln : len (take n buf) = n) by (rewrite len_take; lia).
    pose proof (rready_sevs _ _ _ N5 (conj V4 E4)) as (V5 & E5).
    assert (B5 : rx_base (sk i s5) = rx_base (sk i s4)) by now apply (sevs_rx_base i).
    destruct (sevs_rx _ _ _ N5 V4) as (_ & c5 & P5 & _ & _ & R5).
    apply wp_bind.
    match goal with |- wp e ?q _ _ => set (qq := q) in * end.
    assert (Rl : forall r s6, run e qq s5 = (Done r, s6) -> len (fst r) = n).
    { intros r s6. unfold qq, read_into. cbn [run].
      match goal with |- context [bus_read e ?b ?a ?l s5] => pose proof (bus_read_length e b a l s5) as BL; destruct (bus_read e b a l s5) as [[gg rr] s6'] end.
      intros [= <- <-]. cbn [fst snd] in *. unfold len in *. lia. }
    assert (W : wp e qq (fun o s6 => sevs i (sk i s5) (sk i s6) /\ exists r, o = Done r /\
      (snd r = Ok tt -> exists junk, fst r = g_data g ++ junk)) s5).
    { subst qq. apply (wp_ro (fun gr => eb (snd gr)) e i); [apply ro_read_into|apply es_read_into| |].
      2: { intros [gg [[]|er]] s6 Er N6; [now elim Er|]. split; [exact N6|]. eexists. split; [reflexivity|]. discriminate. }
      unfold read_into.
      apply (wp_rrx_front (nofail e) i NF _ _ 8 (len (g_data g))); [exact V5|apply N.mod_lt; discriminate| |lia|lia|].
      { rewrite B5. unfold wadd16. change (8 mod 65536) with 8. apply mod_wrap. apply V5. }
      intros s6 junk N6 Lj. apply wp_ret. split; [exact N6|]. eexists. split; [reflexivity|]. intros _. cbn [fst]. exists junk. f_equal.
      rewrite P5, Ep. unfold record_of, udp_record. destruct Wg as (Wi & _).
      set (hd := g_ip g ++ [hi (g_port g); lo (g_port g)] ++ [hi (len (g_data g)); lo (len (g_data g))]).
      assert (Lh : len hd = 8) by (unfold hd; rewrite !len_app, Wi; reflexivity). rewrite <- Lh.
      replace (((g_ip g ++ [hi (g_port g); lo (g_port g)] ++ [hi (len (g_data g)); lo (len (g_data g))] ++ g_data g) ++ records q ++ c4) ++ c5)
        with (hd ++ (g_data g ++ (records q ++ c4) ++ c5)) by (unfold hd; rewrite <- !app_assoc; reflexivity).
      rewrite drop_app_exact. apply take_app_exact. }
    eapply wp_from_run; [exact W|]. intros o s6 Rn (N6 & r & -> & Wd). cbv beta iota. specialize (Rl r s6 Rn).
    assert (Lb : len (fst r ++ drop n buf) = len buf) by (rewrite len_app, Rl, len_drop; lia).
    assert (N06 : sevs i (sk i s) (sk i s6)) by (eapply sevs_trans; eauto).
    destruct (snd r) as [[]|er]; [|apply wp_ret, H; now apply urecv_broken_none]. destruct (Wd eq_refl) as (junk & Wf). clear Wd.
    assert (Hv : wadd16 (rx_base (sk i s4)) (as_u16 (rx_rsr y)) = (rx_base (sk i s4) + rx_rsr y) mod 65536).
    { unfold wadd16, as_u16. apply N.add_mod_idemp_r. discriminate. }
    rewrite Hv. set (v := (rx_base (sk i s4) + rx_rsr y) mod 65536). assert (Lv : v < 65536) by (apply N.mod_lt; discriminate).
    (* RECV done *)
    assert (Fin : forall y7 z, sevs i (sk i s6) y7 -> sevs i (recv_of y7 v) z -> urecv_broken (sk i s) q0 buf (fst r ++ drop n buf) z /\ rested z).
    { intros y7 z N7 N8. assert (N07 : sevs i (sk i s) y7) by (eapply sevs_trans; eauto).
      assert (N57 : sevs i (sk i s5) y7) by (eapply sevs_trans; eauto). assert (Ny7 : sevs i y y7) by (eapply sevs_trans; [exact Ny4|eapply sevs_trans; eauto]).
      destruct (rested_sevs i _ _ N07 R) as (R7 & _ & _ & _ & _ & S7). pose proof (rready_sevs _ _ _ N07 Rr) as (V7 & _).
      assert (B7 : rx_base y7 = rx_base (sk i s4)) by (rewrite <- B5; now apply (sevs_rx_base i)).
      destruct (rested_sevs i _ _ N0y R) as (_ & _ & _ & _ & _ & Sy).
      destruct (sevs_queue i y y7 (g :: q) Ny7 ltac:(congruence) Vy (conj Q1 Q2)) as (q7 & (Q7a & Q7b) & L7).
      destruct (sevs_rx _ _ _ Ny7 Vy) as (_ & c7 & _ & _ & _ & R7').
      destruct (recv_rx y7 (rx_rsr y) V7 ltac:(lia)) as (V7r & P7). rewrite B7 in V7r, P7. fold v in V7r, P7.
      assert (P7' : pending (recv_of y7 v) = records q7). { rewrite P7, Q7a, records_app, Tot. apply drop_app_exact. }
      destruct (recv_fields y7 v Lv) as (_ & _ & _ & F1 & F2).
      pose proof (pkeep_recv y7 v Lv R7) as T7. pose proof T7 as (R7s & _ & _ & S7s & _).
      apply Forall_app in Q7b. destruct Q7b as (_ & Q7b).
      destruct (sevs_queue i (recv_of y7 v) z q7 N8 ltac:(congruence) V7r (conj P7' Q7b)) as (q8 & Q8 & L8).
      destruct (rested_sevs i _ _ N8 R7s) as (R8 & _). split; [|exact R8].
      split. { eapply pkeep_trans; [apply (pkeep_sevs i _ _ N07 R)|]. eapply pkeep_trans; [exact T7|]. apply (pkeep_sevs i _ _ N8 R7s). }
      destruct (rready_sevs _ _ _ N8 (conj V7r (eq_trans F1 (eq_sym F2)))) as (V8 & E8). split; [exact V8|]. split; [exact Lb|].
      exists (q1 ++ q7 ++ q8). split.
      { rewrite L8. change (rxlog (recv_of y7 v)) with (rxlog y7). rewrite L7, Ly, !records_app, !app_assoc. reflexivity. }
      split. { rewrite app_assoc, Eq. apply Forall_app. split; [exact Q2|apply Q8]. }
      right. split; [exact E8|]. exists g, q, (q7 ++ q8). split; [rewrite app_assoc, Eq; reflexivity|]. split; [exact Q8|]. split; [lia|].
      rewrite Wf, <- app_assoc. apply take_app_exact. }
    apply wp_recv_any; auto; [apply (rested_sevs i _ _ N06 R)| | |].
    - intros y7 s7 N7 E7. apply wp_try, wp_reset_interrupt_any; auto.
      + intros z s8 N8 E8. apply wp_ret, Hok. reflexivity.
      + intros er z s8 N8 E8. rewrite E7 in N8. destruct (Fin y7 z N7 N8) as (F & Rz). apply H.
        destruct E8 as [-> | ->]; [exact F|]. destruct F as (F1 & F2 & F3). split; [eapply pkeep_trans; [exact F1|now apply pkeep_clear]|].
        split; [exact F2|exact F3].
    - intros er dd y7 s7 P N7 E7. apply H. rewrite E7. apply (urecv_broken_repointed v); auto. eapply sevs_trans; eauto.
    - intros er y7 s7 N7 E7. apply H. rewrite E7. apply (Fin y7); [exact N7|apply sevs_refl].
  Qed.
End AnyUdpReceive.
