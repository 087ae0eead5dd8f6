(** How many bus calls a driver computation can make, for arbitrary bus behaviour. *)
From Verif Require Export AccessFacts.
From Verif Require Import Datasheet.

(** the number of writes among bus calls *)
Definition writes (tr : list event) : nat := length (filter is_write tr).
(** no successful read of a free size (Sn_TX_FSR) answered zero *)
Definition room_read (blk a : N) (got : list byte) : Prop :=
  forall i, i < 8 -> blk = BSB_REG i -> a = Sn_TX_FSR -> from_be got <> 0.
Definition always_room (tr : list event) : Prop :=
  forall blk a got, In (ERead blk a got (Ok tt)) tr -> room_read blk a got.

(** ** At most [w] writes and [n] bus calls, provided the reads that succeed are in [V] *)
Section Costs.
  Context (V : N -> N -> list byte -> Prop).

  Fixpoint costs {A} (w n : nat) (G : A -> Prop) (p : prog A) {struct p} : Prop :=
    match p with
    | Ret a => G a
    | Panic _ | Spin => True
    | BusRead b a d k => match n with
        | O => False
        | S n' => forall got r, length got = length d -> (r = Ok tt -> V b a got) -> costs w n' G (k (got, r))
        end
    | BusWrite b a d k => match w, n with
        | S w', S n' => forall r, costs w' n' G (k r)
        | _, _ => False
        end
    end.

  Lemma costs_mono {A} (G G' : A -> Prop) p : forall w n w' n', (w <= w')%nat -> (n <= n')%nat ->
    (forall a, G a -> G' a) -> costs w n G p -> costs w' n' G' p.
  Proof.
    induction p as [a|x| |b a d k IH|b a d k IH]; cbn [costs]; intros w n w' n' Hw Hn HG H; auto.
    - destruct n as [|n]; [contradiction|]. destruct n' as [|n']; [lia|]. intros got r L Hr. apply (IH _ w n); auto; lia.
    - destruct w as [|w]; [contradiction|]. destruct n as [|n]; [contradiction|]. destruct w' as [|w']; [lia|]. destruct n' as [|n']; [lia|].
      intros r. apply (IH _ w n); auto; lia.
  Qed.
  Lemma costs_bind {A B} (G : A -> Prop) (G' : B -> Prop) p f w2 n2 : forall w1 n1, costs w1 n1 G p ->
    (forall a, G a -> costs w2 n2 G' (f a)) -> costs (w1 + w2) (n1 + n2) G' (bind p f).
  Proof.
    induction p as [a|x| |b a d k IH|b a d k IH]; cbn [bind costs]; intros w1 n1 H Hf; auto.
    - apply (costs_mono G' G' _ w2 n2); auto; lia.
    - destruct n1 as [|n1]; [contradiction|]. cbn [Nat.add]. auto.
    - destruct w1 as [|w1]; [contradiction|]. destruct n1 as [|n1]; [contradiction|]. cbn [Nat.add]. auto.
  Qed.
  Lemma costs_try {A E B} (G : res A E -> Prop) (G' : B -> Prop) (p : prog (res A E)) h k w1 n1 w2 n2 : costs w1 n1 G p ->
    (forall a, G (Ok a) -> costs w2 n2 G' (k a)) -> (forall e, G (Err e) -> G' (h e)) -> costs (w1 + w2) (n1 + n2) G' (try_ p h k).
  Proof. intros Hp Hk Hh. unfold try_. apply (costs_bind G); auto. intros [a|e]; cbn; auto. Qed.
  Lemma costs_slice_to {B} x n l (k : list byte -> prog B) G w m :
    (n <= len l -> costs w m G (k (take n l))) -> costs w m G (slice_to x n l k).
  Proof. intros H. unfold slice_to. destruct (N.leb_spec n (len l)); cbn; auto. Qed.
  Lemma costs_slice_from {B} x n l (k : list byte -> prog B) G w m :
    (n <= len l -> costs w m G (k (drop n l))) -> costs w m G (slice_from x n l k).
  Proof. intros H. unfold slice_from. destruct (N.leb_spec n (len l)); cbn; auto. Qed.

  Lemma exec_costs {A} (G : A -> Prop) p tr o : exec p tr o -> forall w n, costs w n G p ->
    (forall b a got, In (ERead b a got (Ok tt)) tr -> V b a got) -> (writes tr <= w)%nat /\ (length tr <= n)%nat.
  Proof.
    induction 1 as [p|a|x| |b a d k got r tr o L X IH|b a d k r tr o X IH]; intros w n C Hv; try (cbn; lia).
    - cbn in C. destruct n as [|n]; [contradiction|]. destruct (IH w n) as [W T].
      + apply C; auto. intros ->. apply Hv. now left.
      + intros. apply Hv. now right.
      + unfold writes in *. cbn. lia.
    - cbn in C. destruct w as [|w]; [contradiction|]. destruct n as [|n]; [contradiction|]. destruct (IH w n) as [W T].
      + apply C.
      + intros. apply Hv. now right.
      + unfold writes in *. cbn. lia.
  Qed.
End Costs.

Definition Any {A} (_ : A) : Prop := True.
Ltac red1 := cbn [command reset_interrupt has_interrupt set_mode get_status set_interrupt_mask set_source_port set_destination_ip set_destination_port
  get_tx_read_pointer set_tx_read_pointer get_tx_write_pointer set_tx_write_pointer get_rx_read_pointer set_rx_read_pointer get_tx_free_size
  write_frame read_reg read_into try_ bind costs fst snd].
Ltac straight := repeat first [exact Logic.I | progress red1
  | match goal with
    | |- forall r : res unit berr, _ => intros [[]|]
    | |- forall (got : list byte) (r : res unit berr), _ => let g := fresh "got" in let r := fresh "r" in intros g r _ _; destruct r as [[]|]
    | |- costs _ _ _ _ (if ?b then _ else _) => destruct b
    | |- costs _ _ _ _ (bind (if ?b then _ else _) _) => destruct b
    end].

Section Calls.
  Context (V : N -> N -> list byte -> Prop).
  Notation costs := (costs V).

  Lemma c_receive_size fuel s : costs 0 (2 * fuel) Any (get_receive_size fuel s).
  Proof.
    induction fuel as [|fuel IH]; [exact Logic.I|]. replace (2 * S fuel)%nat with (S (S (2 * fuel))) by lia.
    cbn [get_receive_size]. cbn [try_ read_reg bind costs]. intros g0 r0 _ _. cbn [fst snd]. destruct r0 as [[]|]; [|exact Logic.I].
    cbn [costs bind]. intros g1 r1 _ _. cbn [fst snd]. destruct r1 as [[]|]; [|exact Logic.I]. cbn [bind]. destruct bytes_eqb; [exact Logic.I|exact IH].
  Qed.
  Lemma c_wait_send_ok fuel s : costs 0 fuel Any (wait_send_ok fuel s).
  Proof.
    induction fuel as [|fuel IH]; [exact Logic.I|]. cbn [wait_send_ok]. unfold has_interrupt. cbn [try_ read_reg bind costs].
    intros g0 r0 _ _. cbn [fst snd]. destruct r0 as [[]|]; [|exact Logic.I]. cbn [bind]. destruct negb; [exact Logic.I|exact IH].
  Qed.
  Lemma c_tcp_socket_close t : costs 2 2 Any (tcp_socket_close t).
  Proof. unfold tcp_socket_close. straight. Qed.
  Lemma c_tcp_reopen t : costs 5 5 Any (tcp_reopen t).
  Proof. unfold tcp_reopen. straight. Qed.
  Lemma c_connect_wait fuel t : costs 7 (fuel + 7) Any (tcp_connect_wait fuel t).
  Proof.
    induction fuel as [|fuel IH]; [exact Logic.I|]. cbn [tcp_connect_wait]. unfold get_status. cbn [try_ read_reg bind costs Nat.add].
    intros g0 r0 _ _. cbn [fst snd]. destruct r0 as [[]|]; [|exact Logic.I]. cbn [bind].
    destruct (status_try_from _) as [[]|]; try exact IH; try exact Logic.I.
    apply (costs_mono V Any Any _ (2 + 5) (2 + 5)); auto; try lia. apply (costs_bind V Any).
    - apply c_tcp_socket_close.
    - intros [[]|] _; [apply c_tcp_reopen|exact Logic.I].
  Qed.
  Lemma c_tcp_do_connect fuel t r : costs 10 (fuel + 10) Any (tcp_do_connect fuel t r).
  Proof.
    unfold tcp_do_connect. replace (fuel + 10)%nat with (S (S (S (fuel + 7)))) by lia.
    cbn [try_ set_destination_ip set_destination_port command write_frame bind costs].
    intros [[]|]; [|exact Logic.I]. cbn [bind costs]. intros [[]|]; [|exact Logic.I]. cbn [bind costs]. intros [[]|]; [|exact Logic.I].
    apply c_connect_wait.
  Qed.
  Lemma c_tcp_socket_connect fuel t r : costs 17 (fuel + 18) Any (tcp_socket_connect fuel t r).
  Proof.
    unfold tcp_socket_connect, get_status. replace (fuel + 18)%nat with (S (fuel + 17)) by lia. cbn [try_ read_reg bind costs].
    intros g0 r0 _ _. cbn [fst snd]. destruct r0 as [[]|]; [|exact Logic.I]. cbn [bind].
    assert (Q : costs 17 (fuel + 17) Any (try a <- tcp_socket_close t else Err ;; try b <- tcp_reopen t else Err ;; tcp_do_connect fuel t r)).
    { apply (costs_mono V Any Any _ (2 + (5 + 10)) (2 + (5 + (fuel + 10)))); auto; try lia.
      apply (costs_try V Any); [apply c_tcp_socket_close| |intros; exact Logic.I]. intros _ _.
      apply (costs_try V Any); [apply c_tcp_reopen| |intros; exact Logic.I]. intros _ _. apply c_tcp_do_connect. }
    destruct (status_try_from _) as [[]|]; try exact Q; try exact Logic.I.
    apply (costs_mono V Any Any _ 10 (fuel + 10)); auto; try lia. apply c_tcp_do_connect.
  Qed.
  Lemma c_tcp_connect fuel t r : costs 23 (fuel + 24) Any (tcp_connect fuel t r).
  Proof.
    destruct r as [r|]; [|exact Logic.I]. cbn [tcp_connect]. apply (costs_mono V Any Any _ (6 + (17 + 0)) (6 + ((fuel + 18) + 0))); auto; try lia.
    apply (costs_try V Any); [unfold tcp_open, tcp_is_connected, udp_socket_close, udp_set_port; straight| |intros; exact Logic.I]. intros _ _.
    apply (costs_try V Any); [apply c_tcp_socket_connect|intros; exact Logic.I|intros; exact Logic.I].
  Qed.
  Lemma c_tcp_send_data fuel t d : costs 4 (fuel + 5) Any (tcp_send_data fuel t d).
  Proof.
    unfold tcp_send_data. apply (costs_mono V Any Any _ (0 + (3 + (0 + 1))) (1 + (3 + (fuel + 1)))); auto; try lia.
    apply (costs_try V Any); [unfold tcp_open, tcp_is_connected, udp_socket_close, udp_set_port; straight| |intros; exact Logic.I]. intros wp _.
    change (costs 4 (S (S (S (fuel + 1)))) Any (try a <- write_frame (tx_buffer (t_socket t)) wp d else tE ;;
      try b <- set_tx_write_pointer (t_socket t) (wadd16 wp (as_u16 (len d))) else tE ;; try c <- command (t_socket t) CmSend else tE ;;
      try d0 <- wait_send_ok fuel (t_socket t) else tE ;; try e <- reset_interrupt (t_socket t) InSendOk else tE ;; Ret (Ok (len d)))).
    cbn [try_ set_tx_write_pointer command write_frame bind costs].
    intros [[]|]; [|exact Logic.I]. cbn [bind costs]. intros [[]|]; [|exact Logic.I]. cbn [bind costs]. intros [[]|]; [|exact Logic.I].
    apply (costs_bind V Any _ _ _ 1 1 0 fuel); [apply c_wait_send_ok|]. intros [[]|] _; [|exact Logic.I]. straight.
  Qed.
  Lemma c_tcp_send fuel t d : costs 4 (fuel + 7) Any (tcp_send fuel t d).
  Proof.
    unfold tcp_send. apply (costs_mono V Any Any _ (4 + 0) (fuel + 7 + 0)); auto; try lia.
    apply (costs_try V Any); [|intros; exact Logic.I|intros; exact Logic.I]. unfold tcp_socket_send.
    apply (costs_mono V Any Any _ (0 + (0 + 4)) (1 + (1 + (fuel + 5)))); auto; try lia.
    apply (costs_try V Any); [unfold tcp_open, tcp_is_connected, udp_socket_close, udp_set_port; straight| |intros; exact Logic.I]. intros conn _. destruct conn; cbn [negb]; [|exact Logic.I].
    apply (costs_try V Any); [unfold tcp_open, tcp_is_connected, udp_socket_close, udp_set_port; straight| |intros; exact Logic.I]. intros free _. destruct (len d <? free); [apply c_tcp_send_data|].
    apply costs_slice_to. intros _. apply c_tcp_send_data.
  Qed.
  Lemma c_tcp_receive_data t n d : costs 3 5 Any (tcp_receive_data t n d).
  Proof. unfold tcp_receive_data. straight. Qed.
  Lemma c_tcp_receive fuel t d : costs 3 (2 * fuel + 7) Any (tcp_receive fuel t d).
  Proof.
    unfold tcp_receive. apply (costs_mono V Any Any _ (3 + 0) (2 * fuel + 7 + 0)); auto; try lia.
    apply (costs_bind V Any); [|intros; exact Logic.I]. unfold tcp_socket_receive.
    apply (costs_mono V Any Any _ (0 + (0 + (0 + 3))) (1 + (1 + (2 * fuel + 5)))); auto; try lia.
    apply (costs_try V Any); [unfold tcp_open, tcp_is_connected, udp_socket_close, udp_set_port; straight| |intros; exact Logic.I]. intros conn _. destruct conn; cbn [negb]; [|exact Logic.I].
    apply (costs_try V Any); [unfold tcp_open, tcp_is_connected, udp_socket_close, udp_set_port; straight| |intros; exact Logic.I]. intros has _. destruct has; cbn [negb]; [|exact Logic.I].
    apply (costs_try V Any); [apply c_receive_size| |intros; exact Logic.I]. intros sz _.
    destruct (len d <? sz); [apply c_tcp_receive_data|]. destruct (sz <=? len d); [apply c_tcp_receive_data|exact Logic.I].
  Qed.
  Lemma c_tcp_close ds t : costs 2 2 Any (tcp_close ds t).
  Proof.
    unfold tcp_close. apply (costs_mono V Any Any _ (2 + 0) (2 + 0)); auto; try lia.
    apply (costs_try V Any); [apply c_tcp_socket_close| |intros; exact Logic.I]. intros _ _. destruct release_socket; exact Logic.I.
  Qed.
  Lemma c_udp_close ds u : costs 2 2 Any (udp_close ds u).
  Proof.
    unfold udp_close. apply (costs_mono V Any Any _ (2 + 0) (2 + 0)); auto; try lia.
    apply (costs_try V Any); [unfold tcp_open, tcp_is_connected, udp_socket_close, udp_set_port; straight| |intros; exact Logic.I]. intros _ _. destruct release_socket; exact Logic.I.
  Qed.
  Lemma c_udp_open u : costs 6 6 Any (udp_open u).
  Proof. unfold udp_open. straight. Qed.
  Lemma c_udp_set_destination u r : costs 2 2 Any (udp_set_destination u r).
  Proof. unfold udp_set_destination. destruct (match u_dest u with Some _ => _ | None => _ end); straight. Qed.
  Lemma c_udp_connect u r : costs 8 8 Any (udp_connect u r).
  Proof.
    destruct r as [r|]; [|exact Logic.I]. apply (costs_try V Any _ _ _ _ 6 6 2 2); [apply c_udp_open| |intros; exact Logic.I].
    intros _ _. apply c_udp_set_destination.
  Qed.
  Lemma c_udp_bind u p : costs 7 7 Any (udp_bind u p).
  Proof.
    apply (costs_bind V Any _ _ _ 6 6 1 1); [unfold tcp_open, tcp_is_connected, udp_socket_close, udp_set_port; straight|]. intros [u' r] _. cbn [fst snd]. destruct r as [[]|]; [|exact Logic.I].
    apply (costs_try V Any _ _ _ _ 6 6 0 0); [apply c_udp_open|intros; exact Logic.I|intros; exact Logic.I].
  Qed.
  Lemma c_udp_receive fuel u buf : costs 3 (2 * fuel + 8) Any (udp_receive fuel u buf).
  Proof.
    unfold udp_receive. apply (costs_mono V Any Any _ (3 + 0) (2 * fuel + 8 + 0)); auto; try lia.
    apply (costs_bind V Any); [|intros; exact Logic.I]. unfold udp_socket_receive.
    apply (costs_mono V Any Any _ (0 + (0 + (0 + 3))) (1 + (1 + (2 * fuel + 6)))); auto; try lia.
    apply (costs_try V Any); [unfold tcp_open, tcp_is_connected, udp_socket_close, udp_set_port; straight| |intros; exact Logic.I]. intros st _. destruct udp_status_gate; [|exact Logic.I].
    apply (costs_try V Any); [unfold tcp_open, tcp_is_connected, udp_socket_close, udp_set_port; straight| |intros; exact Logic.I]. intros has _. destruct has; cbn [negb]; [|exact Logic.I].
    apply (costs_try V Any); [apply c_receive_size| |intros; exact Logic.I]. intros sz _.
    destruct (sz =? 0); [exact Logic.I|]. cbv zeta. destruct (len buf =? 0); [exact Logic.I|].
    apply (costs_try V Any _ _ _ _ 0 1 3 5); [unfold tcp_open, tcp_is_connected, udp_socket_close, udp_set_port; straight| |intros; exact Logic.I]. intros rp _.
    apply (costs_try V Any _ _ _ _ 0 1 3 4); [unfold tcp_open, tcp_is_connected, udp_socket_close, udp_set_port; straight| |intros; exact Logic.I]. intros hd _. apply costs_slice_to. intros _. straight.
  Qed.
  Lemma c_flush fuel u : costs 1 (2 * fuel + 3) Any (udp_flush_loop fuel u).
  Proof.
    induction fuel as [|fuel IH]; [exact Logic.I|]. cbn [udp_flush_loop].
    replace (2 * S fuel + 3)%nat with (S (S (2 * fuel + 3))) by lia. unfold udp_try_flush_tx, get_tx_read_pointer, get_tx_write_pointer.
    cbn [try_ read_reg bind costs]. intros g0 r0 _ _. cbn [fst snd]. destruct r0 as [[]|]; [|exact Logic.I]. cbn [bind costs].
    intros g1 r1 _ _. cbn [fst snd]. destruct r1 as [[]|]; [|exact Logic.I]. cbn [bind]. destruct (from_be g0 =? from_be g1); [|exact IH].
    apply (costs_mono V Any Any _ 1 3); auto; try lia. straight.
  Qed.
  Lemma c_udp_send_data fuel u d : costs 4 (2 * fuel + 7) (fun r => forall k, r = Ok k -> k = len d) (udp_send_data fuel u d).
  Proof.
    unfold udp_send_data. apply (costs_mono V (fun r => forall k, r = Ok k -> k = len d) (fun r => forall k, r = Ok k -> k = len d) _ (0 + (1 + (1 + (1 + (1 + 0))))) (1 + (1 + (1 + (1 + (2 * fuel + 3) + 0))))); auto; try lia.
    apply (costs_try V Any); [unfold tcp_open, tcp_is_connected, udp_socket_close, udp_set_port; straight| |intros e _ k; discriminate]. intros wp _.
    apply (costs_try V Any); [unfold tcp_open, tcp_is_connected, udp_socket_close, udp_set_port; straight| |intros e _ k; discriminate]. intros _ _.
    apply (costs_try V Any); [unfold tcp_open, tcp_is_connected, udp_socket_close, udp_set_port; straight| |intros e _ k; discriminate]. intros _ _.
    change (1 + (1 + 0))%nat with (2 + 0)%nat. apply (costs_try V Any); [|intros _ _ k [= <-]; reflexivity|intros e _ k; discriminate].
    apply (costs_try V Any _ _ _ _ 1 1 1 (2 * fuel + 3)); [unfold tcp_open, tcp_is_connected, udp_socket_close, udp_set_port; straight| |intros; exact Logic.I]. intros _ _. apply c_flush.
  Qed.
  Lemma c_set_port u p : costs 1 1 Any (udp_set_port u p).
  Proof. unfold udp_set_port. straight. Qed.
  Lemma c_devop q : costs 1 1 Any (run_devop q).
  Proof. destruct q; cbn [run_devop]; unfold dev_gateway, dev_subnet_mask, dev_mac, dev_ip, dev_phy_config, dev_version, dev_current_retry_timeout, dev_current_retry_count, dev_set_mode, dev_set_retry_timeout, dev_set_retry_count, reset_device; straight. Qed.
  Lemma c_sockop fuel s q : costs 1 (2 * fuel + 1) Any (run_sockop fuel s q).
  Proof.
    destruct q; cbn [run_sockop]; try solve [apply (costs_mono V Any Any _ 1 1); auto; try lia; straight].
    apply (costs_mono V Any Any _ (0 + 0) (2 * fuel + 0)); auto; try lia. apply (costs_bind V Any); [apply c_receive_size|intros; exact Logic.I].
  Qed.
End Calls.

(** ** UDP sends: progress needs the chip to have room *)
Section Udp.
  Context (i : N) (Hi : i < 8) (dest : option addr4) (port : N).
  Notation so := (mkUdp (socket_new i) dest port).
  Notation C := (costs room_read).

  Lemma c_free_size : C 0 1 (fun r => forall k, r = Ok k -> 0 < k) (get_tx_free_size (socket_new i)).
  Proof.
    unfold get_tx_free_size. cbn [try_ read_reg bind costs]. intros got r _ H. cbn [fst snd]. destruct r as [[]|]; cbn [bind costs].
    - intros k [= <-]. enough (from_be got <> 0) by lia. apply (H eq_refl i); auto. apply (reg_blk i Hi).
    - intros k; discriminate.
  Qed.
  Lemma c_socket_send fuel w : 0 < len w -> C 4 (2 * fuel + 9) (fun r => forall k, r = Ok k -> 0 < k) (udp_socket_send fuel so w).
  Proof.
    intros L. unfold udp_socket_send. cbn [u_socket u_dest].
    apply (costs_mono room_read (fun r => forall k, r = Ok k -> 0 < k) (fun r => forall k, r = Ok k -> 0 < k) _ (0 + (0 + 4)) (1 + (1 + (2 * fuel + 7)))); auto; try lia.
    apply (costs_try room_read Any); [straight| |intros e _ k; discriminate]. intros st _. destruct udp_status_gate; [|intros k; discriminate].
    destruct dest as [r|] eqn:Ed; [|intros k; discriminate]. rewrite <- Ed.
    apply (costs_try room_read (fun r => forall k, r = Ok k -> 0 < k)); [apply c_free_size| |intros e _ k; discriminate]. intros free Hf. specialize (Hf free eq_refl).
    destruct (N.eqb_spec free 0); [intros k; discriminate|]. destruct (len w <? free).
    - eapply costs_mono; [apply le_n|apply le_n| |apply c_udp_send_data]. intros ? H k E. rewrite (H k E). exact L.
    - apply costs_slice_to. intros Hl. eapply costs_mono; [apply le_n|apply le_n| |apply c_udp_send_data]. intros ? H k E. rewrite (H k E), len_take. lia.
  Qed.
  Lemma c_send_loop fuel d : forall outer free total m, 0 < free -> (N.to_nat (len d - total) <= m)%nat ->
    C (4 * m) ((2 * fuel + 10) * m) Any (udp_send_loop outer fuel so d free total).
  Proof.
    induction outer as [|outer IH]; intros free total m Hf Hm; cbn [udp_send_loop]; (destruct (N.eqb_spec total (len d)) as [|Hne]; [exact Logic.I|]);
      [exact Logic.I|].
    apply costs_slice_from. intros Ht. cbv zeta. apply costs_slice_to. intros Hl.
    assert (Lr : 0 < len (drop total d)) by (rewrite len_drop; lia).
    destruct m as [|m]; [lia|].
    apply (costs_mono room_read Any Any _ (4 + (0 + 4 * m)) ((2 * fuel + 9) + (1 + (2 * fuel + 10) * m))); auto; try lia.
    apply (costs_try room_read (fun r => forall k, r = Ok k -> 0 < k)); [apply c_socket_send; rewrite len_take; lia| |intros; exact Logic.I].
    intros sent Hs. specialize (Hs sent eq_refl).
    apply (costs_try room_read (fun r => forall k, r = Ok k -> 0 < k)); [apply c_free_size| |intros; exact Logic.I].
    intros free' Hf'. apply IH; [now apply Hf'|lia].
  Qed.
  Lemma c_udp_send fuel d : C (4 * length d) ((2 * fuel + 10) * length d + 2) Any (udp_send fuel so d).
  Proof.
    unfold udp_send, udp_send_all. cbn [u_socket u_dest].
    apply (costs_mono room_read Any Any _ (0 + (0 + 4 * length d)) (1 + (1 + (2 * fuel + 10) * length d))); auto; try lia.
    apply (costs_try room_read Any); [straight| |intros; exact Logic.I]. intros st _. destruct udp_status_gate; [|exact Logic.I].
    destruct dest as [r|] eqn:Ed; [|exact Logic.I]. rewrite <- Ed.
    apply (costs_try room_read (fun r => forall k, r = Ok k -> 0 < k)); [apply c_free_size| |intros; exact Logic.I]. intros free Hf.
    destruct (free =? 0); [exact Logic.I|]. apply c_send_loop; [now apply Hf|]. unfold len. lia.
  Qed.
End Udp.
Lemma c_udp_send_to i fuel dest port r d : i < 8 ->
  costs room_read (4 * length d + 2) ((2 * fuel + 10) * length d + 4) Any (udp_send_to fuel (mkUdp (socket_new i) dest port) r d).
Proof.
  intros Hi. destruct r as [r|]; [|exact Logic.I]. cbn [udp_send_to]. unfold udp_send_to_v4.
  apply (costs_mono room_read Any Any _ (2 + (4 * length d)) (2 + ((2 * fuel + 10) * length d + 2))); auto; try lia.
  apply (costs_bind room_read (fun x => exists dst, fst x = mkUdp (socket_new i) dst port)).
  - unfold udp_set_destination. cbn [u_dest u_socket u_port]. destruct (match dest with Some _ => _ | None => _ end); [|cbn; eauto].
    unfold set_destination_ip, set_destination_port. cbn [try_ write_frame bind costs]. intros [[]|]; cbn [bind costs]; [|cbn; eauto].
    intros [[]|]; cbn [bind costs fst]; eauto.
  - intros [u q] [dst E]. cbn [fst snd] in *. subst u. destruct q as [[]|]; [|exact Logic.I].
    apply (costs_mono room_read Any Any _ (4 * length d + 0) (((2 * fuel + 10) * length d + 2) + 0)); auto; try lia.
    apply (costs_bind room_read Any); [apply (c_udp_send i Hi)|intros; exact Logic.I].
Qed.

(** ** Every call of a program *)
(** writes a call can make, waiting included *)
Definition most_writes (o : op) : nat :=
  match o with
  | OpTcpConnect _ _ => 23
  | OpTcpSend _ _ => 4
  | OpTcpReceive _ _ | OpUdpReceive _ _ => 3
  | OpTcpClose _ | OpUdpClose _ => 2
  | OpUdpConnect _ _ => 8
  | OpUdpBind _ _ => 7
  | OpUdpSend _ d => 4 * length d
  | OpUdpSendTo _ _ d => 4 * length d + 2
  | OpDevice _ | OpUdpSetPort _ _ | OpSocket _ _ => 1
  | OpTakeSocket | OpReleaseSocket _ | OpTcpSocket | OpUdpSocket | OpForget _ | OpSuspend => 0
  end.
(** bus calls a call can make that goes round its waiting loops at most [polls] times *)
Definition most_calls (polls : nat) (o : op) : nat :=
  match o with
  | OpTcpConnect _ _ => polls + 24
  | OpTcpSend _ _ => polls + 7
  | OpTcpReceive _ _ => 2 * polls + 7
  | OpUdpReceive _ _ => 2 * polls + 8
  | OpTcpClose _ | OpUdpClose _ => 2
  | OpUdpConnect _ _ => 8
  | OpUdpBind _ _ => 7
  | OpUdpSend _ d => (2 * polls + 10) * length d + 2
  | OpUdpSendTo _ _ d => (2 * polls + 10) * length d + 4
  | OpSocket _ _ => 2 * polls + 1
  | OpDevice _ | OpUdpSetPort _ _ => 1
  | OpTakeSocket | OpReleaseSocket _ | OpTcpSocket | OpUdpSocket | OpForget _ | OpSuspend => 0
  end.
Definition udp_sending (o : op) : bool := match o with OpUdpSend _ _ | OpUdpSendTo _ _ _ => true | _ => false end.

Lemma bind_ret V {A B} (p : prog A) (f : A -> B) w n : costs V w n Any p -> costs V w n Any (bind p (fun r => Ret (f r))).
Proof.
  intros H. apply (costs_mono V Any Any _ (w + 0) (n + 0)); auto; try lia. apply (costs_bind V Any); [exact H|intros; exact Logic.I].
Qed.
Lemma c_step_other V fuel a o : udp_sending o = false -> costs V (most_writes o) (most_calls fuel o) Any (step fuel a o).
Proof.
  intros E. destruct o; cbn [udp_sending] in E; try discriminate E; cbn [step most_writes most_calls];
    try (destruct (lookup _ (handles a)) as [[]|]; try exact Logic.I).
  - destruct (take_socket (dev a)) as [? []]; exact Logic.I.
  - destruct release_socket; exact Logic.I.
  - destruct (tcp_socket (dev a)) as [? []]; exact Logic.I.
  - apply bind_ret, c_tcp_connect.
  - apply bind_ret, c_tcp_send.
  - apply (bind_ret V _ (fun r => (a, RTcpReceive (fst r) (snd r)))), c_tcp_receive.
  - apply (bind_ret V _ (fun r => (consume a (fst r) h, RTcpClose (snd r)))), c_tcp_close.
  - destruct (udp_socket (dev a)) as [? []]; exact Logic.I.
  - apply (bind_ret V _ (fun r => (put a h (HUdp (fst r)), RUdpUnit (snd r)))), c_udp_connect.
  - apply (bind_ret V _ (fun r => (put a h (HUdp (fst r)), RUdpUnit (snd r)))), c_udp_bind.
  - apply (bind_ret V _ (fun r => (a, RUdpReceive (fst r) (snd r)))), c_udp_receive.
  - apply (bind_ret V _ (fun r => (consume a (fst r) h, RUdpUnit (snd r)))), c_udp_close.
  - exact Logic.I.
  - exact Logic.I.
  - apply bind_ret, c_devop.
  - apply (bind_ret V _ (fun r => (put a h (HUdp (fst r)), RUdpUnit (snd r)))), c_set_port.
  - apply bind_ret, c_sockop.
Qed.
Lemma c_step_udp fuel a o : pool_inv a -> udp_sending o = true -> costs room_read (most_writes o) (most_calls fuel o) Any (step fuel a o).
Proof.
  intros I E. destruct o; cbn [udp_sending] in E; try discriminate E; cbn [step most_writes most_calls];
    (destruct (lookup h (handles a)) as [[|t|u]|] eqn:L; try exact Logic.I);
    destruct (pi_lookup _ _ _ I L) as (j & Hj & Ej & _); destruct u as [s dest port]; cbn [handle_socket u_socket] in Ej; subst s.
  - apply bind_ret. now apply (c_udp_send j).
  - apply (bind_ret room_read _ (fun r => (put a h (HUdp (fst r)), RUdpSend (snd r)))). now apply (c_udp_send_to j).
Qed.

(** ** Initialisation and MACRAW *)
Definition most_raw_writes (o : rawop) : nat :=
  match o with RwEnable _ | RwDisable => 2 | RwClear => 1 | RwRead _ => 2 | RwWrite _ => 4 end.
Definition most_raw_calls (polls : nat) (o : rawop) : nat :=
  match o with RwEnable _ | RwDisable => 2 | RwClear => 1 | RwRead _ => 2 * polls + 5 | RwWrite _ => polls + 6 end.

Section Raw.
  Context (V : N -> N -> list byte -> Prop).
  Notation costs := (costs V).
  Lemma c_rx_read s c buf : costs 0 1 Any (rx_read s c buf).
  Proof. unfold rx_read. destruct buf; [exact Logic.I|]. apply costs_slice_to. intros _. straight. Qed.
  Lemma c_rx_upto s c buf m : costs 0 1 Any (rx_read_upto s c buf m).
  Proof.
    unfold rx_read_upto. destruct (m <? len buf); [|apply c_rx_read]. apply costs_slice_to. intros _.
    apply (bind_ret V _ (fun r => (fst r ++ drop m buf, snd r))), c_rx_read.
  Qed.
  Lemma c_read_body s c x f : costs 2 3 Any (raw_read_body s c x f).
  Proof.
    unfold raw_read_body. apply (costs_bind V Any _ _ _ 2 2 0 1); [apply c_rx_upto|]. intros [b r] _. cbn [fst snd]. destruct r as [[c' n]|]; [|exact Logic.I].
    unfold rx_commit. straight.
  Qed.
  Lemma c_raw_read fuel s f : costs 2 (2 * fuel + 5) Any (raw_read_frame fuel (mkRaw s) f).
  Proof.
    unfold raw_read_frame. cbn [raw_socket]. apply (costs_mono V Any Any _ (0 + (0 + 2)) ((2 * fuel + 1) + (1 + 3))); auto; try lia.
    apply (costs_try V Any); [| |intros; exact Logic.I].
    - unfold rx_new. apply (costs_try V Any _ _ _ _ 0 _ 0 1); [apply c_receive_size| |intros; exact Logic.I]. intros. straight.
    - intros c _. destruct (available c =? 0); [exact Logic.I|]. apply (costs_bind V Any); [apply c_rx_read|].
      intros [b r] _. cbn [fst snd]. destruct r as [[c' n]|]; [|exact Logic.I]. destruct (snd (c', n) =? 2); [apply c_read_body|exact Logic.I].
  Qed.
  Lemma c_raw_write fuel s f : costs 4 (fuel + 6) Any (raw_write_frame fuel (mkRaw s) f).
  Proof.
    unfold raw_write_frame. cbn [raw_socket]. apply (costs_mono V Any Any _ (1 + (0 + (1 + (2 + (0 + 0))))) (1 + (2 + (1 + (2 + (fuel + 0)))))); auto; try lia.
    apply (costs_try V Any); [straight| |intros; exact Logic.I]. intros _ _.
    apply (costs_try V Any); [unfold tx_new; straight| |intros; exact Logic.I]. intros c _.
    apply (costs_try V Any); [| |intros; exact Logic.I].
    - unfold tx_write. destruct orb; [exact Logic.I|]. apply costs_slice_to. intros _. straight.
    - intros cn _. apply (costs_try V Any); [unfold tx_commit; straight| |intros; exact Logic.I]. intros _ _.
      apply (costs_try V Any); [apply c_wait_send_ok|intros; exact Logic.I|intros; exact Logic.I].
  Qed.
  Lemma c_raw_step fuel s o : costs (most_raw_writes o) (most_raw_calls fuel o) Any (raw_step fuel (mkRaw s) o).
  Proof.
    destruct o; cbn [raw_step most_raw_writes most_raw_calls].
    - apply bind_ret. unfold raw_enable_interrupts. straight.
    - apply bind_ret. unfold raw_clear_interrupts. straight.
    - apply bind_ret. unfold raw_disable_interrupts. straight.
    - apply (bind_ret V _ (fun r => RwFrame (fst r) (snd r))), c_raw_read.
    - apply bind_ret, c_raw_write.
  Qed.
  Lemma c_write_if b a d c c' k w n : (forall x, costs w n Any (k x)) -> costs (S w) (S n) Any (write_if b a d c c' k).
  Proof.
    intros H. unfold write_if. destruct b.
    - cbn [try_ write_frame bind Traffic.costs]. intros [[]|]; [apply H|exact Logic.I].
    - apply (costs_mono V Any Any _ w n); auto; lia.
  Qed.
  Lemma c_refresh h : costs 4 4 Any (refresh h).
  Proof.
    destruct h as [[] st cu|]; cbn [refresh]; try exact Logic.I.
    apply (bind_ret V _ (fun r => (match snd r with Ok _ => Manual true st (fst r) | Err _ => Manual false st (fst r) end, snd r))).
    unfold write_settings. repeat (apply c_write_if; intro). exact Logic.I.
  Qed.
  Lemma c_init chk h m : costs 6 7 Any (initialize_with_host chk h m).
  Proof.
    assert (Q : costs 6 6 Any (try a <- uninit_reset else (fun e => Err (SpiError e)) ;; try b <- dev_set_mode m else (fun e => Err (SpiError e)) ;;
      do r <- refresh h ;; match snd r with Err e => Ret (Err (SpiError e)) | Ok _ => Ret (Ok (ds_new (fst r))) end)).
    { unfold uninit_reset, dev_set_mode. cbn [try_ write_frame bind Traffic.costs]. intros [[]|]; [|exact Logic.I]. cbn [bind Traffic.costs]. intros [[]|]; [|exact Logic.I].
      apply (costs_bind V Any _ _ _ 0 0 4 4); [apply c_refresh|]. intros [h' r] _. cbn [fst snd]. destruct r; exact Logic.I. }
    unfold initialize_with_host. cbv zeta. destruct chk; [|apply (costs_mono V Any Any _ 6 6); auto].
    apply (costs_try V Any _ _ _ _ 0 1 6 6); [|intros; exact Q|intros; exact Logic.I]. unfold assert_chip_version, dev_version. straight.
  Qed.
  Lemma c_init_raw mc : costs 20 20 Any (initialize_macraw mc).
  Proof.
    unfold initialize_macraw, raw_new. cbn [raw_zero_buffers]. straight.
  Qed.
End Raw.
