(** The other reading of the datasheet: a flag that Sn_IMR masks does not show in Sn_IR.
    (The W5500 datasheet says of Sn_IMR: "When a socket interrupt occurs and the corresponding
    bit of Sn_IMR is 1, the corresponding bit of Sn_IR becomes 1".)  Chip.v lets every flag
    show; here is what the driver does on a chip of the other kind. *)
From Verif Require Export HistoryFacts.
From Verif Require Import ProgFacts Datasheet SockSpecs.

(** Sn_IMR of socket [i] after [d] was written to register [a] of block [b]: Sn_IMR is register
    0x2C of block 4*i+1, and writing bit 7 of MR (register 0 of block 0) resets it to 0xFF. *)
Definition wmask (i m b a : N) (d : list byte) : N :=
  match d with
  | [x] => if (b =? 4 * i + 1) && (a =? 0x2C) then b2n x
           else if (b =? 0) && (a =? 0) && N.testbit (b2n x) 7 then 255 else m
  | _ => m
  end.

(** [literal i m tr m']: in the bus accesses [tr], starting with Sn_IMR of socket [i] equal to
    [m] and ending with [m'], Sn_IR (register 2) never shows a flag that is masked.  A write
    that the bus reports as failed may or may not have reached the chip. *)
Inductive literal (i : N) : N -> list event -> N -> Prop :=
| lit_nil m : literal i m [] m
| lit_read m b a got r tr m' :
    (b = 4 * i + 1 -> a = 2 -> r = Ok tt -> forall x, got = [x] -> N.land (b2n x) m = b2n x) ->
    literal i m tr m' -> literal i m (ERead b a got r :: tr) m'
| lit_write m b a d r tr m' :
    literal i (wmask i m b a d) tr m' -> literal i m (EWrite b a d r :: tr) m'
| lit_lost m b a d e tr m' :
    literal i m tr m' -> literal i m (EWrite b a d (Err e) :: tr) m'.

(** the obligations of a computation, for every chip of that kind *)
Section Lp.
  Context (i : N).
  Fixpoint lp {A} (m : N) (G : N -> A -> Prop) (p : prog A) : Prop :=
    match p with
    | Ret a => G m a
    | BusRead b a d k => forall got r, length got = length d ->
        (b = 4 * i + 1 -> a = 2 -> r = Ok tt -> forall x, got = [x] -> N.land (b2n x) m = b2n x) ->
        lp m G (k (got, r))
    | BusWrite b a d k => (forall r, lp (wmask i m b a d) G (k r)) /\ forall e, lp m G (k (Err e))
    | _ => True
    end.
  Lemma lp_mono {A} (G G' : N -> A -> Prop) p : forall m, (forall m a, G m a -> G' m a) -> lp m G p -> lp m G' p.
  Proof.
    induction p as [a|w| |b a d k IH|b a d k IH]; intros m H; cbn [lp]; auto.
    intros [H1 H2]. split; eauto.
  Qed.
  Lemma lp_bind {A B} (G : N -> A -> Prop) (G' : N -> B -> Prop) (p : prog A) f : forall m,
    lp m G p -> (forall m a, G m a -> lp m G' (f a)) -> lp m G' (bind p f).
  Proof.
    induction p as [a|w| |b a d k IH|b a d k IH]; intros m; cbn [lp bind]; auto.
    intros [H1 H2] Hf. split; eauto.
  Qed.
  Lemma lp_try {A E R} (G : N -> res A E -> Prop) (G' : N -> R -> Prop) (p : prog (res A E)) h k m :
    lp m G p -> (forall m a, G m (Ok a) -> lp m G' (k a)) -> (forall m e, G m (Err e) -> G' m (h e)) -> lp m G' (try_ p h k).
  Proof. intros Hp Hk Hh. eapply lp_bind; [exact Hp|]. intros m' [a|e] H; cbn [lp]; auto. Qed.
  Lemma lp_exec {A} (G : N -> A -> Prop) p tr o : exec p tr o -> forall m m', lp m G p -> literal i m tr m' ->
    match o with Done a => G m' a | _ => True end.
  Proof.
    induction 1 as [p|a|w| |blk addr buf k got r tr o Hl X IH|blk addr data k r tr o X IH]; intros m m' H L; auto.
    - inversion L; subst. exact H.
    - inversion L; subst. cbn [lp] in H. eapply IH; [|eassumption]. now apply H.
    - cbn [lp] in H. destruct H as [H1 H2]. inversion L; subst; (eapply IH; [|eassumption]); auto.
  Qed.
  Lemma lp_slice_to {R} w n l (k : list byte -> prog R) m G : (forall x, lp m G (k x)) -> lp m G (slice_to w n l k).
  Proof. intros H. unfold slice_to. destruct (n <=? len l); [apply H|exact I]. Qed.
  Lemma lp_slice_from {R} w n l (k : list byte -> prog R) m G : (forall x, lp m G (k x)) -> lp m G (slice_from w n l k).
  Proof. intros H. unfold slice_from. destruct (n <=? len l); [apply H|exact I]. Qed.
End Lp.

Lemma literal_app i : forall tr1 tr2 m m', literal i m (tr1 ++ tr2) m' -> exists m1, literal i m tr1 m1 /\ literal i m1 tr2 m'.
Proof.
  induction tr1 as [|e tr1 IH]; intros tr2 m m' L; cbn [List.app] in L; [exists m; split; [constructor|exact L]|].
  inversion L; subst; match goal with H : literal _ _ (tr1 ++ tr2) _ |- _ => destruct (IH _ _ _ H) as (m1 & A & B) end;
    exists m1; (split; [|exact B]); [now apply lit_read|now apply lit_write|now apply lit_lost].
Qed.
Lemma literal_join i tr1 : forall tr2 m m1 m', literal i m tr1 m1 -> literal i m1 tr2 m' -> literal i m (tr1 ++ tr2) m'.
Proof.
  intros tr2 m m1 m' H. induction H; intros K; cbn [List.app]; auto; [apply lit_read|apply lit_write|apply lit_lost]; auto.
Qed.

(** ** With every flag masked *)
Notation Z G := (fun m a => m = 0 /\ G a).
Notation anyz := (fun (m : N) _ => m = 0).
Lemma rg j : j < 8 -> register (socket_new j) = 4 * j + 1.
Proof. intros Hj. rewrite (so_reg j Hj). unfold BSB_REG. lia. Qed.
Lemma tx j : j < 8 -> tx_buffer (socket_new j) = 4 * j + 2.
Proof. intros Hj. rewrite (so_tx j Hj). unfold BSB_TX. lia. Qed.
Section Zero.
  Context (i j : N) (Hj : j < 8).
  Notation s := (socket_new j).

  Lemma wm_reg a d m : a <> 0x2C -> wmask i m (4 * j + 1) a d = m.
  Proof.
    intros H. unfold wmask. destruct d as [|x [|]]; auto. rewrite (proj2 (N.eqb_neq a 0x2C) H), andb_false_r.
    replace (4 * j + 1 =? 0) with false by (symmetry; apply N.eqb_neq; lia). reflexivity.
  Qed.
  Lemma wm_tx a d m : wmask i m (4 * j + 2) a d = m.
  Proof.
    unfold wmask. destruct d as [|x [|]]; auto.
    replace (4 * j + 2 =? 0) with false by (symmetry; apply N.eqb_neq; lia).
    replace (4 * j + 2 =? 4 * i + 1) with false by (symmetry; apply N.eqb_neq; lia). reflexivity.
  Qed.
  (** a write to a register of the socket other than Sn_IMR, and to its buffer *)
  Lemma lp_w a d m (G : N -> res unit berr -> Prop) : a <> 0x2C -> (forall r, G m r) -> lp i m G (write_frame (register s) a d).
  Proof. intros H K. unfold write_frame. cbn [lp]. rewrite (rg j Hj), (wm_reg a d m H). auto. Qed.
  Lemma lp_wtx a d m (G : N -> res unit berr -> Prop) : (forall r, G m r) -> lp i m G (write_frame (tx_buffer s) a d).
  Proof. intros K. unfold write_frame. cbn [lp]. rewrite (tx j Hj), (wm_tx a d m). auto. Qed.
  Lemma lp_mask0 : lp i 0 anyz (set_interrupt_mask s open_mask).
  Proof.
    unfold set_interrupt_mask, write_frame. cbn [lp]. split; auto. intros _. unfold wmask. rewrite (rg j Hj).
    replace (4 * j + 1 =? 0) with false by (symmetry; apply N.eqb_neq; lia).
    destruct (_ && _); reflexivity.
  Qed.
  Lemma lp_rd {R} b a n (f : list byte -> R) m : lp i m (fun m' _ => m' = m) (try d <- read_reg b a n else Err ;; Ret (Ok (f d))).
  Proof. unfold read_reg. cbn. intros got [u|e] _ _; reflexivity. Qed.
  Lemma lp_reg b a n m : lp i m (fun m' _ => m' = m) (read_reg b a n).
  Proof. unfold read_reg. cbn. intros got [u|e] _ _; reflexivity. Qed.
  Lemma lp_into b a buf m : lp i m (fun m' _ => m' = m) (read_into b a buf).
  Proof. unfold read_into. cbn. intros got [u|e] _ _; reflexivity. Qed.
  Lemma lp_size fuel m : lp i m (fun m' _ => m' = m) (get_receive_size fuel s).
  Proof.
    induction fuel as [|fuel IH]; cbn [get_receive_size]; [exact I|].
    eapply lp_try; [apply lp_reg| |now intros]. intros m1 a1 ->. eapply lp_try; [apply lp_reg| |now intros]. intros m2 a2 ->.
    destruct (bytes_eqb a1 a2); [reflexivity|exact IH].
  Qed.
End Zero.

(** the flags read as zero *)
Lemma lp_has i c : i < 8 -> lp i 0 (Z (fun r => forall b, r = Ok b -> b = false)) (has_interrupt (socket_new i) c).
Proof.
  intros Hi. unfold has_interrupt, read_reg. cbn [try_ bind lp fst snd]. rewrite (rg i Hi). intros got [[]|e] L H; [|split; [reflexivity|discriminate]].
  split; [reflexivity|]. intros b [= <-]. destruct got as [|x [|]]; try discriminate L.
  specialize (H eq_refl eq_refl eq_refl x eq_refl). rewrite N.land_0_r in H. change (byte0 [x]) with x. rewrite <- H, N.land_0_l. reflexivity.
Qed.

Ltac lw := match goal with
  | |- lp _ _ _ (set_interrupt_mask _ _) => apply lp_mask0; assumption
  | |- lp _ _ _ (write_frame (register _) _ _) => apply lp_w; [assumption|discriminate|intros ?; reflexivity]
  | |- lp _ _ _ (write_frame (tx_buffer _) _ _) => apply lp_wtx; [assumption|intros ?; reflexivity]
  | |- lp _ _ _ (try_ _ _ _) => apply lp_rd
  | |- lp _ _ _ (read_reg _ _ _) => apply lp_reg
  | |- lp _ _ _ (read_into _ _ _) => apply lp_into
  | |- lp _ _ _ (get_receive_size _ _) => apply lp_size; assumption
  end.
(** one step of which only matters that the mask stays 0 *)
Ltac lz := eapply lp_try with (G := anyz); [solve [lw]|let m := fresh in intros m ? ->|try (let m := fresh in intros m ? ->; solve [reflexivity | cbn; auto | split; [reflexivity|discriminate]])].
Section Stays.
  Context (i j : N) (Hj : j < 8).
  Notation s := (socket_new j).
  Notation t := (mkTcp s).
  Lemma lp_has0 c : lp i 0 anyz (has_interrupt s c).
  Proof. unfold has_interrupt. apply lp_rd. Qed.
  Lemma lp_tcp_reopen : lp i 0 anyz (tcp_reopen t).
  Proof. unfold tcp_reopen. cbv zeta. cbn [t_socket]. unfold command, reset_interrupt, set_mode. do 5 lz. reflexivity. Qed.
  Lemma lp_tcp_open p : lp i 0 anyz (tcp_open t p).
  Proof. unfold tcp_open. cbv zeta. cbn [t_socket]. unfold command, reset_interrupt, set_mode, set_source_port. do 6 lz. reflexivity. Qed.
  Lemma lp_tcp_sclose : lp i 0 anyz (tcp_socket_close t).
  Proof. unfold tcp_socket_close. cbv zeta. cbn [t_socket]. unfold command, set_mode. do 2 lz. reflexivity. Qed.
  Lemma lp_tcp_wait fuel : lp i 0 anyz (tcp_connect_wait fuel t).
  Proof.
    induction fuel as [|fuel IH]; cbn [tcp_connect_wait]; [exact I|]. unfold get_status. lz.
    destruct (status_try_from _) as [[]|]; auto; try reflexivity.
    eapply lp_try; [apply lp_tcp_sclose| |now intros]. intros m ? ->. apply lp_tcp_reopen.
  Qed.
  Lemma lp_tcp_do fuel r : lp i 0 anyz (tcp_do_connect fuel t r).
  Proof. unfold tcp_do_connect. cbv zeta. cbn [t_socket]. unfold command, set_destination_ip, set_destination_port. do 3 lz. apply lp_tcp_wait. Qed.
  Lemma lp_tcp_sconnect fuel r : lp i 0 anyz (tcp_socket_connect fuel t r).
  Proof.
    unfold tcp_socket_connect, get_status. lz.
    assert (K : lp i 0 anyz (try a <- tcp_socket_close t else Err ;; try b <- tcp_reopen t else Err ;; tcp_do_connect fuel t r)).
    { eapply lp_try; [apply lp_tcp_sclose| |now intros]. intros m ? ->. eapply lp_try; [apply lp_tcp_reopen| |now intros]. intros m ? ->. apply lp_tcp_do. }
    destruct (status_try_from _) as [[]|]; first [exact K | reflexivity | exact (lp_tcp_do fuel r)].
  Qed.
  Lemma lp_tcp_connect fuel r : lp i 0 anyz (tcp_connect fuel t r).
  Proof.
    unfold tcp_connect. destruct r as [r|]; [|reflexivity].
    eapply lp_try; [apply lp_tcp_open| |now intros]. intros m ? ->. eapply lp_try; [apply lp_tcp_sconnect| |now intros]. intros m ? ->. reflexivity.
  Qed.
  Lemma lp_wait fuel : lp i 0 anyz (wait_send_ok fuel s).
  Proof. induction fuel as [|fuel IH]; cbn [wait_send_ok]; [exact I|]. unfold has_interrupt. lz. match goal with |- context [if ?b then _ else _] => destruct b end; [reflexivity|exact IH]. Qed.
  Lemma lp_tcp_data fuel d : lp i 0 anyz (tcp_send_data fuel t d).
  Proof.
    unfold tcp_send_data. cbv zeta. cbn [t_socket]. unfold get_tx_write_pointer, set_tx_write_pointer, command, reset_interrupt. do 4 lz.
    eapply lp_try; [apply lp_wait| |now intros]. intros m ? ->. lz. reflexivity.
  Qed.
  Lemma lp_tcp_send fuel d : lp i 0 anyz (tcp_send fuel t d).
  Proof.
    unfold tcp_send. eapply lp_try with (G := anyz); [|intros m ? ->; reflexivity|now intros]. unfold tcp_socket_send, tcp_is_connected, get_status, get_tx_free_size.
    eapply lp_try with (G := anyz); [lz; reflexivity| |now intros]. intros m c ->. destruct c; cbn [negb]; [|reflexivity]. lz.
    destruct (_ <? _); [apply lp_tcp_data|apply lp_slice_to; intros; apply lp_tcp_data].
  Qed.
  Lemma lp_tcp_rdata n d : lp i 0 anyz (tcp_receive_data t n d).
  Proof.
    unfold tcp_receive_data. cbv zeta. cbn [t_socket]. unfold get_rx_read_pointer, set_rx_read_pointer, command, reset_interrupt. lz.
    eapply lp_bind; [apply lp_into|]. intros m [g [u|er]] ->; cbn [fst snd]; [|reflexivity]. do 3 lz. reflexivity.
  Qed.
  Lemma lp_tcp_receive fuel d : lp i 0 anyz (tcp_receive fuel t d).
  Proof.
    unfold tcp_receive. eapply lp_bind with (G := anyz); [|intros m ? ->; reflexivity]. unfold tcp_socket_receive, tcp_is_connected, get_status, has_interrupt.
    eapply lp_try with (G := anyz); [lz; reflexivity| |now intros]. intros m c ->. destruct c; cbn [negb]; [|reflexivity]. lz. destruct (negb _); [reflexivity|]. lz.
    destruct (_ <? _); [apply lp_tcp_rdata|]. destruct (_ <=? _); [apply lp_tcp_rdata|exact I].
  Qed.
  Lemma lp_tcp_close d : lp i 0 anyz (tcp_close d t).
  Proof.
    unfold tcp_close. eapply lp_try; [apply lp_tcp_sclose| |now intros]. intros m ? ->. destruct (release_socket _ _); [reflexivity|exact I].
  Qed.

  (** UDP *)
  Context (dst : option addr4) (port : N).
  Notation u := (mkUdp s dst port).
  Lemma lp_udp_open p d : lp i 0 anyz (udp_open (mkUdp s d p)).
  Proof. unfold udp_open. cbv zeta. cbn [u_socket u_port]. unfold command, reset_interrupt, set_mode, set_source_port. do 6 lz. reflexivity. Qed.
  Lemma lp_udp_port p : lp i 0 anyz (udp_set_port u p).
  Proof. unfold udp_set_port. cbv zeta. cbn [u_socket u_port]. unfold set_source_port. lz. reflexivity. Qed.
  Lemma lp_udp_dest r : lp i 0 anyz (udp_set_destination u r).
  Proof.
    unfold udp_set_destination. cbn [u_socket u_port u_dest]. destruct (match dst with Some d => _ | None => _ end); [|reflexivity].
    unfold set_destination_ip, set_destination_port. do 2 lz. reflexivity.
  Qed.
  Lemma lp_udp_connect r : lp i 0 anyz (udp_connect u r).
  Proof. unfold udp_connect. destruct r as [r|]; [|reflexivity]. eapply lp_try; [apply lp_udp_open| |now intros]. intros m ? ->. apply lp_udp_dest. Qed.
  Lemma lp_udp_bind p : lp i 0 anyz (udp_bind u p).
  Proof.
    unfold udp_bind, udp_set_port. cbv zeta. cbn [u_socket u_port u_dest].
    eapply lp_bind with (G := fun m r => m = 0 /\ fst r = mkUdp s dst p); [unfold set_source_port; eapply lp_try with (G := anyz); [lw|intros m ? ->; split; reflexivity|intros m ? ->; split; reflexivity]|].
    intros m [u' [a|er]] [-> E]; cbn [fst snd] in *; [subst u'|reflexivity].
    eapply lp_try; [apply lp_udp_open|intros m ? ->; reflexivity|now intros].
  Qed.
  Lemma lp_udp_flush : lp i 0 anyz (udp_try_flush_tx u).
  Proof.
    unfold udp_try_flush_tx. cbv zeta. cbn [u_socket]. unfold get_tx_read_pointer, get_tx_write_pointer, has_interrupt, reset_interrupt. do 2 lz.
    destruct (_ =? _); [|reflexivity]. lz. match goal with |- context [if ?b then _ else _] => destruct b end; [lz; reflexivity|].
    lz. match goal with |- context [if ?b then _ else _] => destruct b end; [lz; reflexivity|reflexivity].
  Qed.
  Lemma lp_udp_floop fuel : lp i 0 anyz (udp_flush_loop fuel u).
  Proof.
    induction fuel as [|fuel IH]; cbn [udp_flush_loop]; [exact I|]. eapply lp_bind; [apply lp_udp_flush|].
    intros m [a|[|e]] ->; [reflexivity|exact IH|reflexivity].
  Qed.
  Lemma lp_udp_data fuel d : lp i 0 anyz (udp_send_data fuel u d).
  Proof.
    unfold udp_send_data. cbv zeta. cbn [u_socket]. unfold get_tx_write_pointer, set_tx_write_pointer. do 3 lz.
    eapply lp_try with (G := anyz); [|intros m ? ->; reflexivity|now intros]. unfold udp_block_send_command, command. cbn [u_socket]. lz. apply lp_udp_floop.
  Qed.
  Lemma lp_udp_ssend fuel d : lp i 0 anyz (udp_socket_send fuel u d).
  Proof.
    unfold udp_socket_send. cbv zeta. cbn [u_socket u_dest]. unfold get_status, get_tx_free_size. lz.
    destruct (udp_status_gate _); [|reflexivity]. destruct dst eqn:E; [|reflexivity]. lz. destruct (_ =? _); [reflexivity|]. rewrite <- E.
    destruct (_ <? _); [apply lp_udp_data|apply lp_slice_to; intros; apply lp_udp_data].
  Qed.
  Lemma lp_udp_sloop fuel d : forall outer free total, lp i 0 anyz (udp_send_loop outer fuel u d free total).
  Proof.
    induction outer as [|outer IH]; intros free total; cbn [udp_send_loop]; (destruct (_ =? _); [reflexivity|]); [exact I|].
    apply lp_slice_from. intros x. cbv zeta. apply lp_slice_to. intros y.
    eapply lp_try; [apply lp_udp_ssend| |now intros]. intros m ? ->. cbn [u_socket]. unfold get_tx_free_size. lz. apply IH.
  Qed.
  Lemma lp_udp_all fuel d : lp i 0 anyz (udp_send_all fuel u d).
  Proof.
    unfold udp_send_all. cbv zeta. cbn [u_socket u_dest]. unfold get_status, get_tx_free_size. lz.
    destruct (udp_status_gate _); [|reflexivity]. destruct dst eqn:E; [|reflexivity]. lz. destruct (_ =? _); [reflexivity|]. rewrite <- E. apply lp_udp_sloop.
  Qed.
  Lemma lp_udp_receive fuel d : lp i 0 anyz (udp_receive fuel u d).
  Proof.
    unfold udp_receive. eapply lp_bind with (G := anyz); [|intros m ? ->; reflexivity]. unfold udp_socket_receive. cbv zeta. cbn [u_socket].
    unfold get_status, has_interrupt, get_rx_read_pointer, set_rx_read_pointer, command, reset_interrupt. lz.
    destruct (udp_status_gate _); [|reflexivity]. lz. destruct (negb _); [reflexivity|]. lz. destruct (_ =? _); [reflexivity|]. destruct (_ =? _); [reflexivity|].
    do 2 lz. apply lp_slice_to. intros x. eapply lp_bind; [apply lp_into|]. intros m [g [w|er]] ->; cbn [fst snd]; [|reflexivity]. do 3 lz. reflexivity.
  Qed.
  Lemma lp_udp_close d : lp i 0 anyz (udp_close d u).
  Proof.
    unfold udp_close. eapply lp_try with (G := anyz); [unfold udp_socket_close; cbv zeta; cbn [u_socket]; unfold set_mode, command; do 2 lz; reflexivity| |now intros].
    intros m ? ->. destruct (release_socket _ _); [reflexivity|exact I].
  Qed.
  Lemma lp_sockop fuel q : (forall m, q <> KSetMask m) -> lp i 0 anyz (run_sockop fuel s q).
  Proof.
    intros H. destruct q; cbn [run_sockop]; try (now elim (H m));
      (eapply lp_bind with (G := anyz); [|intros m0 ? ->; reflexivity]);
      unfold set_mode, get_status, reset_interrupt, has_interrupt, set_source_port, set_destination_ip, set_destination_port, get_tx_read_pointer,
        set_tx_read_pointer, get_tx_write_pointer, set_tx_write_pointer, get_rx_read_pointer, set_rx_read_pointer, command, get_tx_free_size; lw.
  Qed.
End Stays.
Lemma lp_udp_send_to i j dst port fuel r d : j < 8 -> lp i 0 anyz (udp_send_to fuel (mkUdp (socket_new j) dst port) r d).
Proof.
  intros Hj. unfold udp_send_to. destruct r as [r|]; [|reflexivity]. unfold udp_send_to_v4.
  eapply lp_bind with (G := fun m x => m = 0 /\ u_socket (fst x) = socket_new j).
  - unfold udp_set_destination. cbn [u_socket u_port u_dest]. destruct (match dst with Some d => _ | None => _ end); [|split; reflexivity].
    unfold set_destination_ip, set_destination_port.
    eapply lp_try with (G := anyz); [lw|intros m ? ->|intros m ? ->; split; reflexivity].
    eapply lp_try with (G := anyz); [lw|intros m ? ->|intros m ? ->; split; reflexivity]. split; reflexivity.
  - intros m [[so de po] [x|er]] [-> E]; cbn [fst snd u_socket] in *; [subst so|reflexivity].
    eapply lp_bind; [apply lp_udp_all; exact Hj|intros m ? ->; reflexivity].
Qed.

(** ** What the calls can still answer *)
Definition no_ok {A E} (r : res A E) : Prop := match r with Ok _ => False | Err _ => True end.
Section Deaf.
  Context (i : N) (Hi : i < 8).
  Notation s := (socket_new i).
  Notation t := (mkTcp s).
  Lemma lp_wait_never fuel : lp i 0 (Z no_ok) (wait_send_ok fuel s).
  Proof.
    induction fuel as [|fuel IH]; cbn [wait_send_ok]; [exact I|]. eapply lp_try; [apply lp_has; exact Hi| |].
    - intros m ok [-> H]. rewrite (H ok eq_refl). exact IH.
    - intros m e [-> _]. split; [reflexivity|exact I].
  Qed.
  Ltac ln := eapply lp_try with (G := anyz); [solve [lw]|let m := fresh in intros m ? ->|let m := fresh in intros m ? ->; split; [reflexivity|exact I]].
  Lemma lp_tcp_data_never fuel d : lp i 0 (Z no_ok) (tcp_send_data fuel t d).
  Proof.
    unfold tcp_send_data. cbv zeta. cbn [t_socket]. unfold get_tx_write_pointer, set_tx_write_pointer, command, reset_interrupt. do 4 ln.
    eapply lp_try; [apply lp_wait_never| |]; intros m ? [-> H]; [contradiction|]. split; [reflexivity|exact I].
  Qed.
  Lemma lp_tcp_send_never fuel d : lp i 0 (Z no_ok) (tcp_send fuel t d).
  Proof.
    unfold tcp_send. eapply lp_try with (G := Z no_ok); [|intros m ? [-> []]|intros m ? [-> _]; split; [reflexivity|exact I]]. unfold tcp_socket_send, tcp_is_connected, get_status, get_tx_free_size.
    eapply lp_try with (G := anyz); [lz; reflexivity| |intros m ? ->; split; [reflexivity|exact I]]. intros m c ->. destruct c; cbn [negb]; [|split; [reflexivity|exact I]]. ln.
    destruct (_ <? _); [apply lp_tcp_data_never|apply lp_slice_to; intros; apply lp_tcp_data_never].
  Qed.
  Lemma lp_tcp_receive_none fuel d : lp i 0 (Z (fun r => forall n, snd r = Ok n -> n = 0 /\ fst r = d)) (tcp_receive fuel t d).
  Proof.
    unfold tcp_receive. eapply lp_bind with (G := Z (fun r => forall n, snd r = Ok n -> n = 0 /\ fst r = d)).
    2: { intros m [b r] [-> H]. cbn [fst snd] in *. split; [reflexivity|]. intros n E. destruct r as [n'|]; [|discriminate E]. injection E as ->. now apply H. }
    unfold tcp_socket_receive, tcp_is_connected, get_status.
    eapply lp_try with (G := anyz); [lz; reflexivity| |intros m ? ->; split; [reflexivity|discriminate]]. intros m c ->. destruct c; cbn [negb]; [|split; [reflexivity|discriminate]].
    eapply lp_try; [apply lp_has; exact Hi| |intros m e [-> _]; split; [reflexivity|discriminate]].
    intros m has [-> H]. rewrite (H has eq_refl). cbn [negb]. split; [reflexivity|]. intros n [= <-]. split; reflexivity.
  Qed.
  Context (dst : option addr4) (port : N).
  Notation u := (mkUdp s dst port).
  Lemma lp_udp_receive_none fuel d : lp i 0 (Z (fun r => no_ok (snd r) /\ fst r = d)) (udp_receive fuel u d).
  Proof.
    unfold udp_receive. eapply lp_bind with (G := Z (fun r => no_ok (snd r) /\ fst r = d)).
    2: { intros m [b [r|r]] [-> [H1 H2]]; cbn [fst snd] in *; [destruct H1|]. repeat split; assumption. }
    unfold udp_socket_receive. cbv zeta. cbn [u_socket]. unfold get_status.
    eapply lp_try with (G := anyz); [solve [lw]|intros m st ->|intros m ? ->; repeat split]. destruct (udp_status_gate st); [|repeat split].
    eapply lp_try; [apply lp_has; exact Hi| |intros m e [-> _]; repeat split].
    intros m has [-> H]. rewrite (H has eq_refl). repeat split.
  Qed.
  Definition no_timeout {A} (r : res A (nberr uerr)) : Prop := r <> Err (NbOther UWriteTimeout).
  Ltac lu := eapply lp_try with (G := anyz); [solve [lw]|let m := fresh in intros m ? ->|let m := fresh in intros m ? ->; split; [reflexivity|discriminate]].
  Lemma lp_flush_quiet : lp i 0 (Z no_timeout) (udp_try_flush_tx u).
  Proof.
    unfold udp_try_flush_tx. cbv zeta. cbn [u_socket]. unfold get_tx_read_pointer, get_tx_write_pointer, reset_interrupt. do 2 lu.
    destruct (_ =? _); [|split; [reflexivity|discriminate]].
    eapply lp_try; [apply lp_has; exact Hi| |intros m e [-> _]; split; [reflexivity|discriminate]]. intros m ok [-> H]. rewrite (H ok eq_refl).
    eapply lp_try; [apply lp_has; exact Hi| |intros m e [-> _]; split; [reflexivity|discriminate]]. intros m tmo [-> H']. rewrite (H' tmo eq_refl).
    split; [reflexivity|discriminate].
  Qed.
  Lemma lp_floop_quiet fuel : lp i 0 (Z no_timeout) (udp_flush_loop fuel u).
  Proof.
    induction fuel as [|fuel IH]; cbn [udp_flush_loop]; [exact I|]. eapply lp_bind; [apply lp_flush_quiet|].
    intros m [a|[|e]] [-> H]; [split; [reflexivity|discriminate]|exact IH|split; [reflexivity|exact H]].
  Qed.
  Lemma lp_data_quiet fuel d : lp i 0 (Z no_timeout) (udp_send_data fuel u d).
  Proof.
    unfold udp_send_data. cbv zeta. cbn [u_socket]. unfold get_tx_write_pointer, set_tx_write_pointer. do 3 lu.
    eapply lp_try with (G := Z no_timeout); [|intros m ? [-> _]; split; [reflexivity|discriminate]|intros m e [-> H]; split; [reflexivity|intros [= ->]; now apply H]].
    unfold udp_block_send_command, command. cbn [u_socket]. lu. apply lp_floop_quiet.
  Qed.
  Lemma gate_quiet {A} st e : udp_status_gate st = Err e -> @no_timeout A (Err e).
  Proof. unfold udp_status_gate. intros H [= ->]. destruct (status_try_from st) as [[]|]; discriminate H. Qed.
  Lemma lp_ssend_quiet fuel d : lp i 0 (Z no_timeout) (udp_socket_send fuel u d).
  Proof.
    unfold udp_socket_send. cbv zeta. cbn [u_socket u_dest]. unfold get_status, get_tx_free_size. lu.
    destruct (udp_status_gate _) eqn:Gt; [|split; [reflexivity|exact (gate_quiet _ _ Gt)]].
    destruct dst eqn:E; [|split; [reflexivity|discriminate]]. lu. destruct (_ =? _); [split; [reflexivity|discriminate]|]. rewrite <- E.
    destruct (_ <? _); [apply lp_data_quiet|apply lp_slice_to; intros; apply lp_data_quiet].
  Qed.
  Lemma lp_sloop_quiet fuel d : forall outer free total, lp i 0 (Z no_timeout) (udp_send_loop outer fuel u d free total).
  Proof.
    induction outer as [|outer IH]; intros free total; cbn [udp_send_loop]; (destruct (_ =? _); [split; [reflexivity|discriminate]|]); [exact I|].
    apply lp_slice_from. intros x. cbv zeta. apply lp_slice_to. intros y.
    eapply lp_try; [apply lp_ssend_quiet| |]; intros m ? [-> H]; [|split; [reflexivity|intros [= ->]; now apply H]].
    cbn [u_socket]. unfold get_tx_free_size. lu. apply IH.
  Qed.
  Lemma lp_all_quiet fuel d : lp i 0 (Z no_timeout) (udp_send_all fuel u d).
  Proof.
    unfold udp_send_all. cbv zeta. cbn [u_socket u_dest]. unfold get_status, get_tx_free_size. lu.
    destruct (udp_status_gate _) eqn:Gt; [|split; [reflexivity|exact (gate_quiet _ _ Gt)]].
    destruct dst eqn:E; [|split; [reflexivity|discriminate]]. lu. destruct (_ =? _); [split; [reflexivity|discriminate]|]. rewrite <- E. apply lp_sloop_quiet.
  Qed.
End Deaf.
Lemma lp_send_to_quiet i dst port fuel r d : i < 8 -> lp i 0 (Z (fun x => no_timeout (snd x))) (udp_send_to fuel (mkUdp (socket_new i) dst port) r d).
Proof.
  intros Hi. unfold udp_send_to. destruct r as [r|]; [|split; [reflexivity|discriminate]]. unfold udp_send_to_v4.
  eapply lp_bind with (G := fun m x => m = 0 /\ u_socket (fst x) = socket_new i /\ forall e, snd x = Err e -> e <> UWriteTimeout).
  - unfold udp_set_destination. cbn [u_socket u_port u_dest]. destruct (match dst with Some d => _ | None => _ end); [|repeat split; discriminate].
    unfold set_destination_ip, set_destination_port.
    eapply lp_try with (G := anyz); [lw|intros m ? ->|intros m ? ->; repeat split; intros ? [= <-]; discriminate].
    eapply lp_try with (G := anyz); [lw|intros m ? ->|intros m ? ->; repeat split; intros ? [= <-]; discriminate]. repeat split; discriminate.
  - intros m [[so de po] [x|er]] (-> & E & H); cbn [fst snd u_socket] in *; [subst so|].
    + eapply lp_bind; [apply lp_all_quiet; exact Hi|intros m q [-> K]; split; [reflexivity|exact K]].
    + split; [reflexivity|]. cbn [snd]. intros [= ->]. now apply (H UWriteTimeout).
Qed.

(** ** Opening a socket masks every flag *)
Section Opens.
  Context (i : N) (Hi : i < 8).
  Notation s := (socket_new i).
  Notation OK0 := (fun m r => match r with Ok _ => m = 0 | Err _ => True end).
  Lemma lp_mask_any m : lp i m OK0 (set_interrupt_mask s open_mask).
  Proof.
    unfold set_interrupt_mask, write_frame. cbn [lp]. split; [|intros; exact I]. intros [u|e]; [|exact I].
    unfold wmask. rewrite (rg i Hi), N.eqb_refl. reflexivity.
  Qed.
  Ltac lo := match goal with |- lp ?i ?m _ _ => eapply lp_try with (G := fun m' _ => m' = m); [solve [apply lp_w; [assumption|discriminate|intros ?; reflexivity]]|let m := fresh in intros m ? ->|intros; exact I] end.
  Lemma lp_tcp_open_any m p : lp i m OK0 (tcp_open (mkTcp s) p).
  Proof.
    unfold tcp_open. cbv zeta. cbn [t_socket]. unfold command, reset_interrupt, set_mode, set_source_port. do 4 lo.
    eapply lp_try; [apply lp_mask_any| |intros; exact I]. intros m' ? ->. lo. reflexivity.
  Qed.
  Lemma lp_udp_open_any m p d : lp i m OK0 (udp_open (mkUdp s d p)).
  Proof.
    unfold udp_open. cbv zeta. cbn [u_socket u_port]. unfold command, reset_interrupt, set_mode, set_source_port. do 4 lo.
    eapply lp_try; [apply lp_mask_any| |intros; exact I]. intros m' ? ->. lo. reflexivity.
  Qed.
  Lemma lp_tcp_connect_any m fuel r : lp i m OK0 (tcp_connect fuel (mkTcp s) (V4 r)).
  Proof.
    unfold tcp_connect. eapply lp_try; [apply lp_tcp_open_any| |intros; exact I]. intros m' ? ->.
    eapply lp_try; [apply lp_tcp_sconnect; exact Hi| |intros; exact I]. intros m' ? ->. reflexivity.
  Qed.
  Lemma lp_udp_connect_any m d p r : lp i m (fun m r => OK0 m (snd r)) (udp_connect (mkUdp s d p) (V4 r)).
  Proof.
    unfold udp_connect. eapply lp_try; [apply lp_udp_open_any| |intros; exact I]. intros m' ? ->.
    eapply lp_mono; [|apply lp_udp_dest; exact Hi]. intros m' [x [y|y]] ->; cbn; auto.
  Qed.
  Lemma lp_udp_bind_any m d p q : lp i m (fun m r => OK0 m (snd r)) (udp_bind (mkUdp s d p) q).
  Proof.
    unfold udp_bind, udp_set_port. cbv zeta. cbn [u_socket u_port u_dest].
    eapply lp_bind with (G := fun _ r => fst r = mkUdp s d q); [unfold set_source_port; eapply lp_try with (G := fun _ _ => True); [apply lp_w; [exact Hi|discriminate|intros; exact I]|intros; reflexivity|intros; reflexivity]|].
    intros m' [u' [a|er]] E; cbn [fst snd] in *; [subst u'|exact I].
    eapply lp_try; [apply lp_udp_open_any|intros m'' ? ->; reflexivity|intros; exact I].
  Qed.
End Opens.

(** ** Programs *)
(** neither writes Sn_IMR itself nor resets the chip *)
Definition leaves_mask (o : op) : Prop := match o with OpSocket _ (KSetMask _) | OpDevice QResetDevice => False | _ => True end.

(** [h] names a handle of socket [i], or nothing any more *)
Definition holds (h : nat) (i : N) (a : History.app) : Prop :=
  (h < fresh a)%nat /\ forall x, lookup h (handles a) = Some x -> handle_socket x = socket_new i.
Lemma lookup_app h l l' : lookup h (l ++ l') = match lookup h l with Some x => Some x | None => lookup h l' end.
Proof. induction l as [|[k x] l IH]; cbn [List.app lookup]; [reflexivity|]. destruct (Nat.eqb k h); [reflexivity|exact IH]. Qed.
Lemma lookup_remove h k l x : lookup h (History.remove k l) = Some x -> lookup h l = Some x.
Proof.
  induction l as [|[k' y] l IH]; cbn [History.remove lookup]; [auto|]. destruct (Nat.eqb_spec k' k) as [->|Hn].
  - intros H. specialize (IH H). destruct (Nat.eqb_spec k h) as [->|]; [|exact IH]. exfalso.
    clear -H. induction l as [|[k' z] l IHl]; cbn [History.remove lookup] in H; [discriminate|].
    destruct (Nat.eqb_spec k' h) as [->|Hn]; [auto|]. cbn [lookup] in H. destruct (Nat.eqb_spec k' h); [contradiction|auto].
  - cbn [lookup]. destruct (Nat.eqb k' h); auto.
Qed.
Lemma lookup_update h k v l x : lookup h (update k v l) = Some x -> (h = k /\ x = v /\ exists y, lookup h l = Some y) \/ lookup h l = Some x.
Proof.
  induction l as [|[k' y] l IH]; cbn [update lookup]; [auto|]. destruct (Nat.eqb_spec k' k) as [->|Hn]; cbn [lookup].
  - destruct (Nat.eqb_spec k h) as [->|]; [|auto]. intros [= <-]. left. eauto.
  - destruct (Nat.eqb_spec k' h) as [->|]; auto.
Qed.
Lemma holds_grant h i a d x : holds h i a -> holds h i (grant a d x).
Proof.
  intros [H1 H2]. split; cbn [grant fresh handles]; [lia|]. intros y. rewrite lookup_app. destruct (lookup h (handles a)) eqn:L; [intros [= <-]; auto|].
  cbn [lookup]. destruct (Nat.eqb_spec (fresh a) h); [lia|discriminate].
Qed.
Lemma holds_consume h i a d k : holds h i a -> holds h i (consume a d k).
Proof. intros [H1 H2]. split; cbn [consume fresh handles]; [exact H1|]. intros y L. apply H2. exact (lookup_remove _ _ _ _ L). Qed.
Lemma holds_put h i a k v x : holds h i a -> lookup k (handles a) = Some x -> handle_socket v = handle_socket x -> holds h i (put a k v).
Proof.
  intros [H1 H2] L E. split; cbn [put fresh handles]; [exact H1|]. intros y Ly.
  apply lookup_update in Ly as [(-> & -> & z & Lz)|Ly]; [|auto]. rewrite E. auto.
Qed.
Lemma holds_same h i a d : holds h i a -> holds h i (mkApp d (handles a) (fresh a)).
Proof. intros [H1 H2]. split; assumption. Qed.
Lemma holds_step fuel a o tr a' r h i : exec (step fuel a o) tr (Done (a', r)) -> holds h i a -> holds h i a'.
Proof.
  intros X H.
  assert (R : forall x : History.app * out, exec (Ret x) tr (Done (a', r)) -> x = (a', r)).
  { intros x Y. apply exec_Ret_inv in Y as [_ [Y|Y]]; [now injection Y as ->|discriminate]. }
  destruct o; cbn [step] in X.
  1: destruct (take_socket (dev a)) as [d [s|]]; apply R in X; injection X as <- _; auto using holds_grant, holds_same.
  2: destruct (tcp_socket (dev a)) as [d [s|]]; apply R in X; injection X as <- _; auto using holds_grant, holds_same.
  6: destruct (udp_socket (dev a)) as [d [s|]]; apply R in X; injection X as <- _; auto using holds_grant, holds_same.
  all: try match type of X with context [lookup ?k _] => destruct (lookup k (handles a)) as [[s|t|u]|] eqn:L end.
  all: try (apply R in X; injection X as <- _; auto using holds_consume, holds_same; fail).
  1: destruct (release_socket _ _); [apply R in X; injection X as <- _; auto using holds_consume|inversion X].
  all: apply exec_bind_done in X as (tr1 & x & tr2 & -> & X1 & X2);
    apply exec_Ret_inv in X2 as [_ [X2|X2]]; [injection X2 as -> _|discriminate]; auto using holds_consume.
  - eapply holds_put; [exact H|exact L|]. exact (proj2 (ptree_exec _ _ _ _ _ _ (pt_udp_connect u (fun _ => True) remote) X1)).
  - eapply holds_put; [exact H|exact L|]. exact (proj2 (ptree_exec _ _ _ _ _ _ (pt_udp_bind u (fun _ => True) port) X1)).
  - eapply holds_put; [exact H|exact L|]. exact (proj1 (proj2 (ptree_exec _ _ _ _ _ _ (pt_udp_send_to u (fun _ => True) fuel remote d) X1))).
  - eapply holds_put; [exact H|exact L|]. exact (proj2 (ptree_exec _ _ _ _ _ _ (pt_udp_set_port u (fun _ => True) port) X1)).
Qed.

Lemma lp_common i m a d (G : N -> res unit berr -> Prop) : (a = 0 -> match d with [x] => N.testbit (b2n x) 7 = false | _ => True end) ->
  (forall r, G m r) -> lp i m G (write_frame COMMON a d).
Proof.
  intros H K. unfold write_frame. cbn [lp]. replace (wmask i m COMMON a d) with m; [auto|]. unfold wmask. destruct d as [|x [|]]; auto.
  change COMMON with 0. replace (0 =? 4 * i + 1) with false by (symmetry; apply N.eqb_neq; lia). rewrite N.eqb_refl. cbn [andb].
  destruct (N.eqb_spec a 0) as [->|]; cbn [andb]; [|reflexivity]. now rewrite (H eq_refl).
Qed.
Lemma lp_devop i q : q <> QResetDevice -> lp i 0 anyz (run_devop q).
Proof.
  intros H. destruct q; cbn [run_devop]; try contradiction; (eapply lp_bind with (G := anyz); [|intros m1 ? ->; reflexivity]).
  all: try (cbn; intros got [u|e] _ _; reflexivity).
  all: unfold dev_set_mode, dev_set_retry_timeout, dev_set_retry_count;
    try (eapply lp_try with (G := anyz); [|intros m1 ? ->; reflexivity|intros m1 ? ->; reflexivity]); apply lp_common; try (intros; reflexivity).
  - intros _. destruct m as [[] [] [] []]; reflexivity.
  - discriminate.
Qed.
Lemma lp_step i fuel a o : pool_inv a -> leaves_mask o -> lp i 0 anyz (step fuel a o).
Proof.
  intros PI H. destruct o; cbn [step].
  1: destruct (take_socket (dev a)) as [d [s|]]; reflexivity.
  2: destruct (tcp_socket (dev a)) as [d [s|]]; reflexivity.
  6: destruct (udp_socket (dev a)) as [d [s|]]; reflexivity.
  all: try match goal with |- context [lookup ?k _] => destruct (lookup k (handles a)) as [[s|t|u]|] eqn:L end.
  all: try reflexivity.
  1: destruct (release_socket _ _); [reflexivity|exact I].
  all: try (apply (pi_lookup _ _ _ PI) in L as (j & Hj & E & _); cbn [handle_socket] in E;
    first [destruct t as [so]|destruct u as [so de po]|rename s into so]; cbn [t_socket u_socket] in E; subst so).
  all: eapply lp_bind with (G := anyz); [|intros m0 ? ->; reflexivity].
  - now apply lp_tcp_connect.
  - now apply lp_tcp_send.
  - now apply lp_tcp_receive.
  - now apply lp_tcp_close.
  - now apply lp_udp_connect.
  - now apply lp_udp_bind.
  - now apply lp_udp_all.
  - now apply lp_udp_send_to.
  - now apply lp_udp_receive.
  - now apply lp_udp_close.
  - apply lp_devop. intros ->. exact H.
  - now apply lp_udp_port.
  - apply lp_sockop; [exact Hj|]. intros m ->. exact H.
Qed.

(** what a call on [h] cannot answer *)
Definition mute (h : nat) (o : op) (r : out) : Prop :=
  match o, r with
  | OpTcpSend k _, RTcpSend (Ok _) => k <> h
  | OpTcpReceive k b, RTcpReceive b' (Ok n) => k = h -> n = 0 /\ b' = b
  | OpUdpReceive k b, RUdpReceive b' (Ok _) => k <> h
  | OpUdpSend k _, RUdpSend (Err (NbOther UWriteTimeout)) => k <> h
  | OpUdpSendTo k _ _, RUdpSend (Err (NbOther UWriteTimeout)) => k <> h
  | _, _ => True
  end.
Lemma holds_in h i a x : holds h i a -> lookup h (handles a) = Some x -> handle_socket x = socket_new i.
Proof. intros [_ H]. apply H. Qed.
Lemma mute_step fuel a o tr a' r h i : i < 8 -> holds h i a -> exec (step fuel a o) tr (Done (a', r)) -> forall m', literal i 0 tr m' -> mute h o r.
Proof.
  intros Hi H X m' L.
  destruct o; try exact Logic.I; (destruct (Nat.eq_dec h0 h) as [->|Hn]; [|destruct r; try exact Logic.I; cbn [mute];
    repeat match goal with |- context [match ?x with _ => _ end] => destruct x end; try exact Logic.I; try exact Hn; intros E; contradiction]); cbn [step] in X;
    (destruct (lookup h (handles a)) as [[s|t|u]|] eqn:Lk; try (apply exec_Ret_inv in X as [_ [X|X]]; [injection X as _ ->; exact Logic.I|discriminate]));
    apply (holds_in _ _ _ _ H) in Lk; cbn [handle_socket] in Lk; first [destruct t as [so]|destruct u as [so de po]]; cbn [t_socket u_socket] in Lk; subst so;
    apply exec_bind_done in X as (tr1 & x & tr2 & -> & X1 & X2); apply literal_app in L as (m1 & L1 & _);
    (apply exec_Ret_inv in X2 as [_ [X2|X2]]; [injection X2 as _ ->|discriminate]).
  - pose proof (lp_exec i _ _ _ _ X1 _ _ (lp_tcp_send_never i Hi fuel d) L1) as [_ K]. destruct x; [destruct K|exact Logic.I].
  - pose proof (lp_exec i _ _ _ _ X1 _ _ (lp_tcp_receive_none i Hi fuel buf) L1) as [_ K]. destruct x as [b [n|e]]; cbn [fst snd] in *; [|exact Logic.I].
    intros _. exact (K n eq_refl).
  - pose proof (lp_exec i _ _ _ _ X1 _ _ (lp_all_quiet i Hi de po fuel d) L1) as [_ K]. destruct x as [n|[|[]]]; try exact Logic.I. now elim K.
  - pose proof (lp_exec i _ _ _ _ X1 _ _ (lp_send_to_quiet i de po fuel remote d Hi) L1) as [_ K]. destruct x as [y [n|[|[]]]]; cbn [fst snd] in *; try exact Logic.I. now elim K.
  - pose proof (lp_exec i _ _ _ _ X1 _ _ (lp_udp_receive_none i Hi de po fuel buf) L1) as [_ [K _]]. destruct x as [y [n|e]]; cbn [fst snd] in *; [destruct K|exact Logic.I].
Qed.
Lemma mute_ops fuel h i : i < 8 -> forall ops a tr a' outs m', pool_inv a -> holds h i a -> Forall leaves_mask ops ->
  exec (run_ops fuel a ops) tr (Done (a', outs)) -> literal i 0 tr m' -> Forall2 (mute h) ops outs /\ m' = 0.
Proof.
  intros Hi. induction ops as [|o ops IH]; intros a tr a' outs m' PI H F X L.
  - cbn in X. apply exec_Ret_inv in X as [-> [[= -> ->]|E]]; [|discriminate]. split; [constructor|]. now inversion L.
  - apply exec_run_ops_cons in X as (tr1 & tr2 & [a1 r] & [a2 rs] & -> & X1 & X2 & [= -> ->]). cbn [fst snd] in *. inversion F; subst.
    apply literal_app in L as (m1 & L1 & L2).
    pose proof (lp_exec i _ _ _ _ X1 _ _ (lp_step i fuel a o PI ltac:(assumption)) L1) as E. cbn beta iota in E. subst m1.
    destruct (IH a1 tr2 a2 rs m' (proj1 (exec_step_post _ _ _ _ _ PI X1)) (holds_step _ _ _ _ _ _ _ _ X1 H) ltac:(assumption) X2 L2) as [K1 K2].
    split; [|exact K2]. constructor; [|exact K1]. exact (mute_step _ _ _ _ _ _ _ _ Hi H X1 _ L1).
Qed.

(** the calls that open a socket *)
Definition opens (h : nat) (o : op) (r : out) : Prop :=
  match o, r with
  | OpTcpConnect k (V4 _), RTcpConnect (Ok _) | OpUdpConnect k (V4 _), RUdpUnit (Ok _) | OpUdpBind k _, RUdpUnit (Ok _) => k = h
  | _, _ => False
  end.
Lemma opens_mask fuel a o tr a' r h i : i < 8 -> holds h i a -> opens h o r -> exec (step fuel a o) tr (Done (a', r)) ->
  forall m m', literal i m tr m' -> m' = 0.
Proof.
  intros Hi H O X m m' L. destruct o; try contradiction; cbn [opens] in O; try (destruct remote; [|contradiction]);
    (destruct r as [| | | |[]| | | | |[]| | | |]; try contradiction); subst h0; cbn [step] in X;
    (destruct (lookup h (handles a)) as [[s|t|u]|] eqn:Lk; try (apply exec_Ret_inv in X as [_ [X|X]]; discriminate));
    apply (holds_in _ _ _ _ H) in Lk; cbn [handle_socket] in Lk; first [destruct t as [so]|destruct u as [so de po]]; cbn [t_socket u_socket] in Lk; subst so;
    apply exec_bind_done in X as (tr1 & x & tr2 & -> & X1 & X2);
    (apply exec_Ret_inv in X2 as [-> [X2|X2]]; [injection X2 as _ X2|discriminate]); rewrite app_nil_r in L.
  - pose proof (lp_exec i _ _ _ _ X1 _ _ (lp_tcp_connect_any i Hi m fuel a0) L) as K. subst x. exact K.
  - pose proof (lp_exec i _ _ _ _ X1 _ _ (lp_udp_connect_any i Hi m de po a0) L) as K. cbn beta iota in K. rewrite <- X2 in K. exact K.
  - pose proof (lp_exec i _ _ _ _ X1 _ _ (lp_udp_bind_any i Hi m de po port) L) as K. cbn beta iota in K. rewrite <- X2 in K. exact K.
Qed.

(** ** Raw devices *)
Lemma lp_has_bit i m c : i < 8 -> N.land m (interrupt_u8 c) = 0 ->
  lp i m (fun m' r => m' = m /\ forall b, r = Ok b -> b = false) (has_interrupt (socket_new i) c).
Proof.
  intros Hi Hm. unfold has_interrupt, read_reg. cbn [try_ bind lp fst snd]. rewrite (rg i Hi). intros got [[]|e] L H; [|split; [reflexivity|discriminate]].
  split; [reflexivity|]. intros b [= <-]. destruct got as [|x [|]]; try discriminate L.
  specialize (H eq_refl eq_refl eq_refl x eq_refl). change (byte0 [x]) with x. rewrite <- H, <- N.land_assoc, Hm, N.land_0_r. reflexivity.
Qed.
Lemma lp_wait_bit i m fuel : i < 8 -> N.land m (interrupt_u8 InSendOk) = 0 -> lp i m (fun m' r => m' = m /\ no_ok r) (wait_send_ok fuel (socket_new i)).
Proof.
  intros Hi Hm. induction fuel as [|fuel IH]; cbn [wait_send_ok]; [exact I|]. eapply lp_try; [apply lp_has_bit; [exact Hi|exact Hm]| |].
  - intros m' ok [-> H]. rewrite (H ok eq_refl). exact IH.
  - intros m' e [-> _]. split; [reflexivity|exact I].
Qed.
Ltac lr := match goal with |- lp ?i ?m _ _ => eapply lp_try with (G := fun m' _ => m' = m); [solve [lw]|let m := fresh in intros m ? ->|let m := fresh in intros m ? ->] end.
Lemma lp_raw_write m fuel d (H : N.land m (interrupt_u8 InSendOk) = 0) :
  lp 0 m (fun m' r => m' = m /\ no_ok r) (raw_write_frame fuel (mkRaw (socket_new 0)) d).
Proof.
  assert (H0 : 0 < 8) by lia.
  unfold raw_write_frame. cbv zeta. cbn [raw_socket]. unfold reset_interrupt, tx_new, tx_write, tx_commit.
  lr; [|now split].
  eapply lp_try with (G := fun m' _ => m' = m).
  { unfold get_tx_free_size, get_tx_write_pointer. lr; [|reflexivity]. lr; reflexivity. }
  2: { intros m0 ? ->. now split. }
  intros m0 c ->. eapply lp_try with (G := fun m' _ => m' = m).
  { destruct (_ || _); [reflexivity|]. apply lp_slice_to. intros x. lr; [|reflexivity]. destruct (_ <? _); [exact I|reflexivity]. }
  2: { intros m0 ? ->. now split. }
  intros m0 cn ->. eapply lp_try with (G := fun m' _ => m' = m).
  { unfold set_tx_write_pointer, command. lr; [|reflexivity]. lr; reflexivity. }
  2: { intros m0 ? ->. now split. }
  intros m0 u ->. eapply lp_try; [apply lp_wait_bit; [exact H0|exact H]| |]; intros m0 e [-> K]; [contradiction|now split].
Qed.
Lemma lp_enable m which : lp 0 m (fun m' r => match r with Ok _ => m' = b2n which | Err _ => True end) (raw_enable_interrupts (mkRaw (socket_new 0)) which).
Proof.
  unfold raw_enable_interrupts. cbn [raw_socket].
  eapply lp_try with (G := fun m' r => match r with Ok _ => m' = b2n which | Err _ => True end).
  - unfold set_interrupt_mask, write_frame. cbn [lp]. split; [|intros; exact I]. intros [u|e]; [|exact I]. rewrite u8_b2n. reflexivity.
  - intros m' u ->. eapply lp_try with (G := fun m' _ => m' = b2n which); [apply lp_common; [discriminate|reflexivity]|intros m' ? ->; reflexivity|intros; exact I].
  - intros; exact I.
Qed.
