(** A whole TCP connection: from a successful connect on, through any sequence of API calls. *)
From Verif Require Export TcpReceive FrameFacts.
From Verif Require Import Datasheet.

(** ** Right after connect *)
Lemma init_pointers_facts x m : let y := set_sr (init_pointers x) m in
  tx_rd y = tx_wr y /\ tx_ack y = tx_wr y /\ tx_end y = tx_wr y /\ tx_wr y < 65536 /\
  rx_wr y = rx_rd y /\ rx_base y = rx_rd y /\ rx_rd y < 65536 /\
  tx_busy y = false /\ tx_okdue y = false /\ rxlog y = [] /\ sent y = sent x /\ ir y = ir x /\ sr y = m /\
  tx_size y = tx_size x /\ rx_size y = rx_size x.
Proof.
  cbv zeta.
  assert (E1 : tx_wr (set_sr (init_pointers x) m) = seed_tx x mod 65536).
  { unfold tx_wr, init_pointers. sfields. rewrite !put16_puts, get16_puts_other by (left; reflexivity).
    apply puts_get16, N.mod_lt. discriminate. }
  assert (E2 : rx_rd (set_sr (init_pointers x) m) = seed_rx x mod 65536).
  { unfold rx_rd, init_pointers. sfields. rewrite !put16_puts. apply puts_get16, N.mod_lt. discriminate. }
  rewrite E1, E2. pose proof (N.mod_lt (seed_tx x) 65536 ltac:(discriminate)). pose proof (N.mod_lt (seed_rx x) 65536 ltac:(discriminate)).
  unfold tx_size, rx_size, init_pointers. sfields. rewrite !put16_puts, !puts_other by (left; reflexivity). auto 20.
Qed.
(** a socket as OPEN or CONNECT leaves it *)
Definition fresh_sock (y : sock) : Prop := ready y /\ rready y /\ unsent y = [] /\ tx_wr y = tx_rd y /\ rxlog y = pending y.
Lemma fresh_init x m : valid_size (tx_size x) -> valid_size (rx_size x) -> m < 256 -> sendok x = false ->
  fresh_sock (set_sr (init_pointers x) m).
Proof.
  intros Vt Vr Hm So. destruct (init_pointers_facts x m) as (T1 & T2 & T3 & T4 & R1 & R2 & R3 & B & O & Lg & _ & Ir & Sr & Zt & Zr).
  set (y := set_sr (init_pointers x) m) in *.
  assert (D : sub16 (tx_wr y) (tx_wr y) = 0) by now apply sub16_self.
  assert (V : txv y).
  { unfold txv. rewrite Zt, T1, T2, T3, D. split; [exact Vt|]. split; [exact T4|]. split; [exact T4|]. split; [exact T4|]. split; [reflexivity|]. lia. }
  assert (Rs : rx_rsr y = 0) by (unfold rx_rsr; rewrite R1, R2; now apply sub16_self).
  split; [|split; [|split; [|split]]].
  - split; [exact V|]. split; [exact B|]. split; [exact O|]. split; [unfold sendok in *; now rewrite Ir|]. split; [congruence|]. now rewrite Sr.
  - split; [|congruence]. split; [now rewrite Zr|]. split; [now rewrite R1|]. split; [now rewrite R2|]. rewrite Rs. lia.
  - unfold unsent. rewrite T3, D. reflexivity.
  - congruence.
  - rewrite Lg. unfold pending. now rewrite Rs.
Qed.
Lemma fresh_sevs i x y : sevs i x y -> fresh_sock x -> fresh_sock y.
Proof.
  intros N (R & Rr & U & W & L). destruct (txkeep_sevs i x y N R) as (R' & U' & _ & W' & Rd' & _).
  destruct (sevs_rx i x y N (proj1 Rr)) as (_ & ch & P1 & P2 & _).
  split; [exact R'|]. split; [now apply (rready_sevs i x)|]. split; [congruence|]. split; [congruence|].
  rewrite P1, P2. congruence.
Qed.
Lemma fresh_opened x r m : valid_size (tx_size x) -> valid_size (rx_size x) -> m < 256 ->
  r Sn_TXBUF_SIZE = regs x Sn_TXBUF_SIZE -> r Sn_RXBUF_SIZE = regs x Sn_RXBUF_SIZE -> fresh_sock (opened x r m).
Proof.
  intros Vt Vr Hm H1 H2. apply fresh_init; [| |exact Hm|].
  - unfold tx_size in *. sfields. now rewrite H1.
  - unfold rx_size in *. sfields. now rewrite H2.
  - unfold sendok. sfields. rewrite N.ldiff_spec. change (N.testbit 255 4) with true. apply andb_false_r.
Qed.
Lemma open_regs_size port p m a : a = Sn_TXBUF_SIZE \/ a = Sn_RXBUF_SIZE -> open_regs port p m a = m a.
Proof.
  intros H. unfold open_regs.
  destruct port as [v|]; destruct H as [-> | ->]; rewrite ?puts_other by (first [left; reflexivity | right; discriminate]); reflexivity.
Qed.
Lemma opened_sizes x r m : r Sn_TXBUF_SIZE = regs x Sn_TXBUF_SIZE -> r Sn_RXBUF_SIZE = regs x Sn_RXBUF_SIZE ->
  tx_size (opened x r m) = tx_size x /\ rx_size (opened x r m) = rx_size x.
Proof.
  intros H1 H2. unfold tx_size, rx_size. rewrite !opened_regs by (left; reflexivity). now rewrite H1, H2.
Qed.
Lemma fresh_set_dialled y l : fresh_sock y -> fresh_sock (set_dialled y l).
Proof. intros H. exact H. Qed.
Lemma fresh_dialled_of o : valid_size (tx_size o) -> valid_size (rx_size o) -> sendok o = false -> fresh_sock (dialled_of o).
Proof. intros H1 H2 H3. unfold dialled_of. apply fresh_set_dialled, fresh_init; auto. reflexivity. Qed.
Lemma set_regs_fields o rr : sendok (set_regs o rr) = sendok o /\ regs (set_regs o rr) = rr.
Proof. split; reflexivity. Qed.
Lemma fresh_dialled i r x : valid_size (tx_size x) -> valid_size (rx_size x) -> fresh_sock (dial_state i r x).
Proof.
  intros Vt Vr. unfold dial_state. set (rg := open_regs _ _ _).
  assert (R1 : rg Sn_TXBUF_SIZE = regs x Sn_TXBUF_SIZE) by (apply open_regs_size; auto).
  assert (R2 : rg Sn_RXBUF_SIZE = regs x Sn_RXBUF_SIZE) by (apply open_regs_size; auto).
  destruct (opened_sizes x rg SOCK_INIT R1 R2) as [Z1 Z2].
  pose proof (opened_ir x rg SOCK_INIT 4 ltac:(reflexivity)) as I4.
  generalize dependent (opened x rg SOCK_INIT). intros o Z1 Z2 I4. set (rr := puts _ Sn_DPORT _).
  destruct (set_regs_fields o rr) as [F1 F2].
  assert (G : forall a, 0x12 <= a -> rr a = regs o a).
  { intros a Ha. unfold rr. rewrite !puts_other; [reflexivity| |]; right; unfold Sn_DIPR, Sn_DPORT;
      [change (len (octets (a_ip r))) with 4|change (len (to_be (a_port r))) with 2]; lia. }
  apply fresh_dialled_of.
  - unfold tx_size in *. rewrite F2, G, Z1 by discriminate. exact Vt.
  - unfold rx_size in *. rewrite F2, G, Z2 by discriminate. exact Vr.
  - rewrite F1. exact I4.
Qed.
Lemma fresh_reopened x s1 : reopened x s1 -> valid_size (tx_size x) -> valid_size (rx_size x) -> fresh_sock s1.
Proof.
  intros (y & -> & _ & _ & R) Vt Vr.
  assert (Z1 : tx_size y = tx_size x) by (unfold tx_size; now rewrite R by discriminate).
  assert (Z2 : rx_size y = rx_size x) by (unfold rx_size; now rewrite R by discriminate).
  apply fresh_opened; [now rewrite Z1|now rewrite Z2|reflexivity|apply open_regs_size; auto|apply open_regs_size; auto].
Qed.

(** the address registers hold the peer's address *)
Definition toward (i : N) (r : addr4) (m : N -> byte) : Prop :=
  get16 m Sn_PORT = 49849 + i /\
  [m Sn_DIPR; m (Sn_DIPR + 1); m (Sn_DIPR + 2); m (Sn_DIPR + 3)] = octets (a_ip r) /\ get16 m Sn_DPORT = a_port r.
Definition to_peer (i : N) (r : addr4) (p : packet) : Prop :=
  p_sport p = 49849 + i /\ p_ip p = octets (a_ip r) /\ p_dport p = a_port r.
Lemma toward_addressed i r m p : toward i r m -> addressed m p -> to_peer i r p.
Proof. intros (T1 & T2 & T3) (A1 & A2 & A3). unfold to_peer. rewrite A1, A2, A3. auto. Qed.
Lemma toward_ext i r m m' : (forall a, 4 <= a < 0x12 -> m' a = m a) -> toward i r m -> toward i r m'.
Proof. intros H. unfold toward, get16. rewrite !H by (split; [discriminate|reflexivity]). auto. Qed.
Lemma toward_dial_entry i r y : dialled (dialled_of y) = dialled y ++ [(49849 + i, octets (a_ip r), a_port r)] ->
  toward i r (regs (dialled_of y)).
Proof.
  intros D. unfold dialled_of in D at 1. cbn [dialled set_dialled] in D. apply app_inv_head in D.
  assert (E : dial_entry y = (49849 + i, octets (a_ip r), a_port r)) by congruence.
  apply (toward_ext i r (regs y)); [intros a Ha; apply dialled_of_regs; left; lia|].
  split; [exact (f_equal (fun q => fst (fst q)) E)|]. split; [exact (f_equal (fun q => snd (fst q)) E)|exact (f_equal snd E)].
Qed.
Lemma toward_dialled i r x : i < 8 -> a_port r < 65536 -> toward i r (regs (dial_state i r x)).
Proof.
  intros Hi Hr. pose proof (dial_state_dialled i r x Hi Hr) as D. unfold dial_state in *.
  assert (Ho : dialled (opened x (open_regs (Some (49849 + i)) MR_TCP (regs x)) SOCK_INIT) = dialled x) by apply opened_tx.
  generalize dependent (opened x (open_regs (Some (49849 + i)) MR_TCP (regs x)) SOCK_INIT). intros o D Ho.
  apply toward_dial_entry. rewrite D. cbn [dialled set_regs]. now rewrite Ho.
Qed.

Section After_connect.
  Context (e : env) (i : N).
  Hypothesis NF : no_faults e.
  Hypothesis Hi : i < 8.

  Lemma wp_connect_fresh fuel r (Q : outcome (res unit (nberr terr)) -> sys -> Prop) s :
    a_port r < 65536 -> valid_size (tx_size (sk i s)) -> valid_size (rx_size (sk i s)) ->
    (forall s', fresh_sock (sk i s') -> toward i r (regs (sk i s')) -> Q (Done (Ok tt)) s') ->
    (forall s', Q Looping s') ->
    wp e (tcp_connect fuel (mkTcp (socket_new i)) (V4 r)) Q s.
  Proof.
    intros Hr Vt Vr H HL. apply wp_tcp_connect; auto. intros x s1 N1. cbv zeta.
    destruct (sevs_wr _ _ _ N1) as (_ & Z1 & _ & Z2).
    pose proof (fresh_dialled i r x ltac:(now rewrite Z1) ltac:(now rewrite Z2)) as F.
    pose proof (toward_dialled i r x Hi Hr) as T.
    assert (Zd : valid_size (tx_size (dial_state i r x)) /\ valid_size (rx_size (dial_state i r x))) by (split; apply F).
    generalize dependent (dial_state i r x). intros y F T [Zy1 Zy2]. split; [|split].
    - intros N2 _. apply H; [now apply (fresh_sevs i y)|]. now rewrite (sevs_regs _ _ _ N2).
    - intros z _ _ Rz. apply H; [now apply (fresh_reopened y)|].
      destruct Rz as (u & -> & _ & _ & Ru). apply (toward_ext i r (regs y)); [|exact T].
      intros a Ha. rewrite opened_regs by (left; lia). unfold open_regs.
      rewrite !puts_other by (cbn [len length N.of_nat]; unfold Sn_MR, Sn_IMR in *; lia). apply Ru. unfold Sn_MR. lia.
    - intros _. apply HL.
  Qed.

  (** ** The running connection *)
  (** [acc]: bytes accepted by sends so far, [del]: bytes delivered by receives so far,
      [x1]: the socket when connect returned *)
  Definition session_inv (r : addr4) (x1 : sock) (acc del : list byte) (x : sock) : Prop :=
    ready x /\ rready x /\ unsent x = [] /\ toward i r (regs x) /\ rxlog x = del ++ pending x /\
    exists l, sent x = sent x1 ++ l /\ payload l = acc /\ Forall (to_peer i r) l.

  Lemma session_start r x : fresh_sock x -> toward i r (regs x) -> session_inv r x [] [] x.
  Proof.
    intros (R & Rr & U & _ & L) T. split; [exact R|]. split; [exact Rr|]. split; [exact U|]. split; [exact T|]. split; [exact L|].
    exists []. rewrite app_nil_r. auto.
  Qed.
  Lemma session_keep r x1 acc del x x' : session_inv r x1 acc del x -> txkeep x x' -> rready x' ->
    forall d, rxlog x' = (del ++ d) ++ pending x' -> session_inv r x1 acc (del ++ d) x'.
  Proof.
    intros (R & Rr & U & T & L & l & S1 & S2 & S3) (K1 & K2 & K3 & _ & _ & _ & K7) Rr' d L'.
    split; [exact K1|]. split; [exact Rr'|]. split; [congruence|].
    split. { apply (toward_ext i r (regs x)); [|exact T]. intros a Ha. apply K7; unfold Sn_RX_RD; lia. }
    split; [exact L'|]. exists l. rewrite K3. auto.
  Qed.
  Lemma session_sevs r x1 acc del x x' : sevs i x x' -> session_inv r x1 acc del x -> session_inv r x1 acc del x'.
  Proof.
    intros N S. pose proof S as (R & Rr & _ & _ & L & _).
    destruct (sevs_rx _ _ _ N (proj1 Rr)) as (_ & ch & P1 & P2 & _).
    rewrite <- (app_nil_r del). apply (session_keep r x1 acc del x x' S).
    - now apply (txkeep_sevs i).
    - now apply (rready_sevs i x).
    - rewrite app_nil_r, P1, P2, L. symmetry. apply app_assoc.
  Qed.
  Lemma session_recv r x1 acc del x buf n buf' x' : session_inv r x1 acc del x -> recv_done x buf n buf' x' ->
    session_inv r x1 acc (del ++ take n buf') x'.
  Proof.
    intros S (H1 & H2 & H3 & ch & H4 & H5 & H6 & H7). pose proof S as (_ & _ & _ & _ & L & _).
    apply (session_keep r x1 acc del x x' S H2 H3). rewrite H7, H6, L, H5, take_app_le by (rewrite len_take; lia).
    rewrite (take_all n (take n _)) by (rewrite len_take; lia). rewrite <- !app_assoc. f_equal. symmetry. apply take_drop.
  Qed.
  Lemma rxlog_rxrel x x' del : rxrel x x' -> rxv x -> rxlog x = del ++ pending x -> rxlog x' = del ++ pending x'.
  Proof.
    intros (_ & _ & _ & _ & H) V L. destruct (H V) as (_ & ch & P1 & P2 & _). rewrite P1, P2, L. symmetry. apply app_assoc.
  Qed.
  Lemma session_sent r x1 acc del x l x' : session_inv r x1 acc del x -> sent_more x l x' ->
    toward i r (regs x') /\ rready x' /\ rxlog x' = del ++ pending x' /\
    exists l', sent x' = sent x1 ++ l' /\ payload l' = acc ++ payload l /\ Forall (to_peer i r) l'.
  Proof.
    intros (R & Rr & U & T & L & l0 & S1 & S2 & S3) (M1 & M2 & M3 & M4 & M5).
    split. { apply (toward_ext i r (regs x)); [|exact T]. intros a Ha. apply M2; unfold Sn_TX_WR; lia. }
    split; [now apply (rready_rxrel x)|]. split; [eapply rxlog_rxrel; eauto; apply Rr|].
    exists (l0 ++ l). rewrite M4, S1. split; [symmetry; apply app_assoc|]. split; [rewrite payload_app; congruence|].
    apply Forall_app. split; [exact S3|]. eapply Forall_impl; [|exact M5]. intros p. now apply toward_addressed.
  Qed.
  Lemma session_send r x1 acc del x w x' : session_inv r x1 acc del x -> send_done x w x' -> session_inv r x1 (acc ++ w) del x'.
  Proof.
    intros S (l & M & H1 & _ & H2 & H3 & _). pose proof S as (_ & _ & U & _).
    destruct (session_sent r x1 acc del x l x' S M) as (T & Rr & L & l' & A1 & A2 & A3).
    split; [exact H2|]. split; [exact Rr|]. split.
    { unfold unsent. destruct H2 as (V & _ & _ & _ & E & _). rewrite E, H3, sub16_self by apply V. reflexivity. }
    split; [exact T|]. split; [exact L|]. exists l'. rewrite A2, H1, U. auto.
  Qed.
End After_connect.

(** ** Any sequence of API calls *)
(** what one call adds to the streams of handle [h] *)
Definition accepted1 (h : nat) (o : op) (r : out) : list byte :=
  match o, r with
  | OpTcpSend h' d, RTcpSend (Ok n) => if Nat.eqb h' h then take n d else []
  | _, _ => []
  end.
Definition delivered1 (h : nat) (o : op) (r : out) : list byte :=
  match o, r with
  | OpTcpReceive h' _, RTcpReceive b (Ok n) => if Nat.eqb h' h then take n b else []
  | _, _ => []
  end.
Fixpoint accepted (h : nat) (ops : list op) (outs : list out) : list byte :=
  match ops, outs with o :: ops', r :: outs' => accepted1 h o r ++ accepted h ops' outs' | _, _ => [] end.
Fixpoint delivered (h : nat) (ops : list op) (outs : list out) : list byte :=
  match ops, outs with o :: ops', r :: outs' => delivered1 h o r ++ delivered h ops' outs' | _, _ => [] end.
(** calls that neither end the connection of handle [h] nor reset the chip *)
Definition leaves_open (h : nat) (o : op) : Prop :=
  match o with
  | OpTcpConnect h' _ | OpTcpClose h' | OpForget h' => h' <> h
  | OpDevice QResetDevice => False
  | _ => True
  end.

(** no call on handle [h] reported a bus error (calls on other handles may have) *)
Fixpoint no_bus_error (h : nat) (ops : list op) (outs : list out) : Prop :=
  match ops, outs with
  | o :: ops', r :: outs' => (op_handle o = Some h -> out_berr r = None) /\ no_bus_error h ops' outs'
  | _, _ => True
  end.

Lemma step_session e fuel a o s a' out s' h i r x1 acc del :
  i < 8 -> pool_inv a -> lookup h (handles a) = Some (HTcp (mkTcp (socket_new i))) ->
  leaves_open h o -> session_inv i r x1 acc del (sk i s) ->
  run e (step fuel a o) s = (Done (a', out), s') -> (op_handle o = Some h -> out_berr out = None) ->
  pool_inv a' /\ lookup h (handles a') = Some (HTcp (mkTcp (socket_new i))) /\
  session_inv i r x1 (acc ++ accepted1 h o out) (del ++ delivered1 h o out) (sk i s').
Proof.
  intros Hi I L K S R NB. split; [now apply (run_step_inv e fuel a o s a' out s')|].
  assert (Dec : op_handle o = Some h \/ op_handle o <> Some h).
  { destruct (op_handle o) as [h'|]; [|right; discriminate]. destruct (Nat.eq_dec h' h) as [->|]; [left; reflexivity|right; congruence]. }
  destruct Dec as [E|E].
  - apply run_step_nofail in R; [|now apply NB]. pose proof (nofail_no_faults e) as NF.
    destruct o as [|h'| |h' r'|h' d|h' b|h'| |h' r'|h' pt|h' d|h' r' d|h' b|h'|h'| |q|h' pt|h' q]; cbn [op_handle] in E; try discriminate E; injection E as ->;
      cbn [step leaves_open] in *; try (now elim K); rewrite L in R;
      try (cbn [run] in R; injection R as <- <- <-; cbn [accepted1 delivered1]; rewrite !app_nil_r; split; assumption).
    + (* send *)
      apply run_bind_done in R as (res & s1 & R1 & R). cbn [run] in R. injection R as <- <- <-. split; [exact L|].
      refine (wp_run (nofail e) _ (fun o s' => forall v, o = Done v -> session_inv i r x1 (acc ++ accepted1 h (OpTcpSend h d) (RTcpSend v)) (del ++ []) (sk i s')) s (Done res) s1 R1 _ res eq_refl).
      cbn [accepted1]. rewrite app_nil_r. apply wp_tcp_send; auto; [apply S| | |].
      * intros n s2 _ D v [= <-]. rewrite Nat.eqb_refl. eapply session_send; eauto.
      * intros s2 N _ v [= <-]. rewrite app_nil_r. eapply session_sevs; eauto.
      * intros; discriminate.
    + (* receive *)
      apply run_bind_done in R as (res & s1 & R1 & R). cbn [run] in R. injection R as <- <- <-. split; [exact L|].
      refine (wp_run (nofail e) _ (fun o s' => forall v, o = Done v -> session_inv i r x1 (acc ++ []) (del ++ delivered1 h (OpTcpReceive h b) (RTcpReceive (fst v) (snd v))) (sk i s')) s (Done res) s1 R1 _ res eq_refl).
      cbn [delivered1]. rewrite app_nil_r. apply wp_tcp_receive; auto; [apply S|apply S| | |].
      * intros n d' s2 D _ v [= <-]. cbn [fst snd]. rewrite Nat.eqb_refl. eapply session_recv; eauto.
      * intros s2 N _ v [= <-]. cbn [fst snd]. rewrite app_nil_r. eapply session_sevs; eauto.
      * intros; discriminate.
  - split; [now apply (step_lookup e fuel a o s a' out s')|].
    assert (A0 : accepted1 h o out = []).
    { unfold accepted1. destruct o; try reflexivity. destruct out; try reflexivity. destruct r0; try reflexivity. cbn [op_handle] in E.
      destruct (Nat.eqb_spec h0 h) as [->|]; [now elim E|reflexivity]. }
    assert (D0 : delivered1 h o out = []).
    { unfold delivered1. destruct o; try reflexivity. destruct out; try reflexivity. destruct r0; try reflexivity. cbn [op_handle] in E.
      destruct (Nat.eqb_spec h0 h) as [->|]; [now elim E|reflexivity]. }
    rewrite A0, D0, !app_nil_r.
    assert (Hs : spares i (step fuel a o)).
    { eapply spares_step; eauto. intros ->. exact K. }
    pose proof (run_spares e i _ Hs s) as N. rewrite R in N. cbn [snd] in N.
    eapply session_sevs; eauto.
Qed.
Lemma run_ops_session e fuel h i r x1 : i < 8 -> forall ops a s a' outs s' acc del,
  pool_inv a -> lookup h (handles a) = Some (HTcp (mkTcp (socket_new i))) ->
  Forall (leaves_open h) ops -> session_inv i r x1 acc del (sk i s) ->
  run e (run_ops fuel a ops) s = (Done (a', outs), s') -> no_bus_error h ops outs ->
  pool_inv a' /\ lookup h (handles a') = Some (HTcp (mkTcp (socket_new i))) /\
  session_inv i r x1 (acc ++ accepted h ops outs) (del ++ delivered h ops outs) (sk i s').
Proof.
  intros Hi. induction ops as [|o ops IH]; intros a s a' outs s' acc del I L K S R NB; cbn [run_ops] in R.
  - injection R as <- <- <-. cbn [accepted delivered]. rewrite !app_nil_r. auto.
  - apply run_bind_done in R as ([a1 o1] & s1 & R1 & R). apply run_bind_done in R as ([a2 o2] & s2 & R2 & R).
    cbn [run fst snd] in *. injection R as <- <- <-. inversion K as [|? ? K1 K2]; subst. cbn [no_bus_error] in NB. destruct NB as [NB1 NB2].
    destruct (step_session e fuel a o s a1 o1 s1 h i r x1 acc del Hi I L K1 S R1 NB1) as (I1 & L1 & S1).
    destruct (IH a1 s1 a2 o2 s2 _ _ I1 L1 K2 S1 R2 NB2) as (I2 & L2 & S2).
    split; [exact I2|]. split; [exact L2|]. cbn [accepted delivered]. rewrite !app_assoc. exact S2.
Qed.

(** ** The situation of a running connection, for the theorems *)
(** A program made the calls [ops0], then a connect on handle [h] (socket [i]) to [r], which
    returned Ok with the socket in state [x1], then the calls [ops], none of which closes or
    reconnects the handle or resets the chip; no call on [h] reported a bus error.  Since the
    connect, sends on [h] have accepted the bytes [acc] and receives have delivered [del]. *)
Definition tcp_session (e : env) (fuel h : nat) (i : N) (r : addr4) (x1 : sock) (acc del : list byte)
  (a : History.app) (s : sys) : Prop :=
  exists ho s00 ops0 a0 outs0 s0 t s1 ops outs,
    run e (run_ops fuel (app_new ho) ops0) s00 = (Done (a0, outs0), s0) /\
    lookup h (handles a0) = Some (HTcp t) /\ index (t_socket t) = i /\
    valid_size (tx_size (socks (s_chip s0) i)) /\ valid_size (rx_size (socks (s_chip s0) i)) /\
    a_port r < 65536 /\
    run e (step fuel a0 (OpTcpConnect h (V4 r))) s0 = (Done (a0, RTcpConnect (Ok tt)), s1) /\
    x1 = socks (s_chip s1) i /\
    run e (run_ops fuel a0 ops) s1 = (Done (a, outs), s) /\
    Forall (leaves_open h) ops /\ no_bus_error h ops outs /\
    acc = accepted h ops outs /\ del = delivered h ops outs.

Lemma connect_starts e fuel h i r a0 s0 s1 : i < 8 -> lookup h (handles a0) = Some (HTcp (mkTcp (socket_new i))) ->
  valid_size (tx_size (sk i s0)) -> valid_size (rx_size (sk i s0)) -> a_port r < 65536 ->
  run e (step fuel a0 (OpTcpConnect h (V4 r))) s0 = (Done (a0, RTcpConnect (Ok tt)), s1) ->
  session_inv i r (sk i s1) [] [] (sk i s1).
Proof.
  intros Hi L Vt Vr Hr R. apply run_step_nofail in R; [|reflexivity]. pose proof (nofail_no_faults e) as NF.
  cbn [step] in R. rewrite L in R. apply run_bind_done in R as (res & s2 & R1 & R). cbn [run] in R. injection R as _ <-.
  refine (wp_run (nofail e) _ (fun o s' => forall v, o = Done v -> session_inv i r (sk i s') [] [] (sk i s')) s0 (Done res) s2 R1 _ res eq_refl).
  apply wp_connect_fresh; auto.
  - intros s' F T v _. now apply session_start.
  - intros s' v; discriminate.
Qed.
Lemma session_facts e fuel h i r x1 acc del a s : tcp_session e fuel h i r x1 acc del a s ->
  i < 8 /\ pool_inv a /\ lookup h (handles a) = Some (HTcp (mkTcp (socket_new i))) /\ session_inv i r x1 acc del (sk i s).
Proof.
  intros (ho & s00 & ops0 & a0 & outs0 & s0 & t & s1 & ops & outs & R0 & L & Ei & Vt & Vr & Hr & R1 & -> & R2 & K & NB & -> & ->).
  pose proof (run_ops_inv e fuel ops0 _ _ _ _ _ (pool_inv_new ho) R0) as I.
  destruct (pi_lookup _ _ _ I L) as (j & Hj & Ej & _). cbn [handle_socket] in Ej. rewrite Ej in Ei. cbn [index socket_new] in Ei. subst j.
  destruct t as [t']. cbn [t_socket] in Ej. subst t'.
  pose proof (connect_starts e fuel h i r a0 s0 s1 Hj L Vt Vr Hr R1) as S.
  destruct (run_ops_session e fuel h i r _ Hj ops a0 s1 a outs s [] [] I L K S R2 NB) as (I2 & L2 & S2).
  auto.
Qed.
(** one more call *)
Lemma run_ops_snoc e fuel o : forall ops a s a1 outs s1 a2 out s2,
  run e (run_ops fuel a ops) s = (Done (a1, outs), s1) -> run e (step fuel a1 o) s1 = (Done (a2, out), s2) ->
  run e (run_ops fuel a (ops ++ [o])) s = (Done (a2, outs ++ [out]), s2).
Proof.
  induction ops as [|o' ops IH]; intros a s a1 outs s1 a2 out s2 R1 R2; cbn [app run_ops] in *.
  - injection R1 as <- <- <-. rewrite run_bind, R2. cbn [fst snd run bind]. reflexivity.
  - apply run_bind_done in R1 as ([a3 o3] & s3 & R1 & R3). apply run_bind_done in R3 as ([a4 o4] & s4 & R3 & R4).
    cbn [run fst snd] in *. injection R4 as <- <- <-.
    rewrite run_bind, R1. cbn [fst snd]. rewrite run_bind, (IH _ _ _ _ _ _ _ _ R3 R2). reflexivity.
Qed.
Lemma accepted_snoc h o r : forall ops outs, length ops = length outs ->
  accepted h (ops ++ [o]) (outs ++ [r]) = accepted h ops outs ++ accepted1 h o r /\
  delivered h (ops ++ [o]) (outs ++ [r]) = delivered h ops outs ++ delivered1 h o r /\
  (no_bus_error h ops outs -> (op_handle o = Some h -> out_berr r = None) -> no_bus_error h (ops ++ [o]) (outs ++ [r])).
Proof.
  induction ops as [|o' ops IH]; intros [|r' outs] L; try discriminate L.
  - cbn. rewrite !app_nil_r. auto.
  - injection L as L. destruct (IH outs L) as (I1 & I2 & I3). cbn [app accepted delivered no_bus_error].
    rewrite I1, I2, !app_assoc. split; [reflexivity|]. split; [reflexivity|]. intros [N1 N2] N3. auto.
Qed.
Lemma run_ops_outs e fuel : forall ops a s a1 outs s1, run e (run_ops fuel a ops) s = (Done (a1, outs), s1) -> length ops = length outs.
Proof.
  induction ops as [|o ops IH]; intros a s a1 outs s1 R; cbn [run_ops] in R.
  - now injection R as <- <- <-.
  - apply run_bind_done in R as ([a3 o3] & s3 & R1 & R3). apply run_bind_done in R3 as ([a4 o4] & s4 & R3 & R4).
    cbn [run fst snd] in *. injection R4 as <- <- <-. cbn [length]. f_equal. eauto.
Qed.
Lemma session_next e fuel h i r x1 acc del a s o a' out s' : tcp_session e fuel h i r x1 acc del a s ->
  leaves_open h o -> run e (step fuel a o) s = (Done (a', out), s') -> (op_handle o = Some h -> out_berr out = None) ->
  tcp_session e fuel h i r x1 (acc ++ accepted1 h o out) (del ++ delivered1 h o out) a' s'.
Proof.
  intros (ho & s00 & ops0 & a0 & outs0 & s0 & t & s1 & ops & outs & R0 & L & Ei & Vt & Vr & Hr & R1 & Ex & R2 & K & NB & -> & ->) Ko R3 NB3.
  pose proof (run_ops_outs e fuel _ _ _ _ _ _ R2) as Le. destruct (accepted_snoc h o out ops outs Le) as (A1 & A2 & A3).
  exists ho, s00, ops0, a0, outs0, s0, t, s1, (ops ++ [o]), (outs ++ [out]).
  split; [exact R0|]. split; [exact L|]. split; [exact Ei|]. split; [exact Vt|]. split; [exact Vr|]. split; [exact Hr|].
  split; [exact R1|]. split; [exact Ex|]. split; [now apply (run_ops_snoc e fuel o _ _ _ a outs s)|].
  split; [apply Forall_app; auto|]. auto.
Qed.
(** a call on the connection that reported no bus error, in any environment *)
Lemma session_call {A} (E : A -> option berr) e (p : prog A) (Q : outcome A -> sys -> Prop) s o s' :
  estop E p -> run e p s = (o, s') -> (forall r, o = Done r -> E r = None) -> wp (nofail e) p Q s -> Q o s'.
Proof. intros H R N W. apply (run_nofail E e p H s o s' R) in N. exact (wp_run _ _ _ _ _ _ N W). Qed.
