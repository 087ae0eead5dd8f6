(** MACRAW frames against the chip: one read, one write. *)
From Verif Require Export UdpReceive RawDevice.
From Verif Require Import Datasheet ProgFacts.

(** the frames [q] are waiting in the RX buffer *)
Definition frames (q : list (list byte)) : list byte := concat (map raw_record q).
Definition wf_frame (d : list byte) : Prop := len d < 65534.
Definition fqueue (x : sock) (q : list (list byte)) : Prop := pending x = frames q /\ Forall wf_frame q.
Lemma frames_app a b : frames (a ++ b) = frames a ++ frames b.
Proof. unfold frames. now rewrite map_app, concat_app. Qed.
Lemma frames_one d : frames [d] = raw_record d.
Proof. unfold frames. cbn [map concat]. apply app_nil_r. Qed.
Lemma frames_cons d q : frames (d :: q) = raw_record d ++ frames q.
Proof. reflexivity. Qed.
Lemma len_raw_record d : len (raw_record d) = 2 + len d.
Proof. unfold raw_record. rewrite len_app. reflexivity. Qed.
Lemma atoms_frames cs : Forall (atom SOCK_MACRAW) cs -> exists q, concat cs = frames q /\ Forall wf_frame q.
Proof.
  induction 1 as [|c cs (_ & H) _ (q & E & F)]; [exists []; split; [reflexivity|constructor]|].
  destruct (H eq_refl) as (d & Hd & ->). exists (d :: q). cbn [concat]. rewrite E. split; [reflexivity|]. now constructor.
Qed.
Lemma rxgrow_queue x y q : rxgrow x y -> sr x = SOCK_MACRAW -> rxv x -> fqueue x q ->
  exists q', fqueue y (q ++ q') /\ rxlog y = rxlog x ++ frames q'.
Proof.
  intros G S V (Q1 & Q2). destruct (G V) as (_ & cs & P & L & F). rewrite S in F. destruct (atoms_frames cs F) as (q' & E & F').
  exists q'. rewrite <- E. split; [|exact L]. split; [rewrite P, Q1, frames_app, E; reflexivity|]. apply Forall_app. auto.
Qed.
Lemma sevs_fqueue i x y q : sevs i x y -> sr x = SOCK_MACRAW -> rxv x -> fqueue x q ->
  exists q', fqueue y (q ++ q') /\ rxlog y = rxlog x ++ frames q'.
Proof. intros H S. apply rxgrow_queue; [|exact S]. apply (rxgrow_sevs i); [right; exact S|exact H]. Qed.

(** an open MACRAW socket between two calls: nothing being sent, no SENDOK outstanding *)
Definition rawst (x : sock) : Prop := sr x = SOCK_MACRAW /\ rested x /\ tx_okdue x = false /\ rready x.
Lemma rawst_sevs i x y : sevs i x y -> rawst x -> rawst y /\ sent y = sent x /\ sendok y = sendok x /\ txm y = txm x.
Proof.
  intros H (S & R & O & V). destruct (rested_sevs i x y H R) as (R' & E & _ & _ & _ & S').
  destruct (calm_sevs i x y H (proj1 (proj2 (proj2 R))) O) as (_ & O' & K & _).
  split; [|split; [exact E|split; [exact K|now apply (sevs_txm i)]]].
  split; [congruence|]. split; [exact R'|]. split; [exact O'|]. now apply (rready_sevs i x).
Qed.

(** the header the chip puts before a frame *)
Lemma raw_header d : wf_frame d -> ssub16 (from_be [hi (len d + 2); lo (len d + 2)]) 2 = len d.
Proof.
  unfold wf_frame, ssub16. intros H. rewrite from_be_2. unfold hi, lo. rewrite !b2n_u8. lia.
Qed.

Section Cursor.
  Context (e : env) (i : N).
  Hypothesis NF : no_faults e.
  Hypothesis Hi : i < 8.

  Lemma wp_rx_read c buf off (Q : outcome (list byte * res (cursor * N) berr) -> sys -> Prop) s :
    rxv (sk i s) -> ptr c < 65536 ->
    ptr c mod rx_size (sk i s) = (rx_base (sk i s) + off) mod rx_size (sk i s) ->
    size c < 65536 -> len buf <= size c -> off + len buf <= rx_rsr (sk i s) ->
    (forall s1, sevs i (sk i s) (sk i s1) ->
       Q (Done (take (len buf) (drop off (pending (sk i s))),
          Ok (mkCursor ((ptr c + len buf) mod 65536) (size c - len buf), len buf))) s1) ->
    wp e (rx_read (socket_new i) c buf) Q s.
  Proof.
    intros V Hp Hm Hs Hb Ho H. unfold rx_read. destruct buf as [|b0 buf0] eqn:Eb.
    { apply wp_ret. change (len []) with 0 in H. replace (mkCursor _ _, 0) with (c, 0) in H; [exact (H s (sevs_refl i _))|].
      destruct c as [p z]. cbn [ptr size] in *. rewrite N.add_0_r, N.sub_0_r, N.mod_small by exact Hp. reflexivity. }
    rewrite <- Eb in *. clear Eb b0 buf0. cbv zeta. unfold available, as_u16.
    assert (E : N.min (size c) (len buf mod 65536) = len buf) by (rewrite N.mod_small by lia; lia). rewrite E.
    apply wp_slice_to; [|lia]. intros _.
    assert (Et : take (len buf) buf = buf) by (unfold take, len; rewrite Nat2N.id; apply firstn_all).
    assert (Ed : drop (len buf) buf = []) by (unfold drop, len; rewrite Nat2N.id; apply skipn_all).
    rewrite Et, Ed. apply wp_bind. unfold read_into. rewrite so_rx by exact Hi.
    apply (wp_rrx e i NF _ _ off); auto. intros s1 N1. apply wp_ret. cbn [fst snd]. apply wp_ret. rewrite app_nil_r.
    unfold rx_skip, available. replace (N.min (size c) (len buf)) with (len buf) by lia.
    replace (length buf) with (N.to_nat (len buf)) by (unfold len; lia). unfold wadd16. exact (H s1 N1).
  Qed.
End Cursor.

(** one frame given to the caller: [g] was the oldest queued, [later] stays *)
Definition frame_got (x : sock) (q0 : list (list byte)) (buf : list byte) (n : N) (buf' : list byte) (x' : sock) : Prop :=
  rawst x' /\ sent x' = sent x /\ (forall a, a <> Sn_RX_RD -> a <> Sn_RX_RD + 1 -> regs x' a = regs x a) /\ sendok x' = sendok x /\
  exists g later q', q0 ++ q' = g :: later /\ fqueue x' later /\ wf_frame g /\ rxlog x' = rxlog x ++ frames q' /\
    n = N.min (len g) (len buf) /\ buf' = take n g ++ drop n buf.

Section Read.
  Context (e : env) (i : N).
  Hypothesis NF : no_faults e.
  Hypothesis Hi : i < 8.

  Lemma wp_raw_read fuel buf q0 (Q : outcome (list byte * res N berr) -> sys -> Prop) s :
    rawst (sk i s) -> fqueue (sk i s) q0 ->
    (forall n buf' s', frame_got (sk i s) q0 buf n buf' (sk i s') -> Q (Done (buf', Ok n)) s') ->
    (forall s', sevs i (sk i s) (sk i s') -> q0 = [] -> Q (Done (buf, Ok 0)) s') ->
    (forall s', sevs i (sk i s) (sk i s') -> Q Looping s') ->
    wp e (raw_read_frame fuel (mkRaw (socket_new i)) buf) Q s.
  Proof.
    intros St Q0 HO HE HL. pose proof St as (Sm & R & Od & Rr). unfold raw_read_frame, rx_new. cbn [raw_socket]. cbv zeta.
    apply wp_try, wp_try, wp_get_receive_size; auto; [apply Rr|].
    intros y s1 N1 N1'. cbv beta iota.
    assert (N01 : sevs i (sk i s) (sk i s1)) by (eapply sevs_trans; eauto).
    apply wp_try, wp_get_rx_read_pointer; auto. intros s2 N2. cbv beta iota. apply wp_ret. cbv beta iota.
    assert (N02 : sevs i (sk i s) (sk i s2)) by (eapply sevs_trans; eauto).
    assert (Ny2 : sevs i y (sk i s2)) by (eapply sevs_trans; eauto).
    destruct (rawst_sevs i _ _ N1 St) as ((Sy & _ & _ & Vy & Ey) & _).
    destruct (sevs_fqueue i _ _ q0 N1 Sm (proj1 Rr) Q0) as (q1 & Qy & Ly).
    unfold available. cbn [size].
    destruct (N.eqb_spec (rx_rsr y) 0) as [Z|Nz].
    { apply wp_ret, HE; auto. destruct Qy as (Q1 & _). rewrite <- len_pending, Q1 in Z.
      destruct q0 as [|g q0]; [reflexivity|]. exfalso. cbn [List.app] in Z. rewrite frames_cons, len_app, len_raw_record in Z. lia. }
    pose proof Qy as (Q1 & Q2). destruct (q0 ++ q1) as [|g later] eqn:Eq.
    { exfalso. rewrite <- len_pending, Q1 in Nz. now apply Nz. }
    pose proof (Forall_inv Q2) as Wg.
    assert (Tot : rx_rsr y = 2 + len g + len (frames later)) by (rewrite <- len_pending, Q1, frames_cons, len_app, len_raw_record; lia).
    assert (Rlt : rx_rsr y < 65536) by apply sub16_lt.
    destruct (rawst_sevs i _ _ N02 St) as ((S2 & R2 & O2 & V2 & E2) & Et2 & Ek2 & _). pose proof V2 as (Vz & Vw & Vb & Vr).
    destruct (sevs_rx _ _ _ Ny2 Vy) as (_ & c2 & P2 & _ & _ & L2).
    rewrite E2. apply wp_bind.
    apply (wp_rx_read e i NF Hi _ _ 0); cbn [ptr size]; auto; try (change (len (zeros 2)) with 2; lia); [now rewrite N.add_0_r|].
    intros s3 N3. cbn [fst snd]. change (len (zeros 2)) with 2. cbv beta iota. cbn [fst snd]. change (2 =? 2) with true. cbv iota.
    assert (Ep2 : pending (sk i s2) = raw_record g ++ (frames later ++ c2)) by (rewrite P2, Q1, frames_cons, <- app_assoc; reflexivity).
    assert (Eh : take 2 (drop 0 (pending (sk i s2))) = [hi (len g + 2); lo (len g + 2)]) by (rewrite Ep2; reflexivity).
    rewrite Eh, raw_header by exact Wg.
    assert (N03 : sevs i (sk i s) (sk i s3)) by (eapply sevs_trans; eauto).
    destruct (sevs_rx _ _ _ N3 V2) as (V3 & c3 & P3 & _ & _ & L3).
    assert (B3 : rx_base (sk i s3) = rx_base (sk i s2)) by now apply (sevs_rx_base i).
    assert (Ep3 : pending (sk i s3) = [hi (len g + 2); lo (len g + 2)] ++ (g ++ (frames later ++ c2) ++ c3)).
    { rewrite P3, Ep2. unfold raw_record. rewrite <- !app_assoc. reflexivity. }
    set (n := N.min (len g) (len buf)).
    (* the body: whatever the buffer size, [n] bytes of the frame arrive *)
    assert (Body : forall (K : list byte * res (cursor * N) berr -> prog (list byte * res N berr)),
      (forall s4, sevs i (sk i s3) (sk i s4) ->
        wp e (K (take n g ++ drop n buf, Ok (mkCursor ((rx_base (sk i s2) + 2 + n) mod 65536) (rx_rsr y - 2 - n), n))) Q s4) ->
      wp e (do r <- rx_read_upto (socket_new i) (mkCursor ((rx_base (sk i s2) + 2) mod 65536) (rx_rsr y - 2)) buf (len g) ;; K r) Q s3).
    { intros K HK. apply wp_bind. unfold rx_read_upto.
      assert (Rd : forall b (Q' : outcome (list byte * res (cursor * N) berr) -> sys -> Prop), len b = n ->
        (forall s4, sevs i (sk i s3) (sk i s4) ->
          Q' (Done (take n g, Ok (mkCursor ((rx_base (sk i s2) + 2 + n) mod 65536) (rx_rsr y - 2 - n), n))) s4) ->
        wp e (rx_read (socket_new i) (mkCursor ((rx_base (sk i s2) + 2) mod 65536) (rx_rsr y - 2)) b) Q' s3).
      { intros b Q' Hb HQ'. pose proof V3 as (Vz3 & _).
        apply (wp_rx_read e i NF Hi _ _ 2); cbn [ptr size]; [exact V3|apply N.mod_lt; discriminate| |lia|lia|lia|].
        - rewrite B3. now apply mod_wrap.
        - intros s4 N4. rewrite Hb. replace (take n (drop 2 (pending (sk i s3)))) with (take n g).
          + rewrite N.add_mod_idemp_l by discriminate. exact (HQ' s4 N4).
          + rewrite Ep3. change 2 with (len [hi (len g + 2); lo (len g + 2)]). rewrite drop_app_exact. symmetry. apply take_app_le. lia. }
      destruct (N.ltb_spec (len g) (len buf)) as [H|H].
      - apply wp_slice_to; [|lia]. intros _. apply wp_bind. apply Rd; [rewrite len_take; lia|].
        intros s4 N4. cbn [fst snd]. apply wp_ret. replace (len g) with n by lia. now apply HK.
      - apply Rd; [lia|]. intros s4 N4. replace (take n g) with (take n g ++ drop n buf); [now apply HK|].
        replace (drop n buf) with (@nil byte); [apply app_nil_r|]. unfold n, drop. rewrite N.min_r by lia. unfold len. rewrite Nat2N.id. symmetry. apply skipn_all. }
    unfold raw_read_body. apply Body. intros s4 N4. cbn [fst snd].
    replace (fst (mkCursor _ _, n)) with (mkCursor ((rx_base (sk i s2) + 2 + n) mod 65536) (rx_rsr y - 2 - n)) by reflexivity.
    (* the rest of the frame is skipped *)
    set (v := (rx_base (sk i s2) + (2 + len g)) mod 65536). assert (Lv : v < 65536) by (apply N.mod_lt; discriminate).
    assert (Ec : ptr (if n <? len g
        then fst (rx_skip (mkCursor ((rx_base (sk i s2) + 2 + n) mod 65536) (rx_rsr y - 2 - n)) (len g - n))
        else mkCursor ((rx_base (sk i s2) + 2 + n) mod 65536) (rx_rsr y - 2 - n)) = v).
    { unfold v. destruct (N.ltb_spec n (len g)) as [H|H].
      - unfold rx_skip, available. cbn [fst ptr size]. rewrite N.min_r by lia. unfold wadd16.
        rewrite N.add_mod_idemp_l by discriminate. f_equal. lia.
      - cbn [ptr]. f_equal. lia. }
    unfold rx_commit. cbv zeta. rewrite Ec.
    assert (N04 : sevs i (sk i s) (sk i s4)) by (eapply sevs_trans; eauto).
    destruct (rawst_sevs i _ _ N04 St) as ((S4 & R4 & O4 & V4 & E4) & Et4 & Ek4 & _).
    apply wp_try. apply wp_recv; auto; [apply R4|]. intros y7 s7 N7 E7. apply wp_ret. cbv beta iota. apply wp_ret.
    assert (N07 : sevs i (sk i s) y7) by (eapply sevs_trans; eauto).
    assert (N27 : sevs i (sk i s2) y7) by (eapply sevs_trans; [exact N3|eapply sevs_trans; eauto]).
    assert (Ny7 : sevs i y y7) by (eapply sevs_trans; eauto).
    destruct (rawst_sevs i _ _ N07 St) as ((S7 & R7 & O7 & V7 & _) & Et7 & Ek7 & _).
    assert (B7 : rx_base y7 = rx_base (sk i s2)) by now apply (sevs_rx_base i).
    destruct (sevs_fqueue i y y7 (g :: later) Ny7 Sy Vy Qy) as (q7 & (Q7a & Q7b) & L7).
    destruct (sevs_rx _ _ _ Ny7 Vy) as (_ & c7 & _ & _ & _ & L7').
    destruct (recv_rx y7 (2 + len g) V7 ltac:(lia)) as (V7r & P7). rewrite B7 in V7r, P7. fold v in V7r, P7. rewrite <- E7 in V7r, P7.
    destruct (recv_fields y7 v Lv) as (_ & _ & _ & F1 & F2).
    pose proof (pkeep_recv y7 v Lv R7) as T7. rewrite <- E7 in T7, F1, F2. destruct T7 as (R8 & Et8 & _ & S8 & _ & _ & G8).
    apply HO. split; [|split; [congruence|split; [|split]]].
    - split; [congruence|]. split; [exact R8|]. split; [rewrite E7; exact O7|]. split; [exact V7r|congruence].
    - intros a Ha Hb. rewrite G8 by assumption. now rewrite (sevs_regs i _ _ N07).
    - rewrite E7. exact Ek7.
    - exists g, (later ++ q7), (q1 ++ q7). split; [rewrite app_assoc, Eq; reflexivity|]. split.
      { split; [|now inversion Q7b]. rewrite P7, Q7a. cbn [List.app]. rewrite frames_cons, <- len_raw_record. apply drop_app_exact. }
      split; [exact Wg|]. split; [|split; [reflexivity|reflexivity]].
      rewrite E7. change (rxlog (recv_of y7 v)) with (rxlog y7). rewrite L7, Ly, frames_app, app_assoc. reflexivity.
  Qed.
End Read.

(** ** Writing *)
(** a SEND is in progress, or over with SENDOK to come, or reported: one at a time *)
Definition once (x : sock) : Prop :=
  tx_busy x && tx_okdue x = false /\ tx_busy x && sendok x = false /\ tx_okdue x && sendok x = false.
Ltac ifs := match goal with |- _ (if ?b then _ else _) => destruct b end.
Lemma once_step x ev : once x -> once (sock_step x ev).
Proof.
  intros H. pose proof H as (H1 & H2 & H3).
  assert (A : forall c, once (rx_append x c)).
  { intros c. unfold rx_append. destruct (len c <=? rx_size x - rx_rsr x); [|exact H]. cbv zeta. unfold once, sendok in *. sfields.
    rewrite testbit_lor by reflexivity. exact H. }
  assert (B : forall z m, N.testbit m 4 = false -> once (set_ir (set_sr x z) (N.lor (ir x) m))).
  { intros z m Hm. unfold once, sendok in *. sfields. rewrite testbit_lor by exact Hm. exact H. }
  destruct ev as [n|n|n|n timeout|n d|n ip port d|d|n k0|n|n advance|n k0|v]; cbn [sock_step].
  - destruct ((sr x =? SOCK_SYNSENT) || (sr x =? SOCK_LISTEN)); [now apply B|exact H].
  - destruct (sr x =? SOCK_SYNSENT); [now apply B|exact H].
  - destruct (sr x =? SOCK_ESTABLISHED); [now apply B|exact H].
  - ifs; [|exact H]. unfold once. sfields. auto.
  - destruct (sr x =? SOCK_ESTABLISHED); [apply A|exact H].
  - ifs; [apply A|exact H].
  - ifs; [apply A|exact H].
  - unfold transmit. destruct (tx_busy x) eqn:Bz; [|exact H]. cbn [andb] in H1, H2. unfold once, sendok in *. cbv zeta.
    repeat match goal with |- context [if ?b then _ else _] =>
      lazymatch b with context [if _ then _ else _] => fail | _ => destruct b end end; sfields; rewrite ?H1, ?H2, ?Bz; auto.
  - destruct (tx_okdue x) eqn:O; [|exact H]. rewrite andb_true_r in H1. unfold once. sfields. rewrite H1. auto.
  - destruct (tx_busy x) eqn:Bz; [|exact H]. cbn [andb] in H1, H2. unfold once, sendok in *. cbv zeta.
    destruct advance, (_ || _); sfields; rewrite testbit_lor by reflexivity; auto.
  - exact H.
  - exact H.
Qed.
Lemma once_sevs i x y : sevs i x y -> once x -> once y.
Proof. intros H. apply (sevs_inv i once); [|exact H]. intros z ev _. apply once_step. Qed.
Lemma once_sent_of u w : sendok u = false -> once (sent_of u w).
Proof. intros H. unfold once, sendok in *. unfold sent_of, staged_of. sfields. rewrite H. auto. Qed.

(** a SEND of nothing *)
Definition hollow (x0 y : sock) : Prop :=
  sr y = sr x0 /\ regs y = regs x0 /\ txm y = txm x0 /\ sent y = sent x0 /\
  tx_rd y = tx_wr x0 /\ tx_ack y = tx_wr x0 /\ tx_end y = tx_wr x0.
Lemma hollow_step x0 y ev : pkt_mode (sr x0) -> hollow x0 y -> hollow x0 (sock_step y ev).
Proof.
  intros P Y. pose proof Y as (Y1 & Y2 & Y3 & Y4 & Y5 & Y6 & Y7). pose proof (tx_wr_lt x0) as L.
  pose proof P as Py. rewrite <- Y1 in Py. destruct (pkt_not_conn _ Py) as (P1 & P2 & P3 & _). pose proof (pkt_not_waiting _ Py) as P0.
  assert (A : forall c, hollow x0 (rx_append y c)) by (intros c; unfold rx_append; destruct (_ <=? _); exact Y).
  assert (Z : sub16 (tx_end y) (tx_rd y) = 0) by (rewrite Y7, Y5; now apply sub16_self).
  destruct ev as [n|n|n|n timeout|n d|n ip port d|d|n k0|n|n advance|n k0|v]; cbn [sock_step]; rewrite ?P3, ?P0, ?P1, ?P2; auto.
  - ifs; auto.
  - ifs; auto.
  - unfold transmit. destruct (tx_busy y); [|exact Y]. rewrite (pkt_whole _ Py), Z. cbv zeta. cbn [N.eqb]. unfold hollow. sfields.
    rewrite Y5, N.add_0_r, N.mod_small by exact L. auto 10.
  - destruct (tx_okdue y); exact Y.
  - destruct (tx_busy y); [|exact Y]. rewrite (pkt_whole _ Py). cbv zeta. destruct advance; [|exact Y]. unfold hollow. sfields. rewrite Y7. auto 10.
  - unfold hollow. sfields. rewrite Y6, Y5, sub16_self by exact L. rewrite N.min_0_r, N.add_0_r, N.mod_small by exact L. auto 10.
Qed.
Lemma hollow_sevs i x0 y : pkt_mode (sr x0) -> sevs i x0 y -> hollow x0 x0 -> hollow x0 y.
Proof. intros P H. apply (sevs_inv i (hollow x0)); [|exact H]. intros z ev _. now apply hollow_step. Qed.

(** the frame went out *)
Definition frame_sent (x : sock) (frame : list byte) (x' : sock) : Prop :=
  rawst x' /\ kept x x' /\ sent x' = sent x ++ [packet_of (regs x) frame].
(** nothing went out and no byte was put into the TX buffer *)
Definition frame_void (x x' : sock) : Prop :=
  rawst x' /\ kept x x' /\ sent x' = sent x /\ txm x' = txm x /\ tx_wr x' = tx_wr x.

Lemma rawst_clear x m : rawst x -> rawst (set_ir x (N.ldiff (ir x) m)).
Proof. auto. Qed.

Section Write.
  Context (e : env) (i : N).
  Hypothesis NF : no_faults e.
  Hypothesis Hi : i < 8.

  Lemma wp_raw_write fuel frame (Q : outcome (res N berr) -> sys -> Prop) s :
    rawst (sk i s) ->
    (forall s', 0 < len frame -> len frame <= tx_size (sk i s) -> frame_sent (sk i s) frame (sk i s') -> Q (Done (Ok (len frame))) s') ->
    (forall s', frame = [] \/ tx_size (sk i s) < len frame -> frame_void (sk i s) (sk i s') -> Q (Done (Ok 0)) s') ->
    (forall s', Q Looping s') ->
    wp e (raw_write_frame fuel (mkRaw (socket_new i)) frame) Q s.
  Proof.
    intros St HS HV HL. pose proof St as (Sm & R & Od & Rr). unfold raw_write_frame, tx_new. cbn [raw_socket]. cbv zeta.
    apply wp_try, wp_reset_interrupt; auto. intros x1 s1 N1 E1. cbv beta iota.
    destruct (rawst_sevs i _ _ N1 St) as (St1 & Et1 & _ & Em1).
    assert (So : sendok (sk i s1) = false).
    { rewrite E1. unfold sendok. sfields. rewrite N.ldiff_spec. apply andb_false_r. }
    assert (K1 : kept (sk i s) (sk i s1)).
    { eapply kept_trans; [apply (kept_sevs i _ _ ltac:(right; exact Sm) N1)|]. rewrite E1. now apply kept_clear. }
    assert (St1' : rawst (sk i s1)) by (rewrite E1; now apply rawst_clear).
    assert (Et1' : sent (sk i s1) = sent (sk i s) /\ txm (sk i s1) = txm (sk i s)) by (rewrite E1; auto).
    assert (Er1 : tx_wr (sk i s1) = tx_wr (sk i s) /\ tx_size (sk i s1) = tx_size (sk i s) /\ regs (sk i s1) = regs (sk i s)).
    { rewrite E1. destruct (sevs_wr i _ _ N1) as (W & Z & _). split; [exact W|]. split; [exact Z|]. apply (sevs_regs i _ _ N1). }
    clear x1 N1 E1 St1 Et1 Em1. destruct Et1' as [Et1 Em1]. destruct Er1 as (Ew1 & Ez1 & Er1). pose proof St1' as (Sm1 & R1 & O1 & Rr1).
    apply wp_try, wp_try, wp_get_tx_free_size; auto; [now apply rested_txv|]. intros y2 s2 v N2 N2' _ Hv. cbv beta iota.
    assert (N12 : sevs i (sk i s1) (sk i s2)) by (eapply sevs_trans; eauto).
    destruct (rested_sevs i _ _ N2 R1) as (Ry & _). destruct (rested_sevs i _ _ N12 R1) as (R2 & _).
    destruct (sevs_wr i _ _ N12) as (W2 & Z2 & _). destruct (sevs_wr i _ _ N2) as (_ & Zy & _).
    assert (Ev : v = tx_size (sk i s)) by (rewrite Hv; rewrite !rested_fsr by assumption; congruence). subst v. clear Hv.
    apply wp_try, wp_get_tx_write_pointer; auto. intros s3 N3. cbv beta iota. apply wp_ret. cbv beta iota.
    assert (N13 : sevs i (sk i s1) (sk i s3)) by (eapply sevs_trans; eauto).
    destruct (rawst_sevs i _ _ N13 St1') as ((Sm3 & R3 & O3 & Rr3) & Et3 & Ek3 & Em3). destruct (sevs_wr i _ _ N13) as (W3 & Z3 & _).
    pose proof R3 as (_ & V3 & B3 & _).
    (* what follows the data: pointer, SEND, wait *)
    assert (Tail : forall w n z (Q' : outcome (res N berr) -> sys -> Prop) s4, len w <= tx_size (sk i s) ->
      sevs i (sk i s1) z -> sk i s4 = set_txm z (ring_write (txm z) (tx_size z) (tx_wr z) w) ->
      (forall u s5 s6, sevs i (sk i s1) u -> sk i s5 = sent_of u w -> sevs i (sk i s5) (sk i s6) -> sendok (sk i s6) = true -> Q' (Done (Ok n)) s6) ->
      (forall s6, Q' Looping s6) ->
      wp e (try b <- tx_commit (socket_new i) (mkCursor ((tx_wr (sk i s) + len w) mod 65536) (tx_size (sk i s) - len w)) else Err ;;
            try d <- wait_send_ok fuel (socket_new i) else Err ;; Ret (Ok n)) Q' s4).
    { intros w n z Q' s4 Lw Nz E4 HQ HQL. destruct (rested_sevs i _ _ Nz R1) as (Rz & _). pose proof Rz as (_ & Vz & Bz & _).
      destruct (sevs_wr i _ _ Nz) as (Wz & Zz & _).
      unfold tx_commit. cbn [ptr]. apply wp_try.
      apply wp_try, wp_set_tx_write_pointer; auto; [rewrite E4; exact Bz|]. intros y5 s5 N5 E5. cbv beta iota.
      rewrite E4 in N5. destruct (sevs_set_txm i z _ _ Bz N5) as (y & N6 & ->).
      destruct (sevs_wr i _ _ N6) as (Wy & Zy' & _).
      assert (Ny : sevs i (sk i s1) y) by (eapply sevs_trans; eauto). destruct (rested_sevs i _ _ Ny R1) as (Ryy & _).
      assert (E5' : sk i s5 = staged_of y w).
      { rewrite E5. unfold staged_of. cbn [regs set_txm]. rewrite (sevs_txm _ _ _ N6), Zy', Wy. rewrite Wz, Ew1. reflexivity. }
      apply wp_try, wp_command; auto. intros z6 s6 N7 E6. cbv beta iota. apply wp_ret. cbv beta iota. rewrite E5' in N7.
      destruct (staged_sevs i y w z6 (proj1 (proj2 (proj2 Ryy))) N7) as (u & U1 & ->).
      assert (Nu : sevs i (sk i s1) u) by (eapply sevs_trans; eauto). destruct (rested_sevs i _ _ Nu R1) as (Ru & _).
      rewrite do_send_pkt in E6 by apply Ru.
      apply wp_try, wp_wait_send_ok; auto. intros s7 N8 So7. cbv beta iota. apply wp_ret. apply (HQ u s6); auto. }
    assert (Fin : forall u w s5 s6, sevs i (sk i s1) u -> sk i s5 = sent_of u w -> sevs i (sk i s5) (sk i s6) -> sendok (sk i s6) = true ->
      tx_okdue (sk i s6) = false /\ tx_busy (sk i s6) = false /\ kept (sk i s) (sk i s6) /\ sr (sk i s6) = SOCK_MACRAW /\ rready (sk i s6) /\ rested u).
    { intros u w s5 s6 Nu E5 N6 So6. destruct (rawst_sevs i _ _ Nu St1') as ((Smu & Ru & Ou & Rru) & Etu & Eku & Emu).
      assert (O6 : once (sk i s6)) by (apply (once_sevs i (sk i s5)); [exact N6|]; rewrite E5; apply once_sent_of; congruence).
      destruct O6 as (Q1 & Q2 & Q3). rewrite So6, andb_true_r in Q2, Q3.
      assert (K6 : kept (sk i s) (sk i s6)).
      { eapply kept_trans; [exact K1|]. eapply kept_trans; [apply (kept_sevs i _ u); [right; exact Sm1|exact Nu]|].
        eapply kept_trans; [apply (kept_sent_of u w)|]. rewrite <- E5. apply (kept_sevs i); [|exact N6]. rewrite E5. right. exact Smu. }
      split; [exact Q3|]. split; [exact Q2|]. split; [exact K6|]. split; [destruct K6 as (_ & _ & _ & X & _); congruence|].
      split; [apply (rready_rxrel _ _ (proj1 K6) Rr)|exact Ru]. }
    assert (Void : frame = [] \/ tx_size (sk i s) < len frame ->
      wp e (try b <- tx_commit (socket_new i) (mkCursor (tx_wr (sk i s)) (tx_size (sk i s))) else Err ;;
            try d <- wait_send_ok fuel (socket_new i) else Err ;; Ret (Ok 0)) Q s3).
    { intros Hv. replace (mkCursor (tx_wr (sk i s)) (tx_size (sk i s)))
        with (mkCursor ((tx_wr (sk i s) + len (@nil byte)) mod 65536) (tx_size (sk i s) - len (@nil byte))).
      2: { change (len (@nil byte)) with 0. rewrite N.add_0_r, N.sub_0_r, N.mod_small by apply tx_wr_lt. reflexivity. }
      apply (Tail [] 0 (sk i s3)); auto; [change (len (@nil byte)) with 0; lia|cbn [ring_write]; now destruct (sk i s3)|].
      intros u s5 s6 Nu E5 N6 So6. destruct (Fin u [] s5 s6 Nu E5 N6 So6) as (O6 & B6 & K6 & S6 & Rr6 & Ru). apply HV; [exact Hv|].
      destruct (rawst_sevs i _ _ Nu St1') as ((Smu & _) & Etu & _ & Emu). destruct (sevs_wr i _ _ Nu) as (Wu & Zu & _).
      assert (Wr : tx_wr (sent_of u []) = tx_wr u).
      { destruct (staged_fields u []) as (X & _). change (len (@nil byte)) with 0 in X. rewrite N.add_0_r, N.mod_small in X by apply tx_wr_lt. exact X. }
      pose proof Ru as (_ & Vu & _ & U1 & U2 & U3).
      assert (H0 : hollow (sent_of u []) (sent_of u [])).
      { unfold hollow. rewrite Wr. do 4 (split; [reflexivity|]). split; [exact U1|]. split; [exact U2|]. exact Wr. }
      rewrite E5 in N6. apply (hollow_sevs i (sent_of u []) _ ltac:(right; exact Smu) N6) in H0. destruct H0 as (Y1 & Y2 & Y3 & Y4 & Y5 & Y6 & Y7).
      assert (Wz : tx_wr (sk i s6) = tx_wr (sent_of u [])) by (unfold tx_wr; now rewrite Y2).
      split; [|split; [exact K6|split; [|split]]].
      - split; [exact S6|]. split; [|split; [exact O6|exact Rr6]]. split; [rewrite S6; now right|]. split.
        { unfold tx_size. rewrite Y2. change (valid_size (tx_size (sent_of u []))). destruct (staged_fields u []) as (_ & X & _).
          change (tx_size (sent_of u [])) with (tx_size (staged_of u [])). now rewrite X. }
        split; [exact B6|]. rewrite Wz. auto.
      - rewrite Y4. change (sent (sent_of u [])) with (sent u). congruence.
      - rewrite Y3. change (txm (sent_of u [])) with (txm u). congruence.
      - rewrite Wz, Wr. congruence. }
    apply wp_try. unfold tx_write, available. cbn [size ptr]. rewrite W3, Ew1.
    destruct (N.eqb_spec (len frame) 0) as [Ez|Ez]; cbn [orb].
    { apply wp_ret. cbv beta iota. apply Void. left. destruct frame; [reflexivity|]. rewrite len_cons in Ez. lia. }
    destruct (N.ltb_spec (tx_size (sk i s)) (len frame)) as [Hl|Hl].
    { apply wp_ret. cbv beta iota. apply Void. now right. }
    pose proof R as (_ & V & _). pose proof (valid_le _ V) as Vl.
    assert (Ec : as_u16 (len frame) = len frame) by (unfold as_u16; apply N.mod_small; lia). rewrite Ec.
    apply wp_slice_to; [|lia]. intros _.
    assert (Et : take (len frame) frame = frame) by (unfold take, len; rewrite Nat2N.id; apply firstn_all). rewrite Et.
    apply wp_try. unfold write_frame. rewrite so_tx by exact Hi. apply wp_wtx; [exact NF|exact B3|exact V3|].
    intros z s4 N4 E4. apply wp_ret. cbv beta iota.
    destruct (N.ltb_spec (tx_size (sk i s)) (len frame)); [lia|]. apply wp_ret. cbv beta iota. cbn [fst snd].
    assert (N14 : sevs i (sk i s1) z) by (eapply sevs_trans; eauto). destruct (sevs_wr i _ _ N14) as (Wz & Zz & _).
    apply (Tail frame (len frame) z); auto.
    { rewrite E4, Wz, Ew1. reflexivity. }
    intros u s5 s6 Nu E5 N6 So6. destruct (Fin u frame s5 s6 Nu E5 N6 So6) as (O6 & B6 & K6 & S6 & Rr6 & Ru). apply HS; [lia|exact Hl|].
    destruct (rawst_sevs i _ _ Nu St1') as ((Smu & _) & Etu & Eku & Emu). destruct (sevs_wr i _ _ Nu) as (Wu & Zu & _).
    assert (La : launched (sent_of u frame) frame).
    { apply (staged_launched u frame); auto; [lia|rewrite Zu; lia]. }
    rewrite E5 in N6. pose proof (aloft_sevs i _ frame _ _ La N6 (aloft_start _ _ La)) as Al.
    destruct Al as (Y1 & Y2 & Y3 & Y4 & Y5).
    assert (Sz : sendok (sent_of u frame) = false) by (change (sendok (sent_of u frame)) with (sendok u); congruence).
    destruct Y5 as [(_ & _ & _ & _ & _ & X & _)|[(_ & Y6 & Y7 & Y8 & _)|(_ & _ & _ & X & _)]]; [congruence| |congruence].
    assert (Wz6 : tx_wr (sk i s6) = tx_wr (sent_of u frame)) by (unfold tx_wr; now rewrite Y2).
    split; [|split; [exact K6|]].
    - split; [exact S6|]. split; [|split; [exact O6|exact Rr6]]. split; [rewrite S6; now right|]. split.
      { unfold tx_size. rewrite Y2. destruct La as (_ & X & _). exact X. }
      split; [exact B6|]. rewrite Wz6. split; [exact Y6|]. split; [exact Y7|]. rewrite Y4. reflexivity.
    - rewrite Y8. change (sent (sent_of u frame)) with (sent u). rewrite Etu, Et1. do 2 f_equal.
      destruct (kept_sent_of u frame) as (_ & Kr & _). rewrite (packet_of_ext _ _ frame Kr), (sevs_regs i _ _ Nu). f_equal. congruence.
  Qed.
End Write.
