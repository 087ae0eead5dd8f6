(** MACRAW frames read or written while a bus access fails: what is left behind. *)
From Verif Require Export RecoverySend RawFrames.
From Verif Require Import TcpSession FrameFacts ErrorFacts ProgFacts Datasheet ValueFacts.

Section ReadOnly.
  Context (i : N).
  Lemma ro_rx_new fuel s : spares i (rx_new fuel s).
  Proof. apply spares_try; [apply ro_get_receive_size|]. intros z. apply spares_try; [apply ro_read_then|]. intros p. exact Logic.I. Qed.
  Lemma ro_rx_read s c buf : spares i (rx_read s c buf).
  Proof.
    unfold rx_read. destruct buf as [|b buf]; [exact Logic.I|]. cbv zeta. unfold slice_to.
    match goal with |- spares _ (if ?b then _ else _) => destruct b end; [|exact Logic.I].
    apply spares_bind; [apply ro_read_into|]. intros [gg [u|er]]; exact Logic.I.
  Qed.
  Lemma ro_rx_read_upto s c buf m : spares i (rx_read_upto s c buf m).
  Proof.
    unfold rx_read_upto. destruct (m <? len buf); [|apply ro_rx_read]. unfold slice_to.
    match goal with |- spares _ (if ?b then _ else _) => destruct b end; [|exact Logic.I].
    apply spares_bind; [apply ro_rx_read|]. intros r. exact Logic.I.
  Qed.
  Lemma ro_tx_new s : spares i (tx_new s).
  Proof. apply spares_try; [apply ro_read_then|]. intros z. apply spares_try; [apply ro_read_then|]. intros p. exact Logic.I. Qed.
End ReadOnly.

(** ** Reading *)
(** after a failing read, [q0] being the queue before: every frame is still in the chip (with
    the read pointer where it was, or not); or the first one is gone, as much of it as fits
    being in the buffer *)
Definition frame_broken (x : sock) (q0 : list (list byte)) (buf buf' : list byte) (x' : sock) : Prop :=
  pkeep x x' /\ tx_okdue x' = false /\ sendok x' = sendok x /\ rxv x' /\
  exists q', rxlog x' = rxlog x ++ frames q' /\ Forall wf_frame (q0 ++ q') /\
    ((fqueue x' (q0 ++ q') /\ rx_base x' = rx_base x) \/
     (rx_rd x' = rx_base x' /\ exists g later, q0 ++ q' = g :: later /\ fqueue x' later /\
        let n := N.min (len g) (len buf) in buf' = take n g ++ drop n buf)).

Section Read.
  Context (e : env) (i : N).
  Hypothesis Hi : i < 8.
  Let NF := nofail_no_faults e.

  Lemma frame_broken_repointed v dd x q0 buf buf' y : be_part v dd -> rawst x -> fqueue x q0 -> sevs i x y ->
    frame_broken x q0 buf buf' (repointed y dd).
  Proof.
    intros P St Q0 N. pose proof St as (Sm & R & Od & Rr). destruct (rawst_sevs i _ _ N St) as ((Sy & Ry & Oy & Vy & Ey) & _ & Ky & _).
    destruct (sevs_fqueue i _ _ q0 N Sm (proj1 Rr) Q0) as (q1 & Q1 & L1). destruct (repointed_rx v dd y P) as (_ & _ & E & V).
    split; [eapply pkeep_trans; [now apply (pkeep_sevs i x y)|now apply (pkeep_repointed v)]|]. split; [exact Oy|]. split; [exact Ky|].
    split; [now apply V|]. exists q1. split; [exact L1|]. split; [apply Q1|].
    left. split; [unfold fqueue; rewrite E; exact Q1|]. change (rx_base (repointed y dd)) with (rx_base y). now apply (sevs_rx_base i).
  Qed.
  Lemma frame_broken_none x q0 buf buf' y : rawst x -> fqueue x q0 -> sevs i x y -> frame_broken x q0 buf buf' y.
  Proof.
    intros St Q0 N. pose proof (frame_broken_repointed 0 [] x q0 buf buf' y (or_introl eq_refl) St Q0 N) as H. now destruct y.
  Qed.

  Lemma wp_raw_read_err fuel buf q0 s : rawst (sk i s) -> fqueue (sk i s) q0 ->
    wp e (raw_read_frame fuel (mkRaw (socket_new i)) buf)
      (fun o s' => forall buf' er, o = Done (buf', Err er) -> frame_broken (sk i s) q0 buf buf' (sk i s')) s.
  Proof.
    intros St Q0. pose proof St as (Sm & R & Od & Rr). unfold raw_read_frame. cbn [raw_socket]. cbv zeta.
    set (Q := fun (o : outcome (list byte * res N berr)) s' => forall buf' er, o = Done (buf', Err er) -> frame_broken (sk i s) q0 buf buf' (sk i s')).
    assert (Triv : forall b' er s1, sevs i (sk i s) (sk i s1) -> Q (Done (b', Err er)) s1).
    { intros b' er s1 N1 b2 er2 _. now apply frame_broken_none. }
    assert (Oks : forall b' n s1, Q (Done (b', Ok n)) s1) by (intros b' n s1 b2 er2; discriminate).
    assert (Pan : forall w s1, Q (Panicked w) s1) by (intros w s1 b2 er2; discriminate).
    apply wp_try, (wp_ro eb e i); [apply ro_rx_new|apply es_rx_new| |].
    2: { intros [a|er] s1 Er N1; [now elim Er|]. now apply Triv. }
    unfold rx_new. apply wp_try, wp_get_receive_size; [exact NF|exact Hi|apply Rr| |intros s1 N1 b2 er2; discriminate].
    intros y s1 N1 N1'. cbv beta iota.
    assert (N01 : sevs i (sk i s) (sk i s1)) by (eapply sevs_trans; eauto).
    apply wp_try, wp_get_rx_read_pointer; auto. intros s2 N2. cbv beta iota. apply wp_ret. cbv beta iota.
    assert (N02 : sevs i (sk i s) (sk i s2)) by (eapply sevs_trans; eauto).
    assert (Ny2 : sevs i y (sk i s2)) by (eapply sevs_trans; eauto).
    destruct (rawst_sevs i _ _ N1 St) as ((Sy & _ & _ & Vy & Ey) & _).
    destruct (sevs_fqueue i _ _ q0 N1 Sm (proj1 Rr) Q0) as (q1 & Qy & Ly).
    unfold available. cbn [size].
    destruct (N.eqb_spec (rx_rsr y) 0) as [Z|Nz]; [apply wp_ret, Oks|].
    pose proof Qy as (Q1 & Q2). destruct (q0 ++ q1) as [|g later] eqn:Eq.
    { exfalso. rewrite <- len_pending, Q1 in Nz. now apply Nz. }
    pose proof (Forall_inv Q2) as Wg.
    assert (Tot : rx_rsr y = 2 + len g + len (frames later)) by (rewrite <- len_pending, Q1, frames_cons, len_app, len_raw_record; lia).
    assert (Rlt : rx_rsr y < 65536) by apply sub16_lt.
    destruct (rawst_sevs i _ _ N02 St) as ((S2 & R2 & O2 & V2 & E2) & Et2 & Ek2 & _). pose proof V2 as (Vz & Vw & Vb & Vr).
    destruct (sevs_rx _ _ _ Ny2 Vy) as (_ & c2 & P2 & _ & _ & L2).
    rewrite E2. apply wp_bind, (wp_ro (fun r => eb (snd r)) e i); [apply ro_rx_read|apply es_rx_read| |].
    2: { intros [b' [a|er]] s3 Er N3; [now elim Er|]. cbv beta iota. cbn [snd]. apply wp_ret, Triv. eapply sevs_trans; eauto. }
    apply (wp_rx_read (nofail e) i NF Hi _ _ 0); cbn [ptr size]; auto; try (change (len (zeros 2)) with 2; lia); [now rewrite N.add_0_r|].
    intros s3 N3. cbn [fst snd]. change (len (zeros 2)) with 2. cbv beta iota. cbn [fst snd]. change (2 =? 2) with true. cbv iota.
    assert (Ep2 : pending (sk i s2) = raw_record g ++ (frames later ++ c2)) by (rewrite P2, Q1, frames_cons, <- app_assoc; reflexivity).
    assert (Eh : take 2 (drop 0 (pending (sk i s2))) = [hi (len g + 2); lo (len g + 2)]) by (rewrite Ep2; reflexivity).
    rewrite Eh, raw_header by exact Wg.
    assert (N03 : sevs i (sk i s) (sk i s3)) by (eapply sevs_trans; eauto).
    destruct (sevs_rx _ _ _ N3 V2) as (V3 & c3 & P3 & _ & _ & L3).
    assert (B3 : rx_base (sk i s3) = rx_base (sk i s2)) by now apply (sevs_rx_base i).
    assert (Ep3 : pending (sk i s3) = [hi (len g + 2); lo (len g + 2)] ++ (g ++ (frames later ++ c2) ++ c3)).
    { rewrite P3, Ep2. unfold raw_record. rewrite <- !app_assoc. reflexivity. }
    set (n := N.min (len g) (len buf)).
    unfold raw_read_body. apply wp_bind, (wp_ro (fun r => eb (snd r)) e i); [apply ro_rx_read_upto|apply es_rx_read_upto| |].
    2: { intros [b' [a|er]] s4 Er N4; [now elim Er|]. cbv beta iota. cbn [fst snd]. apply wp_ret, Triv. eapply sevs_trans; eauto. }
    (* the body: whatever the buffer size, [n] bytes of the frame arrive *)
    assert (Body : forall (Q2' : outcome (list byte * res (cursor * N) berr) -> sys -> Prop),
      (forall s4, sevs i (sk i s3) (sk i s4) ->
        Q2' (Done (take n g ++ drop n buf, Ok (mkCursor ((rx_base (sk i s2) + 2 + n) mod 65536) (rx_rsr y - 2 - n), n))) s4) ->
      wp (nofail e) (rx_read_upto (socket_new i) (mkCursor ((rx_base (sk i s2) + 2) mod 65536) (rx_rsr y - 2)) buf (len g)) Q2' s3).
    { intros Q2' HK. unfold rx_read_upto.
      assert (Rd : forall b (Q' : outcome (list byte * res (cursor * N) berr) -> sys -> Prop), len b = n ->
        (forall s4, sevs i (sk i s3) (sk i s4) ->
          Q' (Done (take n g, Ok (mkCursor ((rx_base (sk i s2) + 2 + n) mod 65536) (rx_rsr y - 2 - n), n))) s4) ->
        wp (nofail e) (rx_read (socket_new i) (mkCursor ((rx_base (sk i s2) + 2) mod 65536) (rx_rsr y - 2)) b) Q' s3).
      { intros b Q' Hb HQ'. pose proof V3 as (Vz3 & _).
        apply (wp_rx_read (nofail e) i NF Hi _ _ 2); cbn [ptr size]; [exact V3|apply N.mod_lt; discriminate| |lia|lia|lia|].
        - rewrite B3. now apply mod_wrap.
        - intros s4 N4. rewrite Hb. replace (take n (drop 2 (pending (sk i s3)))) with (take n g).
          + rewrite N.add_mod_idemp_l by discriminate. exact (HQ' s4 N4).
          + rewrite Ep3. change 2 with (len [hi (len g + 2); lo (len g + 2)]). rewrite drop_app_exact. symmetry. apply take_app_le. lia. }
      destruct (N.ltb_spec (len g) (len buf)) as [H|H].
      - apply wp_slice_to; [|lia]. intros _. apply wp_bind. apply Rd; [rewrite len_take; lia|].
        intros s4 N4. cbn [fst snd]. apply wp_ret. replace (len g) with n by lia. now apply HK.
      - apply Rd; [lia|]. intros s4 N4. replace (take n g) with (take n g ++ drop n buf); [now apply HK|].
        replace (drop n buf) with (@nil byte); [apply app_nil_r|]. unfold n, drop. rewrite N.min_r by lia. unfold len. rewrite Nat2N.id. symmetry. apply skipn_all. }
    change (mkCursor (wadd16 (rx_base (sk i s2)) 2) (rx_rsr y - 2)) with (mkCursor ((rx_base (sk i s2) + 2) mod 65536) (rx_rsr y - 2)).
    apply Body. intros s4 N4. cbv beta iota. cbn [fst snd].
    replace (fst (mkCursor _ _, n)) with (mkCursor ((rx_base (sk i s2) + 2 + n) mod 65536) (rx_rsr y - 2 - n)) by reflexivity.
    set (v := (rx_base (sk i s2) + (2 + len g)) mod 65536). assert (Lv : v < 65536) by (apply N.mod_lt; discriminate).
    assert (Ec : ptr (if n <? len g
        then fst (rx_skip (mkCursor ((rx_base (sk i s2) + 2 + n) mod 65536) (rx_rsr y - 2 - n)) (len g - n))
        else mkCursor ((rx_base (sk i s2) + 2 + n) mod 65536) (rx_rsr y - 2 - n)) = v).
    { unfold v. destruct (N.ltb_spec n (len g)) as [H|H].
      - unfold rx_skip, available. cbn [fst ptr size]. rewrite N.min_r by lia. unfold wadd16.
        rewrite N.add_mod_idemp_l by discriminate. f_equal. lia.
      - cbn [ptr]. f_equal. lia. }
    unfold rx_commit. cbv zeta. rewrite Ec.
    assert (N04 : sevs i (sk i s) (sk i s4)) by (eapply sevs_trans; eauto).
    destruct (rawst_sevs i _ _ N04 St) as ((S4 & R4 & O4 & V4 & E4) & Et4 & Ek4 & _).
    apply wp_try. apply wp_recv_any; [exact Hi|apply R4|exact Lv|..].
    - intros y7 s7 N7 E7. apply wp_ret. cbv beta iota. apply wp_ret, Oks.
    - intros er dd y7 s7 P N7 E7 b2 er2 [= <- <-]. rewrite E7. apply (frame_broken_repointed v); auto. eapply sevs_trans; eauto.
    - intros er y7 s7 N7 E7 b2 er2 [= <- <-].
      assert (N07 : sevs i (sk i s) y7) by (eapply sevs_trans; eauto).
      assert (N27 : sevs i (sk i s2) y7) by (eapply sevs_trans; [exact N3|eapply sevs_trans; eauto]).
      assert (Ny7 : sevs i y y7) by (eapply sevs_trans; eauto).
      destruct (rawst_sevs i _ _ N07 St) as ((S7 & R7 & O7 & V7 & _) & Et7 & Ek7 & _).
      assert (B7 : rx_base y7 = rx_base (sk i s2)) by now apply (sevs_rx_base i).
      destruct (sevs_fqueue i y y7 (g :: later) Ny7 Sy Vy Qy) as (q7 & (Q7a & Q7b) & L7).
      destruct (sevs_rx _ _ _ Ny7 Vy) as (_ & c7 & _ & _ & _ & L7').
      destruct (recv_rx y7 (2 + len g) V7 ltac:(lia)) as (V7r & P7). rewrite B7 in V7r, P7. fold v in V7r, P7. rewrite <- E7 in V7r, P7.
      destruct (recv_fields y7 v Lv) as (_ & _ & _ & F1 & F2).
      pose proof (pkeep_recv y7 v Lv R7) as T7. rewrite <- E7 in T7, F1, F2.
      split; [eapply pkeep_trans; [apply (pkeep_sevs i _ _ N07 R)|exact T7]|].
      split; [rewrite E7; exact O7|]. split; [rewrite E7; exact Ek7|]. split; [exact V7r|].
      exists (q1 ++ q7). split; [rewrite E7; change (rxlog (recv_of y7 v)) with (rxlog y7); rewrite L7, Ly, frames_app, app_assoc; reflexivity|].
      split; [rewrite app_assoc, Eq; exact Q7b|]. right. split; [congruence|].
      exists g, (later ++ q7). split; [rewrite app_assoc, Eq; reflexivity|]. split; [|reflexivity].
      split; [|now inversion Q7b]. rewrite P7, Q7a. cbn [List.app]. rewrite frames_cons, <- len_raw_record. apply drop_app_exact.
  Qed.
End Read.

(** ** Writing *)
(** after a failing write: as for one UDP piece; a frame that is empty or too long is not put
    into the buffer, but a SEND is issued all the same *)
Definition wframe_broken (x : sock) (frame : list byte) (x' : sock) : Prop :=
  exists w, (w = frame /\ 0 < len frame <= tx_size x \/ w = []) /\ (w = [] -> sent x' = sent x) /\ chunk_broken x w x'.

Lemma spent_raw i x w z : rested x -> len w <= tx_size x -> spent i (sent_of x w) z ->
  chunk_broken x w z /\ (w = [] -> sent z = sent x).
Proof.
  intros R L S. destruct w as [|b w].
  - assert (P : pkt_mode (sr (sent_of x []))) by apply R.
    assert (Wr : tx_wr (sent_of x []) = tx_wr x).
    { destruct (staged_fields x []) as (X & _). change (len (@nil byte)) with 0 in X. rewrite N.add_0_r, N.mod_small in X by apply tx_wr_lt. exact X. }
    pose proof R as (_ & V & _ & U1 & U2 & U3).
    assert (H0 : hollow (sent_of x []) (sent_of x [])).
    { unfold hollow. rewrite Wr. do 4 (split; [reflexivity|]). split; [exact U1|]. split; [exact U2|]. exact Wr. }
    assert (G : forall y, sevs i (sent_of x []) y -> kept x y /\ sent y = sent x /\ tx_wr y = (tx_wr x + len (@nil byte)) mod 65536 /\ tx_end y = tx_wr y).
    { intros y N. destruct (hollow_sevs i (sent_of x []) y P N H0) as (Y1 & Y2 & Y3 & Y4 & Y5 & Y6 & Y7).
      assert (Wy : tx_wr y = tx_wr (sent_of x [])) by (unfold tx_wr; now rewrite Y2).
      split; [eapply kept_trans; [apply (kept_sent_of x [])|now apply (kept_sevs i)]|]. split; [exact Y4|].
      split; [rewrite Wy; apply (staged_fields x [])|]. now rewrite Y7, Wy. }
    destruct S as (y & N & Z). destruct (G y N) as (K & Es & Wy & Ey).
    assert (E : kept x z /\ sent z = sent x /\ tx_wr z = (tx_wr x + len (@nil byte)) mod 65536 /\ tx_end z = tx_wr z).
    { destruct Z as [-> |(m & Hm & ->)]; [auto|]. split; [eapply kept_trans; [exact K|now apply kept_clear]|]. auto. }
    destruct E as (K' & Es' & W' & E'). split; [|auto]. split; [exact K'|]. right. right. right. auto.
  - split; [|discriminate]. apply (spent_broken i); [exact R| |exact S]. apply (staged_launched x (b :: w)); auto. rewrite len_cons. lia.
Qed.

Section Write.
  Context (e : env) (i : N).
  Hypothesis Hi : i < 8.
  Let NF := nofail_no_faults e.

  Lemma wp_raw_write_err fuel frame s : rawst (sk i s) ->
    wp e (raw_write_frame fuel (mkRaw (socket_new i)) frame) (when_err (@eb N) (fun s' => wframe_broken (sk i s) frame (sk i s'))) s.
  Proof.
    intros St. pose proof St as (Sm & R & Od & Rr). unfold raw_write_frame. cbn [raw_socket]. cbv zeta.
    assert (Triv0 : forall y z, sevs i (sk i s) y -> z = y \/ z = set_ir y (N.ldiff (ir y) (interrupt_u8 InSendOk)) -> wframe_broken (sk i s) frame z).
    { intros y z N Z. exists []. split; [now right|]. pose proof (chunk_broken_none i (sk i s) [] y R N) as B.
      destruct (rested_sevs i _ _ N R) as (Ry & Es & _).
      assert (Ez : sent z = sent (sk i s)) by (destruct Z as [-> | ->]; exact Es). split; [auto|].
      destruct Z as [-> | ->]; [exact B|]. split; [eapply kept_trans; [apply B|now apply kept_clear]|]. left. auto. }
    apply wp_try, wp_reset_interrupt_any; [exact Hi| |].
    2: { intros er y s1 N1 E1 r _ _. now apply (Triv0 y). }
    intros x1 s1 N1 E1. cbv beta iota.
    destruct (rawst_sevs i _ _ N1 St) as (St1 & Et1 & _ & _).
    assert (K1 : kept (sk i s) (sk i s1)).
    { eapply kept_trans; [apply (kept_sevs i _ _ ltac:(right; exact Sm) N1)|]. rewrite E1. now apply kept_clear. }
    assert (St1' : rawst (sk i s1)) by (rewrite E1; now apply rawst_clear).
    assert (Et1' : sent (sk i s1) = sent (sk i s)) by (rewrite E1; exact Et1).
    assert (Er1 : tx_wr (sk i s1) = tx_wr (sk i s) /\ tx_size (sk i s1) = tx_size (sk i s) /\ regs (sk i s1) = regs (sk i s)).
    { rewrite E1. destruct (sevs_wr i _ _ N1) as (W & Z & _). split; [exact W|]. split; [exact Z|]. apply (sevs_regs i _ _ N1). }
    clear x1 N1 E1 St1 Et1 Triv0. destruct Er1 as (Ew1 & Ez1 & Er1). pose proof St1' as (Sm1 & R1 & O1 & Rr1).
    (* from here on it is enough to know about the state after the reset *)
    assert (Go : forall w z, (w = frame /\ 0 < len frame <= tx_size (sk i s) \/ w = []) -> chunk_broken (sk i s1) w z /\ (w = [] -> sent z = sent (sk i s1)) ->
       wframe_broken (sk i s) frame z).
    { intros w z Hw ((K & C) & C'). exists w. split; [exact Hw|]. split; [intros E; rewrite <- Et1'; auto|].
      split; [eapply kept_trans; eauto|]. unfold chunk_sent in *. rewrite Et1', Ew1, Er1 in C. exact C. }
    assert (Triv : forall er s2, sevs i (sk i s1) (sk i s2) -> when_err eb (fun s' => wframe_broken (sk i s) frame (sk i s')) (Done (@Err N berr er)) s2).
    { intros er s2 N2 r _ _. apply (Go []); [now right|]. split; [now apply (chunk_broken_none i)|]. intros _. now destruct (rested_sevs i _ _ N2 R1) as (_ & Es & _). }
    apply wp_try, (wp_ro eb e i); [apply ro_tx_new|apply es_tx_new| |].
    2: { intros [a|er] s2 Er N2; [now elim Er|]. now apply Triv. }
    unfold tx_new. apply wp_try, wp_get_tx_free_size; auto; [now apply rested_txv|]. intros y2 s2 v N2 N2' _ Hv. cbv beta iota.
    assert (N12 : sevs i (sk i s1) (sk i s2)) by (eapply sevs_trans; eauto).
    destruct (rested_sevs i _ _ N2 R1) as (Ry & _). destruct (rested_sevs i _ _ N12 R1) as (R2 & _).
    destruct (sevs_wr i _ _ N12) as (W2 & Z2 & _). destruct (sevs_wr i _ _ N2) as (_ & Zy & _).
    assert (Ev : v = tx_size (sk i s)) by (rewrite Hv; rewrite !rested_fsr by assumption; congruence). subst v. clear Hv.
    apply wp_try, wp_get_tx_write_pointer; auto. intros s3 N3. cbv beta iota. apply wp_ret. cbv beta iota.
    assert (N13 : sevs i (sk i s1) (sk i s3)) by (eapply sevs_trans; eauto).
    destruct (rawst_sevs i _ _ N13 St1') as ((Sm3 & R3 & O3 & Rr3) & Et3 & Ek3 & Em3). destruct (sevs_wr i _ _ N13) as (W3 & Z3 & _).
    pose proof R3 as (_ & V3 & B3 & _). pose proof R as (_ & V & _). pose proof (valid_le _ V) as Vl.
    (* what follows the data: pointer, SEND, wait *)
    assert (Tail : forall w n z s4, (w = frame /\ 0 < len frame <= tx_size (sk i s) \/ w = []) ->
      sevs i (sk i s1) z -> sk i s4 = set_txm z (ring_write (txm z) (tx_size z) (tx_wr z) w) ->
      wp e (try b <- tx_commit (socket_new i) (mkCursor ((tx_wr (sk i s) + len w) mod 65536) (tx_size (sk i s) - len w)) else Err ;;
            try d <- wait_send_ok fuel (socket_new i) else Err ;; Ret (Ok n)) (when_err (@eb N) (fun s' => wframe_broken (sk i s) frame (sk i s'))) s4).
    { intros w n z s4 Hw Nz E4. destruct (rested_sevs i _ _ Nz R1) as (Rz & _). pose proof Rz as (_ & Vz & Bz & _).
      assert (Lw : len w <= tx_size (sk i s)) by (destruct Hw as [(-> & ?)| ->]; [lia|change (len (@nil byte)) with 0; lia]).
      destruct (sevs_wr i _ _ Nz) as (Wz & Zz & _).
      assert (Hd : forall y5, sevs i (sk i s4) y5 -> exists y, sevs i (sk i s1) y /\ rested y /\ len w <= tx_size y /\
          tx_wr y = tx_wr (sk i s) /\ forall d, set_regs y5 (puts (regs y5) Sn_TX_WR d) = half_staged y w d).
      { intros y5 N5. rewrite E4 in N5. destruct (sevs_set_txm i z _ _ Bz N5) as (y & N6 & ->).
        destruct (sevs_wr i _ _ N6) as (Wy & Zy' & _). assert (Ny : sevs i (sk i s1) y) by (eapply sevs_trans; eauto).
        destruct (rested_sevs i _ _ Ny R1) as (Ryy & _). exists y. split; [exact Ny|]. split; [exact Ryy|]. split; [rewrite Zy', Zz, Ez1; exact Lw|].
        split; [congruence|]. intros d. unfold half_staged. cbn [regs set_txm]. now rewrite (sevs_txm _ _ _ N6), Zy', Wy. }
      unfold tx_commit. cbn [ptr]. apply wp_try, wp_try. unfold set_tx_write_pointer.
      apply wp_ptr_any; [exact Hi|rewrite E4; exact Bz|now right| |].
      2: { intros er d y5 s5 P N5 E5 r _ _. destruct (Hd y5 N5) as (y & Ny & Ryy & Ly & Wy & Ey). rewrite E5, Ey. apply (Go w); [exact Hw|].
           split.
           - apply (chunk_broken_sevs i _ y); auto. apply chunk_broken_half; auto. now rewrite Wy.
           - intros _. change (sent (half_staged y w d)) with (sent y). now destruct (rested_sevs i _ _ Ny R1) as (_ & Es & _). }
      intros y5 s5 N5 E5. cbv beta iota. destruct (Hd y5 N5) as (y & Ny & Ryy & Ly & Wy & Ey).
      assert (E5' : sk i s5 = staged_of y w) by (rewrite E5, Ey, <- Wy; reflexivity).
      assert (Cmd : forall z6, sevs i (sk i s5) z6 -> exists u, sevs i (sk i s1) u /\ rested u /\ len w <= tx_size u /\ z6 = staged_of u w).
      { intros z6 N7. rewrite E5' in N7. destruct (staged_sevs i y w z6 (proj1 (proj2 (proj2 Ryy))) N7) as (u & U1 & ->).
        assert (Nu : sevs i (sk i s1) u) by (eapply sevs_trans; eauto). destruct (rested_sevs i _ _ Nu R1) as (Ru & _).
        destruct (sevs_wr i _ _ U1) as (_ & Zu & _). exists u. rewrite Zu. auto. }
      assert (Sp : forall u z6, sevs i (sk i s1) u -> rested u -> len w <= tx_size u -> spent i (sent_of u w) z6 -> wframe_broken (sk i s) frame z6).
      { intros u z6 Nu Ru Lu S. destruct (spent_raw i u w z6 Ru Lu S) as (C1 & C2). apply (Go w); [exact Hw|].
        split; [now apply (chunk_broken_sevs i _ u)|]. intros E. destruct (rested_sevs i _ _ Nu R1) as (_ & <- & _). auto. }
      apply wp_try, wp_command_any; [exact Hi|..].
      - intros z6 s6 N7 E6. cbv beta iota. apply wp_ret. cbv beta iota. destruct (Cmd z6 N7) as (u & Nu & Ru & Lu & ->).
        rewrite do_send_pkt in E6 by apply Ru. fold (sent_of u w) in E6.
        apply wp_try, (wp_ro eb e i); [apply ro_wait_send_ok|apply es_wait_send_ok| |].
        2: { intros [a|er] s7 Er N8; [now elim Er|]. intros r _ _. apply (Sp u); auto. exists (sk i s7). rewrite <- E6. auto. }
        apply wp_wait_send_ok; [exact NF|exact Hi| |intros s7 N8 r; discriminate].
        intros s7 N8 So7. cbv beta iota. apply wp_ret. intros r [= <-] Er. now elim Er.
      - intros er z6 s6 N7 E6 r _ _. destruct (Cmd z6 N7) as (u & Nu & Ru & Lu & ->). destruct E6 as [E6|E6]; rewrite E6.
        + apply (Go w); [exact Hw|]. split; [apply (chunk_broken_sevs i _ u); auto; now apply chunk_broken_staged|].
          intros _. change (sent (staged_of u w)) with (sent u). now destruct (rested_sevs i _ _ Nu R1) as (_ & Es & _).
        + rewrite do_send_pkt by apply Ru. apply (Sp u); auto. exists (sent_of u w). split; [apply sevs_refl|now left]. }
    assert (Void : wp e (try b <- tx_commit (socket_new i) (mkCursor (tx_wr (sk i s)) (tx_size (sk i s))) else Err ;;
            try d <- wait_send_ok fuel (socket_new i) else Err ;; Ret (Ok 0)) (when_err (@eb N) (fun s' => wframe_broken (sk i s) frame (sk i s'))) s3).
    { replace (mkCursor (tx_wr (sk i s)) (tx_size (sk i s)))
        with (mkCursor ((tx_wr (sk i s) + len (@nil byte)) mod 65536) (tx_size (sk i s) - len (@nil byte))).
      2: { change (len (@nil byte)) with 0. rewrite N.add_0_r, N.sub_0_r, N.mod_small by apply tx_wr_lt. reflexivity. }
      apply (Tail [] 0 (sk i s3)); [now right|exact N13|cbn [ring_write]; now destruct (sk i s3)]. }
    apply wp_try. unfold tx_write, available. cbn [size ptr]. rewrite W3, Ew1.
    destruct (N.eqb_spec (len frame) 0) as [Ez|Ez]; cbn [orb]; [apply wp_ret; cbv beta iota; exact Void|].
    destruct (N.ltb_spec (tx_size (sk i s)) (len frame)) as [Hl|Hl]; [apply wp_ret; cbv beta iota; exact Void|].
    assert (Ec : as_u16 (len frame) = len frame) by (unfold as_u16; apply N.mod_small; lia). rewrite Ec.
    apply wp_slice_to; [|lia]. intros _. rewrite take_all by lia.
    assert (Wd : forall w (Q' : outcome (res unit berr) -> sys -> Prop),
      (forall z s4, sevs i (sk i s1) z -> sk i s4 = set_txm z (ring_write (txm z) (tx_size z) (tx_wr z) w) -> Q' (Done (Ok tt)) s4) ->
      wp (nofail e) (write_frame (tx_buffer (socket_new i)) (tx_wr (sk i s)) w) Q' s3).
    { intros w Q' HQ. unfold write_frame. rewrite so_tx by exact Hi. apply wp_wtx; [exact NF|exact B3|exact V3|].
      intros z s4 N4 E4. apply wp_ret. assert (N14 : sevs i (sk i s1) z) by (eapply sevs_trans; eauto). destruct (sevs_wr i _ _ N14) as (Wz & _).
      apply (HQ z); [exact N14|]. rewrite E4, Wz, Ew1. reflexivity. }
    apply wp_try, wp_write_any.
    2: { intros m er. apply Wd. intros z s4 N4 E4 r _ _. apply (Go []); [now right|]. destruct (rested_sevs i _ _ N4 R1) as (Rz & Es & _).
         rewrite E4. split; [|intros _; exact Es]. apply (chunk_broken_sevs i _ z); auto.
         replace (set_txm z _) with (half_staged z (firstn m frame) []) by (unfold half_staged; cbn [puts]; now destruct z).
         apply chunk_broken_half; [exact Rz|change (len (@nil byte)) with 0; lia|now left|now left]. }
    apply Wd. intros z s4 N4 E4. cbv beta iota.
    destruct (N.ltb_spec (tx_size (sk i s)) (len frame)); [lia|]. apply wp_ret. cbv beta iota. cbn [fst snd].
    apply (Tail frame (len frame) z); [left; split; [reflexivity|lia]|exact N4|exact E4].
  Qed.
End Write.
