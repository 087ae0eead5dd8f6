(** UDP sends during which a bus access fails: what is left behind. *)
From Verif Require Export Recovery UdpSend.
From Verif Require Import TcpSession FrameFacts ErrorFacts ProgFacts Datasheet ValueFacts.

(** a program whose error cases are known apart from the others *)
Lemma wp_split {A} (E : A -> option berr) e (q : prog A) (R : outcome A -> sys -> Prop) s :
  estop E q -> wp (nofail e) q R s -> wp e q (fun o s' => forall r, o = Done r -> E r <> None -> R o s') s -> wp e q R s.
Proof.
  intros Es W H. unfold wp in H |- *. destruct (run e q s) as [o s'] eqn:Rn.
  assert (X : (exists r, o = Done r /\ E r <> None) \/ (forall r, o = Done r -> E r = None)).
  { destruct o as [r| | |]; try (right; discriminate). destruct (E r) eqn:Er; [left; exists r; split; congruence|].
    right. intros r' [= <-]. exact Er. }
  destruct X as [(r & -> & Er)|X]; [now apply (H r)|]. exact (session_call E e q R s o s' Es Rn X W).
Qed.
(** only the bus errors of a call matter *)
Definition when_err {A} (E : A -> option berr) (P : sys -> Prop) (o : outcome A) (s : sys) : Prop :=
  forall r, o = Done r -> E r <> None -> P s.

(** after a failing send of the piece [w] from the rested socket [x]: nothing happened; or [w]
    is in the buffer; or the write pointer is torn; or the SEND was issued *)
Definition chunk_broken (x : sock) (w : list byte) (x' : sock) : Prop :=
  kept x x' /\
  ((sent x' = sent x /\ rested x') \/
   (sent x' = sent x /\ tx_busy x' = false /\ tx_wr x' = (tx_wr x + len w) mod 65536 /\ txv x' /\ unsent x' = w) \/
   (sent x' = sent x /\ tx_busy x' = false /\ tx_end x' = tx_wr x /\ tx_wr x' = (tx_wr x + len w) mod 65536 / 256 * 256 + tx_wr x mod 256) \/
   (tx_wr x' = (tx_wr x + len w) mod 65536 /\ tx_end x' = tx_wr x' /\ (sent x' = sent x \/ chunk_sent x w x'))).

Lemma chunk_broken_sevs i x y w x' : rested x -> sevs i x y -> chunk_broken y w x' -> chunk_broken x w x'.
Proof.
  intros R N (K & C). destruct (rested_sevs i x y N R) as (_ & E1 & E2 & _). destruct (sevs_wr i _ _ N) as (W & _).
  split; [eapply kept_trans; [apply (kept_sevs i); [apply R|exact N]|exact K]|]. unfold chunk_sent in *. rewrite E1, E2, W in C. exact C.
Qed.
Lemma chunk_broken_none i x w y : rested x -> sevs i x y -> chunk_broken x w y.
Proof.
  intros R N. destruct (rested_sevs i x y N R) as (Ry & E1 & _). split; [apply (kept_sevs i); [apply R|exact N]|]. left. auto.
Qed.
Lemma chunk_broken_staged y w : rested y -> len w <= tx_size y -> chunk_broken y w (staged_of y w).
Proof.
  intros R L. pose proof (rested_txv y R) as T. rewrite <- (rested_fsr y R) in L.
  destruct (staged_txv y w T L) as (T' & _ & U'). rewrite (rested_unsent y R) in U'. cbn [List.app] in U'.
  destruct (staged_fields y w) as (W & _). split.
  - exact (kept_sent_of y w).
  - right. left. split; [reflexivity|]. split; [apply R|]. split; [exact W|]. auto.
Qed.
Lemma kept_half v y w d : be_part v d -> kept y (half_staged y w d).
Proof.
  intros P. split; [eapply half_staged_rxrel; eauto|].
  split; [intros a H1 H2; eapply half_staged_other; eauto|]. split; [reflexivity|]. split; [reflexivity|].
  apply rxgrow_same; try reflexivity. unfold rx_size. now rewrite (half_staged_other v) by (auto; discriminate).
Qed.
Lemma chunk_broken_half y w w' d : rested y -> len w <= tx_size y -> be_part ((tx_wr y + len w) mod 65536) d -> d = [] \/ w' = w ->
  chunk_broken y w (half_staged y w' d).
Proof.
  intros R L P D. pose proof (kept_half _ y w' d P) as K. destruct P as [-> |[-> | ->]].
  - split; [exact K|]. left. split; [reflexivity|exact R].
  - destruct D as [[=]| ->]. split; [exact K|]. right. right. left. split; [reflexivity|]. split; [apply R|]. split; [apply R|apply torn_wr].
  - destruct D as [[=]| ->]. rewrite half_staged_full. now apply chunk_broken_staged.
Qed.

Section Flush.
  Context (e : env) (i : N).
  Hypothesis Hi : i < 8.
  Let NF := nofail_no_faults e.
  Context (d : option addr4) (p : N).
  Let so := mkUdp (socket_new i) d p.
  Definition spent (x0 z : sock) : Prop :=
    exists y, sevs i x0 y /\ (z = y \/ exists m, N.testbit m 2 = false /\ z = set_ir y (N.ldiff (ir y) m)).

  Lemma wp_flush_err x0 s : sevs i x0 (sk i s) ->
    wp e (udp_try_flush_tx so) (fun o s' => (o = Done (Err WouldBlock) -> sevs i x0 (sk i s')) /\ when_err enu (fun s' => spent x0 (sk i s')) o s') s.
  Proof.
    intros H0. unfold udp_try_flush_tx, so. cbn [u_socket].
    assert (ErrQ : forall er s', spent x0 (sk i s') -> (Done (@uE unit er) = Done (Err WouldBlock) -> sevs i x0 (sk i s')) /\
       when_err enu (fun s' => spent x0 (sk i s')) (Done (@uE unit er)) s').
    { intros er s' Sp. split; [discriminate|]. intros r _ _. exact Sp. }
    assert (Triv : forall er s', sevs i x0 (sk i s') -> (Done (@uE unit er) = Done (Err WouldBlock) -> sevs i x0 (sk i s')) /\
       when_err enu (fun s' => spent x0 (sk i s')) (Done (@uE unit er)) s').
    { intros er s' N. apply ErrQ. exists (sk i s'). auto. }
    assert (Oks : forall (r : res unit (nberr uerr)) s', enu r = None -> sevs i x0 (sk i s') \/ r <> Err WouldBlock ->
       wp e (Ret r) (fun o s' => (o = Done (Err WouldBlock) -> sevs i x0 (sk i s')) /\ when_err enu (fun s' => spent x0 (sk i s')) o s') s').
    { intros r s' Er N. apply wp_ret. split; [intros [= ->]; destruct N as [N|N]; [exact N|now elim N]|]. intros r' [= <-] Ne. now rewrite Er in Ne. }
    apply wp_try, (wp_ro eb e i); [apply ro_read_then|apply es_get_tx_read_pointer| |].
    2: { intros [a|er] s1 Er N1; [now elim Er|]. apply Triv. eapply sevs_trans; eauto. }
    apply wp_get_tx_read_pointer; auto. intros y s1 N1 N2. cbv beta iota.
    assert (H1 : sevs i x0 (sk i s1)) by (eapply sevs_trans; [|eapply sevs_trans]; eauto).
    apply wp_try, (wp_ro eb e i); [apply ro_read_then|apply es_get_tx_write_pointer| |].
    2: { intros [a|er] s2 Er N3; [now elim Er|]. apply Triv. eapply sevs_trans; eauto. }
    apply wp_get_tx_write_pointer; auto. intros s2 N3. cbv beta iota.
    assert (H2 : sevs i x0 (sk i s2)) by (eapply sevs_trans; eauto).
    match goal with |- wp e (if ?b then _ else _) _ _ => destruct b end; [|apply Oks; auto].
    apply wp_try, (wp_ro eb e i); [apply ro_read_then|apply es_has_interrupt| |].
    2: { intros [a|er] s3 Er N4; [now elim Er|]. apply Triv. eapply sevs_trans; eauto. }
    apply (wp_has_interrupt (nofail e) i NF Hi InSendOk 4); [reflexivity|reflexivity|]. intros s3 N4. cbv beta iota.
    assert (H3 : sevs i x0 (sk i s3)) by (eapply sevs_trans; eauto).
    destruct (N.testbit (ir (sk i s3)) 4).
    - apply wp_try, wp_reset_interrupt_any; auto.
      + intros z s4 N5 E4. apply Oks; [reflexivity|]. right. discriminate.
      + intros er z s4 N5 E4. apply ErrQ. exists z. split; [eapply sevs_trans; eauto|].
        destruct E4 as [E4|E4]; [now left|right]. exists (interrupt_u8 InSendOk). split; [reflexivity|exact E4].
    - apply wp_try, (wp_ro eb e i); [apply ro_read_then|apply es_has_interrupt| |].
      2: { intros [a|er] s4 Er N5; [now elim Er|]. apply Triv. eapply sevs_trans; eauto. }
      apply (wp_has_interrupt (nofail e) i NF Hi InTimeout 3); [reflexivity|reflexivity|]. intros s4 N5. cbv beta iota.
      assert (H4 : sevs i x0 (sk i s4)) by (eapply sevs_trans; eauto).
      destruct (N.testbit (ir (sk i s4)) 3); [|apply Oks; auto].
      apply wp_try, wp_reset_interrupt_any; auto.
      + intros z s5 N6 E5. apply Oks; [reflexivity|]. right. discriminate.
      + intros er z s5 N6 E5. apply ErrQ. exists z. split; [eapply sevs_trans; eauto|].
        destruct E5 as [E5|E5]; [now left|right]. exists (interrupt_u8 InTimeout). split; [reflexivity|exact E5].
  Qed.
  Lemma wp_flush_loop_err x0 : forall fuel s, sevs i x0 (sk i s) ->
    wp e (udp_flush_loop fuel so) (when_err enu (fun s' => spent x0 (sk i s'))) s.
  Proof.
    induction fuel as [|fuel IH]; intros s H; cbn [udp_flush_loop]; [intros r; discriminate|].
    apply wp_bind. eapply wp_mono; [|apply (wp_flush_err x0 s H)].
    intros o s' (H1 & H2). destruct o as [[[]|[|er]]| | |]; cbv beta iota; try (intros r; discriminate).
    - apply wp_ret. intros r [= <-]. now cbn.
    - apply IH. now apply H1.
    - apply wp_ret. intros r [= <-] Er. eapply H2; [reflexivity|exact Er].
  Qed.
End Flush.

Section Chunk.
  Context (e : env) (i : N).
  Hypothesis Hi : i < 8.
  Let NF := nofail_no_faults e.
  Context (d : addr4) (p : N).
  Let so := mkUdp (socket_new i) (Some d) p.

  Lemma spent_broken x w z : rested x -> launched (sent_of x w) w -> spent i (sent_of x w) z -> chunk_broken x w z.
  Proof.
    intros R L (y & N & Z). destruct (waiting_at i x w R L y N) as (K & C). pose proof (aloft_at i x w L y N) as (_ & A2 & _ & A4 & _).
    assert (W : tx_wr y = (tx_wr x + len w) mod 65536).
    { transitivity (tx_wr (sent_of x w)); [unfold tx_wr; now rewrite A2|]. apply (staged_fields x w). }
    assert (E : tx_end y = tx_wr y). { rewrite A4, W. change (tx_end (sent_of x w)) with (tx_wr (staged_of x w)). apply (staged_fields x w). }
    assert (B : chunk_broken x w y). { split; [exact K|]. right. right. right. auto. }
    destruct Z as [-> |(m & Hm & ->)]; [exact B|]. split; [eapply kept_trans; [exact K|now apply kept_clear]|].
    right. right. right. split; [exact W|]. split; [exact E|exact C].
  Qed.

  Lemma wp_udp_data_err fuel w s : rested (sk i s) -> 0 < len w -> len w <= tx_size (sk i s) ->
    wp e (udp_send_data fuel so w) (when_err enu (fun s' => chunk_broken (sk i s) w (sk i s'))) s.
  Proof.
    intros R L0 L. unfold udp_send_data, udp_block_send_command, so. cbn [u_socket].
    pose proof R as (_ & V & B & _). pose proof (valid_le _ V) as Hz.
    apply wp_stage_any; [exact Hi|exact B|exact V|lia| |].
    2: { intros er w' dd y s3 _ P D N1 E3 r [= <-] _. destruct (rested_sevs i _ _ N1 R) as (Ry & _). destruct (sevs_wr i _ _ N1) as (_ & Zy & _).
         apply (chunk_broken_sevs i _ y); auto. rewrite E3. apply chunk_broken_half; auto. now rewrite Zy. }
    intros y s3 N1 E3. apply wp_try, wp_try.
    assert (Cmd : forall z, sevs i (sk i s3) z -> exists u, sevs i (sk i s) u /\ rested u /\ z = staged_of u w /\ launched (sent_of u w) w /\ len w <= tx_size u).
    { intros z N2. rewrite E3 in N2. destruct (rested_sevs i _ _ N1 R) as (Ry & _). pose proof Ry as (_ & _ & By & _).
      destruct (staged_sevs i y w z By N2) as (u & U1 & ->). assert (Nu : sevs i (sk i s) u) by (eapply sevs_trans; eauto).
      destruct (rested_sevs i _ _ Nu R) as (Ru & _). destruct (sevs_wr i _ _ Nu) as (_ & Zu & _). rewrite <- Zu in L.
      exists u. split; [exact Nu|]. split; [exact Ru|]. split; [reflexivity|]. split; [|exact L]. now apply (staged_launched u w). }
    apply wp_command_any; [exact Hi|..].
    - intros z s4 N2 E4. cbv beta iota. destruct (Cmd z N2) as (u & Nu & Ru & -> & La & _).
      rewrite do_send_pkt in E4 by apply Ru. fold (sent_of u w) in E4.
      eapply wp_mono; [|apply (wp_flush_loop_err e i Hi (Some d) p (sent_of u w)); rewrite E4; apply sevs_refl].
      intros o s5 H. destruct o as [[[]|er]| | |]; cbv beta iota; try (intros r; discriminate).
      + apply wp_ret. intros r [= <-] Er. now elim Er.
      + intros r [= <-] Er. apply (chunk_broken_sevs i _ u); auto. apply spent_broken; auto. eapply H; [reflexivity|exact Er].
    - intros er z s4 N2 E4 r [= <-] _. destruct (Cmd z N2) as (u & Nu & Ru & -> & La & Lu). apply (chunk_broken_sevs i _ u); auto.
      destruct E4 as [-> | ->]; [now apply chunk_broken_staged|]. rewrite do_send_pkt by apply Ru.
      apply spent_broken; auto. exists (sent_of u w). split; [apply sevs_refl|now left].
  Qed.

  Lemma wp_udp_socket_send_err fuel w s : sr (sk i s) = SOCK_UDP -> rested (sk i s) -> 0 < len w -> len w <= tx_size (sk i s) ->
    wp e (udp_socket_send fuel so w) (when_err enu (fun s' => chunk_broken (sk i s) w (sk i s'))) s.
  Proof.
    intros Su R L0 L. unfold udp_socket_send. cbn [u_socket u_dest so].
    assert (Triv : forall er s1, sevs i (sk i s) (sk i s1) -> when_err enu (fun s' => chunk_broken (sk i s) w (sk i s')) (Done (@uE N er)) s1).
    { intros er s1 N1 r _ _. now apply (chunk_broken_none i). }
    apply wp_try, (wp_ro eb e i); [apply ro_read_then|apply es_get_status| |].
    2: { intros [a|er] s1 Er N1; [now elim Er|]. now apply Triv. }
    apply wp_get_status; auto. intros s1 N1. cbv beta iota.
    destruct (rested_sevs i _ _ N1 R) as (R1 & _ & G1 & _ & _ & S1). rewrite S1, Su. change (udp_status_gate (u8 SOCK_UDP)) with (@Ok unit (nberr uerr) tt).
    cbv iota.
    apply wp_try, (wp_ro eb e i); [apply ro_read_then|apply es_get_tx_free_size| |].
    2: { intros [a|er] s2 Er N2; [now elim Er|]. apply Triv. eapply sevs_trans; eauto. }
    apply wp_get_tx_free_size; auto; [now apply rested_txv|]. intros z s2 v N2 N3 _ Hv. cbv beta iota.
    destruct (rested_sevs i _ _ N2 R1) as (Rz & _ & Gz & _). destruct (rested_sevs i _ _ N3 Rz) as (R2 & _ & G2 & _).
    assert (N4 : sevs i (sk i s) (sk i s2)) by (eapply sevs_trans; [|eapply sevs_trans]; eauto).
    assert (Z2 : tx_size (sk i s2) = tx_size (sk i s)) by (unfold tx_size; now rewrite G2, Gz, G1).
    assert (Ev : v = tx_size (sk i s)).
    { rewrite Hv; rewrite ?(rested_fsr _ Rz), ?(rested_fsr _ R2); unfold tx_size; now rewrite ?G2, ?Gz, ?G1. }
    clear Hv. subst v. destruct (N.eqb_spec (tx_size (sk i s)) 0) as [|_]; [lia|].
    assert (K : wp e (udp_send_data fuel so w) (when_err enu (fun s' => chunk_broken (sk i s) w (sk i s'))) s2).
    { eapply wp_mono; [|apply wp_udp_data_err; [exact R2|exact L0|now rewrite Z2]].
      intros o s' C r E Er. apply (chunk_broken_sevs i _ (sk i s2)); auto. now apply (C r). }
    destruct (N.ltb_spec (len w) (tx_size (sk i s))) as [_|G]; [exact K|].
    apply wp_slice_to; [|lia]. intros _. rewrite take_all by exact L. exact K.
  Qed.
End Chunk.

(** a failing send of [buf]: the pieces [cs] have been dealt with, then a piece of [rest] failed *)
Definition usend_broken (x : sock) (buf : list byte) (x' : sock) : Prop := exists cs rest ps x1,
  buf = concat cs ++ rest /\ cut_into (tx_size x) (concat cs) cs /\ (rest = [] \/ Forall (fun c => len c = tx_size x) cs) /\
  sends x cs ps x1 /\ rested x1 /\ chunk_broken x1 (take (tx_size x) rest) x' /\
  (rest = [] -> rested x' /\ sent x' = sent x1).

Lemma part_app {A} (ps qs ps' qs' : list A) : part ps qs -> part ps' qs' -> part (ps ++ ps') (qs ++ qs').
Proof. induction 1; cbn [List.app]; intros H'; auto using (@part_keep A), (@part_lose A). Qed.
Lemma cut_snoc z cs w : Forall (fun c => len c = z) cs -> 0 < len w <= z -> cut_into z (concat (cs ++ [w])) (cs ++ [w]).
Proof.
  intros F L. split; [reflexivity|]. split; [|now rewrite removelast_last].
  apply Forall_app. split; [|now constructor]. eapply Forall_impl; [|exact F]. intros c E. cbv beta in *. lia.
Qed.
(** what went out are pieces of [buf], in their order, and nothing else *)
Lemma usend_broken_sent x buf x' : valid_size (tx_size x) -> usend_broken x buf x' -> send_waiting x buf x'.
Proof.
  intros V (cs & rest & ps & x1 & E & C & F & (S1 & S2 & S3) & R & (K & B) & Z). pose proof (valid_pos _ V) as Hp.
  assert (K' : kept x x') by (eapply kept_trans; eauto).
  assert (G : sent x' = sent x1 -> send_waiting x buf x').
  { intros Es. exists cs, rest, ps. split; [exact E|]. split; [now split|]. split; [exact K'|]. split; [congruence|exact S3]. }
  destruct F as [-> |F]; [apply G; now apply Z|].
  destruct B as [(B & _)|[(B & _)|[(B & _)|(_ & _ & [B|B])]]]; auto. unfold chunk_sent in B.
  destruct rest as [|b rest]; [apply G; now apply Z|].
  set (w := take (tx_size x) (b :: rest)) in *. rewrite (kept_packet _ _ w S1) in B.
  assert (Lw : 0 < len w <= tx_size x) by (unfold w; rewrite len_take, len_cons; lia).
  exists (cs ++ [w]), (drop (tx_size x) (b :: rest)), (ps ++ [packet_of (regs x) w]).
  split; [rewrite concat_app; cbn [concat]; rewrite app_nil_r, <- app_assoc; unfold w; now rewrite take_drop|].
  split.
  { split; [now apply cut_snoc|]. destruct (N.le_gt_cases (len (b :: rest)) (tx_size x)); [left; now apply drop_all|right].
    apply Forall_app. split; [exact F|]. constructor; [|constructor]. unfold w. rewrite len_take. lia. }
  split; [exact K'|]. split; [now rewrite B, S2, app_assoc|].
  rewrite map_app. apply part_app; [exact S3|]. apply part_keep, part_nil.
Qed.
Lemma usend_broken_sevs i x y buf x' : rested x -> sevs i x y -> usend_broken y buf x' -> usend_broken x buf x'.
Proof.
  intros R N (cs & rest & ps & x1 & E & C & F & S & R1 & B). destruct (rested_sevs i x y N R) as (_ & _ & E2 & _).
  assert (Z : tx_size y = tx_size x) by (unfold tx_size; now rewrite E2). rewrite Z in *.
  exists cs, rest, ps, x1. do 3 (split; [assumption|]). split; [now apply (sends_sevs i _ y)|]. auto.
Qed.
Lemma usend_broken_none i x buf y : rested x -> sevs i x y -> usend_broken x buf y.
Proof.
  intros R N. exists [], buf, [], x. split; [reflexivity|]. split; [apply cut_nil|]. split; [right; constructor|].
  split; [split; [apply (kept_sevs i); [apply R|apply sevs_refl]|split; [now rewrite app_nil_r|constructor]]|].
  split; [exact R|]. split; [now apply (chunk_broken_none i)|]. intros _. destruct (rested_sevs i x y N R) as (Ry & Es & _). auto.
Qed.

Section Send.
  Context (e : env) (i : N).
  Hypothesis Hi : i < 8.
  Let NF := nofail_no_faults e.
  Context (d : addr4) (p : N).
  Let so := mkUdp (socket_new i) (Some d) p.

  Lemma wp_udp_send_loop_err fuel buf : forall outer s don rem,
    sr (sk i s) = SOCK_UDP -> rested (sk i s) -> buf = don ++ rem ->
    wp e (udp_send_loop outer fuel so buf (tx_size (sk i s)) (len don)) (when_err enu (fun s' => usend_broken (sk i s) rem (sk i s'))) s.
  Proof.
    induction outer as [|outer IH]; intros s don rem Su R EB; cbn [udp_send_loop];
      destruct (N.eqb_spec (len don) (len buf)) as [El|Nl]; try (intros r [= <-] Er; now elim Er); try (intros r; discriminate).
    assert (Lr : 0 < len rem) by (rewrite EB, len_app in Nl; lia). pose proof R as (_ & V & _). pose proof (valid_pos _ V) as Hp.
    apply wp_slice_from; [|intros; intros r; discriminate]. intros _. assert (drop (len don) buf = rem) as -> by (rewrite EB; apply drop_app_exact).
    apply wp_slice_to; [|intros; intros r; discriminate]. intros _.
    set (w := take (N.min (tx_size (sk i s)) (len rem)) rem). set (rem' := drop (N.min (tx_size (sk i s)) (len rem)) rem).
    assert (Ew : rem = w ++ rem') by (symmetry; apply take_drop).
    assert (Lw : len w = N.min (tx_size (sk i s)) (len rem)) by (unfold w; rewrite len_take; lia).
    assert (Ew' : w = take (tx_size (sk i s)) rem).
    { unfold w. destruct (N.le_gt_cases (len rem) (tx_size (sk i s))); [|now rewrite N.min_l by lia]. rewrite !take_all by lia. reflexivity. }
    apply wp_try, (wp_split enu).
    - apply es_udp_socket_send.
    - apply wp_udp_socket_send; auto; [lia|lia|..]; intros s1 C; cbv beta iota; try (intros r [= <-] Er; now elim Er); try (intros r; discriminate).
      pose proof C as (R1 & K1 & T1 & C1). pose proof (kept_size _ _ K1) as Z1.
      assert (Cs : exists q, sends (sk i s) [w] q (sk i s1)).
      { destruct C1 as [(C1 & _)|(C1 & _)].
        - exists [packet_of (regs (sk i s)) w]. split; [exact K1|]. split; [exact C1|]. apply part_keep, part_nil.
        - exists []. split; [exact K1|]. split; [now rewrite app_nil_r|]. apply part_lose, part_nil. }
      assert (Cut : forall cs rest, rem' = concat cs ++ rest -> cut_into (tx_size (sk i s)) (concat cs) cs ->
                (rest = [] \/ Forall (fun c => len c = tx_size (sk i s)) cs) ->
                cut_into (tx_size (sk i s)) (concat (w :: cs)) (w :: cs) /\ (rest = [] \/ Forall (fun c => len c = tx_size (sk i s)) (w :: cs))).
      { intros cs rest O1 O2 O3. destruct (N.le_gt_cases (len rem) (tx_size (sk i s))) as [Hl|Hl].
        - assert (X : rem' = []) by (unfold rem'; rewrite N.min_r by lia; apply drop_all; lia). rewrite X in O1.
          symmetry in O1. apply app_eq_nil in O1. destruct O1 as (O1 & ->). split; [|now left].
          cbn [concat]. apply cut_cons; [lia|now left|exact O2].
        - split; [cbn [concat]; apply cut_cons; [lia|right; lia|exact O2]|]. destruct O3 as [O3|O3]; [now left|right].
          constructor; [lia|exact O3]. }
      assert (Next : forall s2, sevs i (sk i s1) (sk i s2) -> forall z, usend_broken (sk i s2) rem' z -> usend_broken (sk i s) rem z).
      { intros s2 N4 z B. apply (usend_broken_sevs i _ _ _ _ R1 N4) in B.
        destruct B as (cs & rest & ps & x1 & O1 & O2 & O3 & O4 & O5 & O6). rewrite Z1 in *.
        destruct (Cut cs rest O1 O2 O3) as (P1 & P2). destruct Cs as (q & Q1 & Q2 & Q3). destruct O4 as (O4 & O4' & O4'').
        exists (w :: cs), rest, (q ++ ps), x1. split; [cbn [concat]; rewrite <- app_assoc, <- O1; exact Ew|]. split; [exact P1|].
        split; [exact P2|]. split; [|auto]. split; [eapply kept_trans; eauto|]. split; [rewrite O4', Q2; now rewrite app_assoc|].
        rewrite (kept_packets _ _ _ Q1) in O4''. exact (part_app _ _ _ _ Q3 O4''). }
      apply wp_try, (wp_ro eb e i); [apply ro_read_then|apply es_get_tx_free_size| |].
      2: { intros [a|er] s2 Er N2; [now elim Er|]. intros r _ _. apply (Next s2 N2).
           destruct (rested_sevs i _ _ N2 R1) as (R2 & _). apply (usend_broken_none i); [exact R2|apply sevs_refl]. }
      apply wp_get_tx_free_size; auto; [now apply rested_txv|]. intros z s2 v N2 N3 _ Hv. cbv beta iota.
      destruct (rested_sevs i _ _ N2 R1) as (Rz & _ & Gz & _). destruct (rested_sevs i _ _ N3 Rz) as (R2 & _ & G2 & _).
      assert (N4 : sevs i (sk i s1) (sk i s2)) by (eapply sevs_trans; eauto).
      destruct (rested_sevs i _ _ N4 R1) as (_ & P1 & P2 & P3 & P4 & P5).
      assert (Ev : v = tx_size (sk i s2)).
      { rewrite Hv; rewrite ?(rested_fsr _ Rz), ?(rested_fsr _ R2); unfold tx_size; now rewrite ?G2, ?Gz. }
      rewrite Ev, <- len_app.
      eapply wp_mono; [|apply (IH s2 (don ++ w) rem'); [|exact R2|now rewrite <- app_assoc, <- Ew]].
      + intros o s' H r Eo Er. apply (Next s2 N4). now apply (H r).
      + rewrite P5. destruct K1 as (_ & _ & _ & K1 & _). congruence.
    - eapply wp_mono; [|apply wp_udp_socket_send_err; auto; lia].
      intros o s' H r -> Er. destruct r as [a|er]; [now elim Er|]. intros r' _ _.
      exists [], rem, [], (sk i s). split; [reflexivity|]. split; [apply cut_nil|]. split; [right; constructor|].
      split; [split; [apply (kept_sevs i); [apply R|apply sevs_refl]|split; [now rewrite app_nil_r|constructor]]|].
      split; [exact R|]. rewrite <- Ew'. split; [now apply (H (Err er))|]. intros ->. cbn in Lr. lia.
  Qed.

  Lemma wp_udp_send_all_err fuel buf s : sr (sk i s) = SOCK_UDP -> rested (sk i s) ->
    wp e (udp_send_all fuel so buf) (when_err enu (fun s' => usend_broken (sk i s) buf (sk i s'))) s.
  Proof.
    intros Su R. unfold udp_send_all. cbn [u_socket u_dest so].
    assert (Triv : forall er s1, sevs i (sk i s) (sk i s1) -> when_err enu (fun s' => usend_broken (sk i s) buf (sk i s')) (Done (@uE unit er)) s1).
    { intros er s1 N1 r _ _. now apply (usend_broken_none i). }
    apply wp_try, (wp_ro eb e i); [apply ro_read_then|apply es_get_status| |].
    2: { intros [a|er] s1 Er N1; [now elim Er|]. now apply Triv. }
    apply wp_get_status; auto. intros s1 N1. cbv beta iota.
    destruct (rested_sevs i _ _ N1 R) as (R1 & _ & G1 & _ & _ & S1). rewrite S1, Su. change (udp_status_gate (u8 SOCK_UDP)) with (@Ok unit (nberr uerr) tt).
    cbv iota.
    apply wp_try, (wp_ro eb e i); [apply ro_read_then|apply es_get_tx_free_size| |].
    2: { intros [a|er] s2 Er N2; [now elim Er|]. apply Triv. eapply sevs_trans; eauto. }
    apply wp_get_tx_free_size; auto; [now apply rested_txv|]. intros z s2 v N2 N3 _ Hv. cbv beta iota.
    destruct (rested_sevs i _ _ N2 R1) as (Rz & _ & Gz & _). destruct (rested_sevs i _ _ N3 Rz) as (R2 & _ & G2 & _).
    assert (N4 : sevs i (sk i s) (sk i s2)) by (eapply sevs_trans; [|eapply sevs_trans]; eauto).
    assert (Ev : v = tx_size (sk i s2)).
    { rewrite Hv; rewrite ?(rested_fsr _ Rz), ?(rested_fsr _ R2); unfold tx_size; now rewrite ?G2, ?Gz. }
    clear Hv. subst v. destruct (N.eqb_spec (tx_size (sk i s2)) 0) as [|_]; [intros r [= <-] Er; now elim Er|].
    destruct (rested_sevs i _ _ N4 R) as (_ & P1 & P2 & P3 & P4 & P5).
    eapply wp_mono; [|apply (wp_udp_send_loop_err fuel buf fuel s2 [] buf); [congruence|exact R2|reflexivity]].
    intros o s' H r Eo Er. apply (usend_broken_sevs i _ (sk i s2)); auto. now apply (H r).
  Qed.
End Send.

(** ** The destination registers *)
(** after a failing set_destination: the six destination bytes may be anything, nothing else
    was done *)
Section Destination.
  Context (e : env) (i : N).
  Hypothesis Hi : i < 8.
  Let NF := nofail_no_faults e.

  Definition misaimed (x x' : sock) : Prop :=
    exists y rg, sevs i x y /\ x' = set_regs y rg /\ (forall a, a < 0x0C \/ 0x12 <= a -> rg a = regs y a).
  Lemma misaimed_facts x x' : rested x -> rready x -> misaimed x x' ->
    rested x' /\ rready x' /\ sent x' = sent x /\ sr x' = sr x /\ exists ch, pending x' = pending x ++ ch /\ rxlog x' = rxlog x ++ ch.
  Proof.
    intros R Rr (y & rg & N & -> & G). destruct (rested_sevs i x y N R) as (Ry & Es & _ & _ & _ & Sr).
    destruct (sevs_rx i x y N (proj1 Rr)) as (_ & c & P & Lg & _). pose proof (rready_sevs i x y N Rr) as Rry.
    assert (W : tx_wr (set_regs y rg) = tx_wr y) by (unfold tx_wr, get16; cbn [regs set_regs]; now rewrite !G by (right; discriminate)).
    assert (Z : tx_size (set_regs y rg) = tx_size y) by (unfold tx_size; cbn [regs set_regs]; now rewrite !G by (right; discriminate)).
    assert (D : rx_rd (set_regs y rg) = rx_rd y) by (unfold rx_rd, get16; cbn [regs set_regs]; now rewrite !G by (right; discriminate)).
    assert (X : rx_size (set_regs y rg) = rx_size y) by (unfold rx_size; cbn [regs set_regs]; now rewrite !G by (right; discriminate)).
    split. { destruct Ry as (P1 & P2 & P3). split; [exact P1|]. rewrite Z, W. auto. }
    split. { destruct Rry as (V1 & V2). unfold rready, rxv in *. rewrite D, X. auto. }
    split; [exact Es|]. split; [exact Sr|]. exists c. split; [|exact Lg]. rewrite <- P. unfold pending. now rewrite X.
  Qed.

  Lemma wp_set_destination_err dest port r s : idle (sk i s) ->
    wp e (udp_set_destination (mkUdp (socket_new i) dest port) r) (when_err (fun r => eu (snd r)) (fun s' => misaimed (sk i s) (sk i s'))) s.
  Proof.
    intros I. unfold udp_set_destination. cbn [u_dest u_socket u_port].
    set (Q := when_err (fun r : UdpSocket * res unit uerr => eu (snd r)) (fun s' => misaimed (sk i s) (sk i s'))).
    assert (Part : forall k, len (firstn k (octets (a_ip r))) <= 4 /\ 0x0C + len (firstn k (octets (a_ip r))) < 65536 /\
      forallb plain (map (fun j => Sn_DIPR + N.of_nat j) (seq 0 (length (firstn k (octets (a_ip r)))))) = true).
    { intros k. destruct (a_ip r) as [b0 b1 b2 b3]. destruct k as [|[|[|[|k]]]]; try (split; [discriminate|split; reflexivity]).
      cbn [octets firstn]. rewrite firstn_nil. split; [discriminate|split; reflexivity]. }
    assert (K : wp e (try a <- set_destination_ip (socket_new i) (a_ip r) else (fun e => (mkUdp (socket_new i) dest port, Err (UOther e))) ;;
         try b <- set_destination_port (socket_new i) (a_port r) else (fun e => (mkUdp (socket_new i) dest port, Err (UOther e))) ;;
         Ret (mkUdp (socket_new i) (Some r) port, Ok tt)) Q s).
    { apply wp_try. unfold set_destination_ip. apply wp_write_any.
      2: { intros k er. destruct (Part k) as (P1 & P2 & P3). apply (wp_plain_write (nofail e) i NF Hi _ _ _ s I P2 P3).
           intros y s1 N1 E1 r0 _ _. exists y. eexists. split; [exact N1|]. split; [exact E1|]. intros a Ha. apply puts_other. unfold s_DESTINATION_IP. lia. }
      apply wp_set_destination_ip; [exact NF|exact Hi|exact I|]. intros y s1 N1 E1. cbv beta iota. destruct (sevs_idle i _ _ N1 I) as (Iy & _).
      assert (Z : same_sizes (regs y) (puts (regs y) Sn_DIPR (octets (a_ip r)))) by (apply puts_sizes; destruct (a_ip r); reflexivity).
      assert (Pt : forall k, let d := firstn k (to_be (a_port r)) in len d <= 2 /\ Sn_DPORT + len d < 65536 /\
        forallb plain (map (fun j => Sn_DPORT + N.of_nat j) (seq 0 (length d))) = true).
      { intros k. destruct (firstn_be (a_port r) k) as [-> |[-> | ->]]; (split; [discriminate|split; reflexivity]). }
      apply wp_try. unfold set_destination_port. apply wp_write_any.
      2: { intros k er. destruct (Pt k) as (P1 & P2 & P3). apply (wp_plain_write (nofail e) i NF Hi _ _ _ s1); [rewrite E1; exact Iy|exact P2|exact P3|].
           intros z s2 N2 E2 r0 _ _. rewrite E1 in N2. destruct (sevs_set_regs i y _ z Z Iy N2) as (u & U1 & U2).
           exists u. eexists. split; [eapply sevs_trans; eauto|]. split; [rewrite E2, U2; reflexivity|].
           intros a Ha. rewrite (sevs_regs i _ _ U1). cbn [regs set_regs]. rewrite !puts_other; [reflexivity| |].
           - unfold Sn_DIPR. destruct (a_ip r). change (len (octets _)) with 4. lia.
           - unfold s_DESTINATION_PORT. lia. }
      apply wp_set_destination_port; [exact NF|exact Hi|rewrite E1; exact Iy|]. intros z s2 _ _. cbv beta iota. apply wp_ret.
      intros r0 [= <-] Er. now elim Er. }
    destruct dest as [d|]; [|exact K]. destruct (addr4_eqb d r) eqn:Ed; [|exact K]. cbn [negb].
    apply wp_ret. intros r0 [= <-] Er. now elim Er.
  Qed.
End Destination.
