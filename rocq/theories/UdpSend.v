(** UDP send against the chip. *)
From Verif Require Export PacketSend.
From Verif Require Import Datasheet ValueFacts.

(** [x]: the rested socket a chunk [w] was sent from; [x']: the socket after the call *)
Definition chunk_sent (x : sock) (w : list byte) (x' : sock) : Prop := sent x' = sent x ++ [packet_of (regs x) w].
Definition chunk_ok (x : sock) (w : list byte) (x' : sock) : Prop :=
  rested x' /\ kept x x' /\ (tmof x = true -> tmof x' = true) /\
  ((chunk_sent x w x' /\ tmof x' = tmof x) \/ (sent x' = sent x /\ fresh_ok x = true /\ tmof x' = true)).
Definition chunk_timeout (x : sock) (w : list byte) (x' : sock) : Prop :=
  rested x' /\ kept x x' /\ (sent x' = sent x \/ (chunk_sent x w x' /\ tmof x = true)).
Definition chunk_waiting (x : sock) (w : list byte) (x' : sock) : Prop :=
  kept x x' /\ (sent x' = sent x \/ chunk_sent x w x').

Section Flush.
  Context (e : env) (i : N).
  Hypothesis NF : no_faults e.
  Hypothesis Hi : i < 8.
  Context (d : option addr4) (p : N).
  Let so := mkUdp (socket_new i) d p.
  Context (x : sock) (w : list byte).
  Hypothesis Rx : rested x.
  Hypothesis Ln : launched (sent_of x w) w.
  Let x0 := sent_of x w.

  Lemma x0_facts : sent x0 = sent x /\ sendok x0 = sendok x /\ tmof x0 = tmof x /\ sr x0 = sr x /\ tx_rd x0 = tx_wr x /\
    packet_of (regs x0) w = packet_of (regs x) w /\ tx_size x0 = tx_size x.
  Proof.
    destruct (staged_fields x w) as (_ & Z & _). destruct (kept_sent_of x w) as (_ & Kr & _).
    repeat (split; [reflexivity|]). split; [apply Rx|]. split; [now apply packet_of_ext|exact Z].
  Qed.
  Lemma from_x0 z : sevs i x0 z -> kept x z.
  Proof. intros H. eapply kept_trans; [apply kept_sent_of|]. apply (kept_sevs i); [|exact H]. apply Ln. Qed.
  Lemma aloft_at z : sevs i x0 z -> aloft x0 w z.
  Proof. intros H. apply (aloft_sevs i x0 w x0 z Ln H), aloft_start, Ln. Qed.
  (** the read pointer has reached the write pointer: the SEND is over *)
  Definition landed (z : sock) : Prop := sevs i x0 z /\ tx_rd z = tx_wr x0.
  Lemma landed_sevs y z : landed y -> sevs i y z -> landed z.
  Proof.
    intros (H1 & H2) H. split; [eapply sevs_trans; eauto|].
    apply (aloft_stays i x0 w y z Ln H (aloft_at y H1) H2).
  Qed.
  Lemma landed_cases z : landed z -> rested z /\
    ((chunk_sent x w z /\ (sendok z || tx_okdue z) = true /\ tmof z = tmof x) \/
     (sent z = sent x /\ sendok z = sendok x /\ tmof z = true)).
  Proof.
    intros (H & Er). pose proof (aloft_at z H) as (A1 & A2 & A3 & A4 & A5). pose proof Ln as (P & V & _ & _ & _ & _ & E & Sw & Lw & _).
    destruct x0_facts as (F1 & F2 & F3 & F4 & F5 & F6 & F7).
    assert (Ne : tx_rd x0 <> tx_wr x0) by (intros X; fold x0 in Sw; rewrite X, sub16_self in Sw by apply tx_wr_lt; lia).
    assert (Wz : tx_wr z = tx_wr x0) by (unfold tx_wr; now rewrite A2).
    assert (Zz : tx_size z = tx_size x0) by (unfold tx_size; now rewrite A2).
    assert (Rst : tx_busy z = false -> tx_ack z = tx_wr x0 -> rested z).
    { intros Bz Az. split; [rewrite A1; exact P|]. split; [rewrite Zz; exact V|]. split; [exact Bz|].
      rewrite Wz, A4. auto. }
    destruct A5 as [(_ & X & _)|[(B1 & B2 & B3 & B4 & B5 & B6)|(B1 & B4 & B5 & B6 & B7 & [(_ & B3)|(X & _)])]]; try congruence.
    - split; [auto|]. left. unfold chunk_sent. rewrite B4, F1, F6, B6, F3. auto.
    - split; [auto|]. right. rewrite B4, B6, F1, F2. auto.
  Qed.
  (** the two bytes of the read pointer may be from before and after it moved *)
  Lemma torn_rd y z : sevs i x0 y -> sevs i y z ->
    b2n (hi (tx_rd y)) * 256 + b2n (lo (tx_rd z)) = tx_wr x0 -> tx_rd z = tx_wr x0.
  Proof.
    intros Hy Hz E. assert (H0z : sevs i x0 z) by (eapply sevs_trans; eauto).
    pose proof Ln as (_ & _ & _ & _ & Lr & _ & _ & Sw & Lw & _).
    destruct (aloft_rd _ _ _ (aloft_at z H0z)) as [X|X]; [exact X|].
    destruct (aloft_rd _ _ _ (aloft_at y Hy)) as [Y|Y].
    - now apply (aloft_stays i x0 w y z Ln Hz (aloft_at y Hy)).
    - exfalso. rewrite X, Y in E. unfold hi, lo in E. rewrite !b2n_u8 in E.
      assert (tx_rd x0 = tx_wr x0) by (fold x0 in Lr; lia). fold x0 in Sw. rewrite H, sub16_self in Sw by apply tx_wr_lt. lia.
  Qed.

  Lemma rested_clear z m : rested z -> rested (set_ir z m).
  Proof. intros H. exact H. Qed.
  Lemma tmof_clear z : tmof (set_ir z (N.ldiff (ir z) (interrupt_u8 InSendOk))) = tmof z.
  Proof. unfold tmof. sfields. rewrite N.ldiff_spec. change (N.testbit (interrupt_u8 InSendOk) 3) with false. apply andb_true_r. Qed.

  Lemma wp_flush_tx (Q : outcome (res unit (nberr uerr)) -> sys -> Prop) s : sevs i x0 (sk i s) ->
    (forall s', sevs i x0 (sk i s') -> Q (Done (Err WouldBlock)) s') ->
    (forall s', chunk_ok x w (sk i s') -> Q (Done (Ok tt)) s') ->
    (forall s', chunk_timeout x w (sk i s') -> Q (Done (Err (NbOther UWriteTimeout))) s') ->
    wp e (udp_try_flush_tx so) Q s.
  Proof.
    intros H0 HW HO HT. unfold udp_try_flush_tx, so. cbn [u_socket]. destruct x0_facts as (F1 & F2 & F3 & F4 & F5 & F6 & F7).
    apply wp_try, wp_get_tx_read_pointer; auto. intros y s1 N1 N2. cbv beta iota.
    assert (Hy : sevs i x0 y) by (eapply sevs_trans; eauto). assert (H1 : sevs i x0 (sk i s1)) by (eapply sevs_trans; eauto).
    apply wp_try, wp_get_tx_write_pointer; auto. intros s2 N3. cbv beta iota.
    assert (H2 : sevs i x0 (sk i s2)) by (eapply sevs_trans; eauto).
    destruct (sevs_wr i x0 _ H2) as (W2 & _). rewrite W2.
    destruct (N.eqb_spec (b2n (hi (tx_rd y)) * 256 + b2n (lo (tx_rd (sk i s1)))) (tx_wr x0)) as [Eq|_]; [|apply wp_ret; now apply HW].
    assert (L2 : landed (sk i s2)).
    { apply (landed_sevs (sk i s1)); [|exact N3]. split; [exact H1|]. now apply (torn_rd y). }
    apply wp_try, (wp_has_interrupt e i NF Hi InSendOk 4); [reflexivity|reflexivity|]. intros s3 N4. cbv beta iota.
    pose proof (landed_sevs _ _ L2 N4) as L3. fold (sendok (sk i s3)). destruct (sendok (sk i s3)) eqn:So.
    - apply wp_try, wp_reset_interrupt; auto. intros z s4 N5 E4. cbv beta iota. apply wp_ret. apply HO. rewrite E4.
      pose proof (landed_sevs _ _ L3 N5) as L4. destruct (landed_cases z L4) as (Rz & C).
      split; [now apply rested_clear|]. split; [eapply kept_trans; [apply from_x0, L4|apply kept_clear; reflexivity]|].
      rewrite tmof_clear. unfold chunk_sent in *. sfields. split.
      + intros T. apply (sevs_ir i x0 z 3 (proj1 L4)). unfold tmof in F3, T. now rewrite F3.
      + destruct C as [(C & _ & C3)|(C1 & C2 & C3)]; [left; auto|right]. split; [exact C1|]. split; [|exact C3].
        assert (S4 : sendok z = true) by (apply (sevs_ir i _ _ 4 N5); exact So). unfold fresh_ok. now rewrite <- C2, S4.
    - apply wp_try, (wp_has_interrupt e i NF Hi InTimeout 3); [reflexivity|reflexivity|]. intros s4 N5. cbv beta iota.
      pose proof (landed_sevs _ _ L3 N5) as L4. fold (tmof (sk i s4)). destruct (tmof (sk i s4)) eqn:Tm.
      + apply wp_try, wp_reset_interrupt; auto. intros z s5 N6 E5. cbv beta iota. apply wp_ret. apply HT. rewrite E5.
        pose proof (landed_sevs _ _ L4 N6) as L5. destruct (landed_cases z L5) as (Rz & C).
        split; [now apply rested_clear|]. split; [eapply kept_trans; [apply from_x0, L5|apply kept_clear; reflexivity]|].
        unfold chunk_sent in *. sfields. destruct C as [(C & _ & C3)|(C1 & C2 & C3)]; [right; split; [exact C|]|now left].
        rewrite <- C3. now apply (sevs_ir i _ _ 3 N6).
      + apply wp_ret. apply HO. destruct (landed_cases _ L4) as (Rz & C). split; [exact Rz|]. split; [apply from_x0, L4|]. split.
        * intros T. exfalso. assert (X : tmof (sk i s4) = true). { apply (sevs_ir i x0 _ 3 (proj1 L4)). unfold tmof in F3, T. now rewrite F3. } congruence.
        * destruct C as [(C & _ & C3)|(_ & _ & C3)]; [left; auto|congruence].
  Qed.
  Lemma waiting_at z : sevs i x0 z -> chunk_waiting x w z.
  Proof.
    intros H. split; [now apply from_x0|]. pose proof (aloft_at z H) as (_ & _ & _ & _ & A). destruct x0_facts as (F1 & _ & _ & _ & _ & F6 & _).
    unfold chunk_sent. destruct A as [(_ & _ & _ & A & _)|[(_ & _ & _ & A & _)|(_ & A & _)]]; rewrite A, F1, ?F6; auto.
  Qed.
  Lemma wp_flush_loop (Q : outcome (res unit (nberr uerr)) -> sys -> Prop) : forall fuel s, sevs i x0 (sk i s) ->
    (forall s', chunk_ok x w (sk i s') -> Q (Done (Ok tt)) s') ->
    (forall s', chunk_timeout x w (sk i s') -> Q (Done (Err (NbOther UWriteTimeout))) s') ->
    (forall s', chunk_waiting x w (sk i s') -> Q Looping s') ->
    wp e (udp_flush_loop fuel so) Q s.
  Proof.
    induction fuel as [|fuel IH]; intros s H HO HT HL; cbn [udp_flush_loop].
    - apply HL, waiting_at, H.
    - apply wp_bind, wp_flush_tx; [exact H|intros s' H'; cbv beta iota..].
      + now apply IH.
      + apply wp_ret; auto.
      + apply wp_ret; auto.
  Qed.
End Flush.

(** ** A whole send *)
(** [ps] is what is left of [qs] after losing some elements *)
Inductive part {A} : list A -> list A -> Prop :=
| part_nil : part [] []
| part_keep a ps qs : part ps qs -> part (a :: ps) (a :: qs)
| part_lose a ps qs : part ps qs -> part ps (a :: qs).
Lemma part_len {A} (ps qs : list A) : part ps qs -> (length ps <= length qs)%nat.
Proof. induction 1; cbn [length]; lia. Qed.
Lemma part_full {A} (ps qs : list A) : part ps qs -> length ps = length qs -> ps = qs.
Proof. induction 1 as [|a ps qs H IH|a ps qs H IH]; cbn [length]; intros E; auto; [f_equal; auto|]. pose proof (part_len _ _ H). lia. Qed.
Lemma part_Forall {A} (P : A -> Prop) ps qs : part ps qs -> Forall P qs -> Forall P ps.
Proof. induction 1; intros F; inversion F; auto. Qed.

(** [cs] is [buf] cut into pieces of [z] bytes, the last one being what is left *)
Definition cut_into (z : N) (buf : list byte) (cs : list (list byte)) : Prop :=
  concat cs = buf /\ Forall (fun c => 0 < len c <= z) cs /\ Forall (fun c => len c = z) (removelast cs).
Lemma cut_nil z : cut_into z [] [].
Proof. repeat split; constructor. Qed.
Lemma cut_cons z c buf cs : 0 < len c <= z -> (buf = [] \/ len c = z) -> cut_into z buf cs -> cut_into z (c ++ buf) (c :: cs).
Proof.
  intros L F (C1 & C2 & C3). split; [cbn [concat]; now rewrite C1|]. split; [now constructor|].
  destruct cs as [|c' cs']; [constructor|]. change (removelast (c :: c' :: cs')) with (c :: removelast (c' :: cs')).
  constructor; [|exact C3]. destruct F as [->|F]; [|exact F]. exfalso. cbn [concat] in C1. inversion C2; subst.
  destruct c'; [cbn in *; lia|discriminate].
Qed.
Lemma cut_one z buf cs : cut_into z buf cs -> 0 < len buf <= z -> cs = [buf].
Proof.
  intros (C1 & C2 & C3) L. destruct cs as [|c [|c' cs']]; [subst; cbn in L; lia|cbn in C1; rewrite app_nil_r in C1; now subst|exfalso].
  change (removelast (c :: c' :: cs')) with (c :: removelast (c' :: cs')) in C3.
  pose proof (Forall_inv C3) as A1. pose proof (Forall_inv (Forall_inv_tail C2)) as A2. cbv beta in A1, A2.
  rewrite <- C1 in L. cbn [concat] in L. rewrite !len_app in L. lia.
Qed.
Lemma cut_zero z cs : cut_into z [] cs -> cs = [].
Proof. intros (C1 & C2 & _). destruct cs as [|c cs]; [reflexivity|exfalso]. inversion C2; subst. destruct c; [cbn in *; lia|discriminate]. Qed.

(** the same for the first pieces, [rest] being still to be sent *)
Definition cut_so_far (z : N) (cs : list (list byte)) (rest : list byte) : Prop :=
  cut_into z (concat cs) cs /\ (rest = [] \/ Forall (fun c => len c = z) cs).
Lemma so_far_cons z w cs rest : 0 < len w <= z -> (concat cs ++ rest = [] \/ len w = z) -> cut_so_far z cs rest -> cut_so_far z (w :: cs) rest.
Proof.
  intros L F (C1 & C2). split; [cbn [concat]; apply cut_cons; [exact L| |exact C1]|].
  - destruct F as [F|F]; [left|right; exact F]. now apply app_eq_nil in F as [F _].
  - destruct F as [F|F]; [left; now apply app_eq_nil in F as [_ F]|]. destruct C2 as [C2|C2]; auto.
Qed.
Lemma so_far_nil z rest : cut_so_far z [] rest.
Proof. split; [apply cut_nil|right; constructor]. Qed.

(** [cs]: the pieces tried; [ps]: the datagrams that went out *)
Definition sends (x : sock) (cs : list (list byte)) (ps : list packet) (x' : sock) : Prop :=
  kept x x' /\ sent x' = sent x ++ ps /\ part ps (map (packet_of (regs x)) cs).
Definition send_ok (x : sock) (buf : list byte) (x' : sock) : Prop := exists cs ps,
  cut_into (tx_size x) buf cs /\ rested x' /\ sends x cs ps x' /\ (tmof x = true -> tmof x' = true) /\
  (tmof x' = false -> ps = map (packet_of (regs x)) cs) /\
  (fresh_ok x = false -> (length cs <= 1)%nat -> ps = map (packet_of (regs x)) cs).
Definition send_timeout (x : sock) (buf : list byte) (x' : sock) : Prop := exists cs rest ps,
  buf = concat cs ++ rest /\ cs <> [] /\ cut_so_far (tx_size x) cs rest /\ rested x' /\ sends x cs ps x' /\
  (tmof x = false -> (length ps < length cs)%nat).
Definition send_waiting (x : sock) (buf : list byte) (x' : sock) : Prop := exists cs rest ps,
  buf = concat cs ++ rest /\ cut_so_far (tx_size x) cs rest /\ sends x cs ps x'.

Lemma kept_size x x' : kept x x' -> tx_size x' = tx_size x.
Proof. intros (_ & K & _). unfold tx_size. now rewrite K by discriminate. Qed.
Lemma kept_packet x x' w : kept x x' -> packet_of (regs x') w = packet_of (regs x) w.
Proof. intros (_ & K & _). now apply packet_of_ext. Qed.
Lemma kept_packets x x' cs : kept x x' -> map (packet_of (regs x')) cs = map (packet_of (regs x)) cs.
Proof. intros K. apply map_ext. intros w. now apply kept_packet. Qed.
Lemma sends_cons x w x1 cs ps x' : kept x x1 -> sends x1 cs ps x' ->
  (chunk_sent x w x1 -> sends x (w :: cs) (packet_of (regs x) w :: ps) x') /\
  (sent x1 = sent x -> sends x (w :: cs) ps x').
Proof.
  intros K (S1 & S2 & S3). rewrite (kept_packets _ _ _ K) in S3. split; intros E.
  - split; [eapply kept_trans; eauto|]. split; [rewrite S2, E, <- app_assoc; reflexivity|]. now apply part_keep.
  - split; [eapply kept_trans; eauto|]. split; [now rewrite S2, E|]. now apply part_lose.
Qed.
(** the network may do something before the pieces are sent *)
Lemma sends_sevs i x y cs ps x' : rested x -> sevs i x y -> sends y cs ps x' -> sends x cs ps x'.
Proof.
  intros R N (S1 & S2 & S3). destruct (rested_sevs i x y N R) as (_ & E1 & E2 & _).
  split; [eapply kept_trans; [apply (kept_sevs i); [apply R|exact N]|exact S1]|]. rewrite E1 in S2. rewrite E2 in S3. auto.
Qed.
Lemma chunk_ok_sevs i x y w x' : rested x -> sevs i x y -> chunk_ok y w x' -> chunk_ok x w x'.
Proof.
  intros R N (C1 & C2 & C3 & C4). destruct (rested_sevs i x y N R) as (_ & E1 & E2 & E3 & E4 & _).
  split; [exact C1|]. split; [eapply kept_trans; [apply (kept_sevs i); [apply R|exact N]|exact C2]|].
  unfold chunk_sent, fresh_ok in *. rewrite E4 in C3. rewrite E1, E2, E3, E4 in C4. auto.
Qed.
Lemma chunk_timeout_sevs i x y w x' : rested x -> sevs i x y -> chunk_timeout y w x' -> chunk_timeout x w x'.
Proof.
  intros R N (C1 & C2 & C4). destruct (rested_sevs i x y N R) as (_ & E1 & E2 & E3 & E4 & _).
  split; [exact C1|]. split; [eapply kept_trans; [apply (kept_sevs i); [apply R|exact N]|exact C2]|].
  unfold chunk_sent, fresh_ok in *. rewrite E4, E1, E2 in C4. auto.
Qed.
Lemma chunk_waiting_sevs i x y w x' : rested x -> sevs i x y -> chunk_waiting y w x' -> chunk_waiting x w x'.
Proof.
  intros R N (C2 & C4). destruct (rested_sevs i x y N R) as (_ & E1 & E2 & E3 & E4 & _).
  split; [eapply kept_trans; [apply (kept_sevs i); [apply R|exact N]|exact C2]|].
  unfold chunk_sent, fresh_ok in *. rewrite E1, E2 in C4. auto.
Qed.

Section Send.
  Context (e : env) (i : N).
  Hypothesis NF : no_faults e.
  Hypothesis Hi : i < 8.
  Context (d : addr4) (p : N).
  Let so := mkUdp (socket_new i) (Some d) p.

  Lemma wp_udp_data fuel w (Q : outcome (res N (nberr uerr)) -> sys -> Prop) s :
    rested (sk i s) -> 0 < len w -> len w <= tx_size (sk i s) ->
    (forall s', chunk_ok (sk i s) w (sk i s') -> Q (Done (Ok (len w))) s') ->
    (forall s', chunk_timeout (sk i s) w (sk i s') -> Q (Done (Err (NbOther UWriteTimeout))) s') ->
    (forall s', chunk_waiting (sk i s) w (sk i s') -> Q Looping s') ->
    wp e (udp_send_data fuel so w) Q s.
  Proof.
    intros R L0 L HO HT HL. unfold udp_send_data, udp_block_send_command, so. cbn [u_socket].
    pose proof R as (_ & V & B & _). pose proof (valid_le _ V) as Hz.
    apply wp_stage; auto; [lia|]. intros y s3 N1 E3.
    apply wp_try, wp_try, (wp_send_cmd e i NF Hi w _ (sk i s) y); auto. intros u s4 N2 Ru E4 La. cbv beta iota.
    eapply (wp_flush_loop e i NF Hi (Some d) p u w Ru La).
    - rewrite E4. apply sevs_refl.
    - intros s2 C. cbv beta iota. apply wp_ret, HO. now apply (chunk_ok_sevs i _ u).
    - intros s2 C. cbv beta iota. apply HT. now apply (chunk_timeout_sevs i _ u).
    - intros s2 C. cbv beta iota. apply HL. now apply (chunk_waiting_sevs i _ u).
  Qed.

  Lemma wp_udp_socket_send fuel w (Q : outcome (res N (nberr uerr)) -> sys -> Prop) s :
    sr (sk i s) = SOCK_UDP -> rested (sk i s) -> 0 < len w -> len w <= tx_size (sk i s) ->
    (forall s', chunk_ok (sk i s) w (sk i s') -> Q (Done (Ok (len w))) s') ->
    (forall s', chunk_timeout (sk i s) w (sk i s') -> Q (Done (Err (NbOther UWriteTimeout))) s') ->
    (forall s', chunk_waiting (sk i s) w (sk i s') -> Q Looping s') ->
    wp e (udp_socket_send fuel so w) Q s.
  Proof.
    intros Su R L0 L HO HT HL. unfold udp_socket_send. cbn [u_socket u_dest so].
    apply wp_try, wp_get_status; auto. intros s1 N1. cbv beta iota.
    destruct (rested_sevs i _ _ N1 R) as (R1 & _ & G1 & _ & _ & S1). rewrite S1, Su. change (udp_status_gate (u8 SOCK_UDP)) with (@Ok unit (nberr uerr) tt).
    cbv iota.
    apply wp_try, wp_get_tx_free_size; auto; [now apply rested_txv|]. intros z s2 v N2 N3 _ Hv. cbv beta iota.
    destruct (rested_sevs i _ _ N2 R1) as (Rz & _ & Gz & _). destruct (rested_sevs i _ _ N3 Rz) as (R2 & _ & G2 & _).
    assert (N4 : sevs i (sk i s) (sk i s2)) by (eapply sevs_trans; [|eapply sevs_trans]; eauto).
    assert (Z2 : tx_size (sk i s2) = tx_size (sk i s)) by (unfold tx_size; now rewrite G2, Gz, G1).
    assert (Ev : v = tx_size (sk i s)).
    { rewrite Hv; rewrite ?(rested_fsr _ Rz), ?(rested_fsr _ R2); unfold tx_size; now rewrite ?G2, ?Gz, ?G1. }
    clear Hv. subst v. destruct (N.eqb_spec (tx_size (sk i s)) 0) as [|_]; [lia|].
    assert (K : wp e (udp_send_data fuel so w) Q s2).
    { apply wp_udp_data; auto; [now rewrite Z2|..]; intros s' C.
      - apply HO. now apply (chunk_ok_sevs i _ (sk i s2)).
      - apply HT. now apply (chunk_timeout_sevs i _ (sk i s2)).
      - apply HL. now apply (chunk_waiting_sevs i _ (sk i s2)). }
    destruct (N.ltb_spec (len w) (tx_size (sk i s))) as [_|G]; [exact K|].
    apply wp_slice_to; [|lia]. intros _. rewrite take_all by exact L. exact K.
  Qed.

  Lemma wp_udp_send_loop fuel buf (Q : outcome (res unit (nberr uerr)) -> sys -> Prop) : forall outer s done rem,
    sr (sk i s) = SOCK_UDP -> rested (sk i s) -> buf = done ++ rem ->
    (forall s', send_ok (sk i s) rem (sk i s') -> Q (Done (Ok tt)) s') ->
    (forall s', send_timeout (sk i s) rem (sk i s') -> Q (Done (Err (NbOther UWriteTimeout))) s') ->
    (forall s', send_waiting (sk i s) rem (sk i s') -> Q Looping s') ->
    wp e (udp_send_loop outer fuel so buf (tx_size (sk i s)) (len done)) Q s.
  Proof.
    induction outer as [|outer IH]; intros s don rem Su R EB HO HT HL; cbn [udp_send_loop];
      destruct (N.eqb_spec (len don) (len buf)) as [El|Nl].
    1,3: assert (rem = []) as -> by (rewrite EB, len_app in El; destruct rem; [reflexivity|rewrite len_cons in El; lia]);
      apply wp_ret, HO; exists [], []; split; [apply cut_nil|]; split; [exact R|]; split; [split; [apply (kept_sevs i); [apply R|apply sevs_refl]|]; split; [now rewrite app_nil_r|constructor]|]; auto.
    - apply HL. exists [], rem, []. split; [reflexivity|]. split; [apply so_far_nil|]. split; [apply (kept_sevs i); [apply R|apply sevs_refl]|]; split; [now rewrite app_nil_r|constructor].
    - assert (Lr : 0 < len rem) by (rewrite EB, len_app in Nl; lia). pose proof R as (_ & V & _). pose proof (valid_pos _ V) as Hp.
      apply wp_slice_from; [|rewrite EB, len_app; lia]. intros _. assert (drop (len don) buf = rem) as -> by (rewrite EB; apply drop_app_exact).
      apply wp_slice_to; [|lia]. intros _.
      set (w := take (N.min (tx_size (sk i s)) (len rem)) rem). set (rem' := drop (N.min (tx_size (sk i s)) (len rem)) rem).
      assert (Ew : rem = w ++ rem') by (symmetry; apply take_drop).
      assert (Lw : len w = N.min (tx_size (sk i s)) (len rem)) by (unfold w; rewrite len_take; lia).
      apply wp_try, wp_udp_socket_send; auto; [lia|lia|..]; intros s1 C; cbv beta iota.
      + pose proof C as (R1 & K1 & T1 & C1). pose proof (kept_size _ _ K1) as Z1.
        apply wp_try, wp_get_tx_free_size; auto; [now apply rested_txv|]. intros z s2 v N2 N3 _ Hv. cbv beta iota.
        destruct (rested_sevs i _ _ N2 R1) as (Rz & _ & Gz & _). destruct (rested_sevs i _ _ N3 Rz) as (R2 & _ & G2 & _).
        assert (N4 : sevs i (sk i s1) (sk i s2)) by (eapply sevs_trans; eauto).
        destruct (rested_sevs i _ _ N4 R1) as (_ & P1 & P2 & P3 & P4 & P5).
        assert (Z2 : tx_size (sk i s2) = tx_size (sk i s1)) by (unfold tx_size; now rewrite P2).
        assert (Ev : v = tx_size (sk i s2)).
        { rewrite Hv; rewrite ?(rested_fsr _ Rz), ?(rested_fsr _ R2); unfold tx_size; now rewrite ?G2, ?Gz. }
        rewrite Ev, <- len_app. apply (IH s2 (don ++ w) rem').
        * rewrite P5. destruct K1 as (_ & _ & _ & K1 & _). congruence.
        * exact R2.
        * now rewrite <- app_assoc, <- Ew.
        * intros s' (cs & ps & O1 & O2 & O3 & O4 & O5 & O6). apply HO.
          pose proof (sends_sevs i _ _ _ _ _ R1 N4 O3) as O3'. destruct (sends_cons _ w _ _ _ _ K1 O3') as (X1 & X2).
          assert (Cut : cut_into (tx_size (sk i s)) rem (w :: cs)).
          { rewrite Ew. rewrite Z2, Z1 in O1. apply cut_cons; [lia| |exact O1].
            destruct (N.le_gt_cases (len rem) (tx_size (sk i s))); [left|right; lia]. unfold rem'. rewrite N.min_r by lia. apply drop_all. lia. }
          assert (Ep : map (packet_of (regs (sk i s2))) cs = map (packet_of (regs (sk i s))) cs) by (rewrite P2; now apply kept_packets).
          assert (T : tmof (sk i s1) = true -> tmof (sk i s') = true) by (intros T; apply O4; now rewrite P4).
          destruct C1 as [(C1 & C0)|(C1 & C2 & C3)].
          -- exists (w :: cs), (packet_of (regs (sk i s)) w :: ps). split; [exact Cut|]. split; [exact O2|]. split; [now apply X1|].
             split; [auto|]. split; [intros T'; cbn [map]; rewrite (O5 T'), Ep; reflexivity|].
             intros _ Ls. cbn [length] in Ls. destruct cs; [|cbn [length] in Ls; lia]. destruct O3 as (_ & _ & O3). inversion O3. reflexivity.
          -- exists (w :: cs), ps. split; [exact Cut|]. split; [exact O2|]. split; [now apply X2|]. split; [auto|].
             split; [intros T'; rewrite T in T' by exact C3; discriminate|intros F; rewrite F in C2; discriminate].
        * intros s' (cs & rest & ps & O1 & O2 & O3 & O4 & O5 & O6). apply HT.
          pose proof (sends_sevs i _ _ _ _ _ R1 N4 O5) as O5'. destruct (sends_cons _ w _ _ _ _ K1 O5') as (X1 & X2).
          assert (B : rem = concat (w :: cs) ++ rest) by (cbn [concat]; rewrite <- app_assoc, <- O1; exact Ew).
          assert (F : cut_so_far (tx_size (sk i s)) (w :: cs) rest).
          { rewrite Z2, Z1 in O3. apply so_far_cons; [lia| |exact O3].
            destruct (N.le_gt_cases (len rem) (tx_size (sk i s))); [left|right; lia].
            rewrite <- O1. unfold rem'. rewrite N.min_r by lia. apply drop_all. lia. }
          pose proof (part_len _ _ (proj2 (proj2 O5))) as PL. rewrite map_length in PL.
          destruct C1 as [(C1 & C0)|(C1 & C2 & C3)].
          -- exists (w :: cs), rest, (packet_of (regs (sk i s)) w :: ps). do 2 (split; [assumption || discriminate|]). split; [exact F|]. split; [exact O4|]. split; [now apply X1|].
             intros Tf. cbn [length]. 
             rewrite P4, C0 in O6. specialize (O6 Tf). lia.
          -- exists (w :: cs), rest, ps. do 2 (split; [assumption || discriminate|]). split; [exact F|]. split; [exact O4|]. split; [now apply X2|].
             intros _. cbn [length]. lia.
        * intros s' (cs & rest & ps & O1 & O3 & O5). apply HL.
          pose proof (sends_sevs i _ _ _ _ _ R1 N4 O5) as O5'. destruct (sends_cons _ w _ _ _ _ K1 O5') as (X1 & X2).
          assert (B : rem = concat (w :: cs) ++ rest) by (cbn [concat]; rewrite <- app_assoc, <- O1; exact Ew).
          assert (F : cut_so_far (tx_size (sk i s)) (w :: cs) rest).
          { rewrite Z2, Z1 in O3. apply so_far_cons; [lia| |exact O3].
            destruct (N.le_gt_cases (len rem) (tx_size (sk i s))); [left|right; lia].
            rewrite <- O1. unfold rem'. rewrite N.min_r by lia. apply drop_all. lia. }
          destruct C1 as [(C1 & C0)|(C1 & C2 & C3)].
          -- exists (w :: cs), rest, (packet_of (regs (sk i s)) w :: ps). auto.
          -- exists (w :: cs), rest, ps. auto.
      + apply HT. pose proof C as (R1 & K1 & C1). exists [w], rem'. 
        assert (B : rem = concat [w] ++ rem') by (cbn [concat]; rewrite app_nil_r; exact Ew).
        assert (F : cut_so_far (tx_size (sk i s)) [w] rem').
        { apply so_far_cons; [lia| |apply so_far_nil]. destruct (N.le_gt_cases (len rem) (tx_size (sk i s))); [left|right; lia].
          cbn [concat List.app]. unfold rem'. rewrite N.min_r by lia. apply drop_all. lia. }
        destruct C1 as [C1|(C1 & C2)].
        * exists []. do 2 (split; [assumption || discriminate|]). split; [exact F|]. split; [exact R1|]. split; [|cbn [length]; lia].
          split; [exact K1|]. split; [now rewrite app_nil_r|]. apply part_lose, part_nil.
        * exists [packet_of (regs (sk i s)) w]. do 2 (split; [assumption || discriminate|]). split; [exact F|]. split; [exact R1|]. split; [|congruence].
          split; [exact K1|]. split; [exact C1|]. apply part_keep, part_nil.
      + apply HL. pose proof C as (K1 & C1). exists [w], rem'.
        assert (B : rem = concat [w] ++ rem') by (cbn [concat]; rewrite app_nil_r; exact Ew).
        assert (F : cut_so_far (tx_size (sk i s)) [w] rem').
        { apply so_far_cons; [lia| |apply so_far_nil]. destruct (N.le_gt_cases (len rem) (tx_size (sk i s))); [left|right; lia].
          cbn [concat List.app]. unfold rem'. rewrite N.min_r by lia. apply drop_all. lia. }
        destruct C1 as [C1|C1].
        * exists []. split; [exact B|]. split; [exact F|].
          split; [exact K1|]. split; [now rewrite app_nil_r|]. apply part_lose, part_nil.
        * exists [packet_of (regs (sk i s)) w]. split; [exact B|]. split; [exact F|].
          split; [exact K1|]. split; [exact C1|]. apply part_keep, part_nil.
  Qed.

  Lemma wp_udp_send_all fuel buf (Q : outcome (res unit (nberr uerr)) -> sys -> Prop) s :
    sr (sk i s) = SOCK_UDP -> rested (sk i s) ->
    (forall s', send_ok (sk i s) buf (sk i s') -> Q (Done (Ok tt)) s') ->
    (forall s', send_timeout (sk i s) buf (sk i s') -> Q (Done (Err (NbOther UWriteTimeout))) s') ->
    (forall s', send_waiting (sk i s) buf (sk i s') -> Q Looping s') ->
    wp e (udp_send_all fuel so buf) Q s.
  Proof.
    intros Su R HO HT HL. unfold udp_send_all. cbn [u_socket u_dest so].
    apply wp_try, wp_get_status; auto. intros s1 N1. cbv beta iota.
    destruct (rested_sevs i _ _ N1 R) as (R1 & _ & G1 & _ & _ & S1). rewrite S1, Su. change (udp_status_gate (u8 SOCK_UDP)) with (@Ok unit (nberr uerr) tt).
    cbv iota.
    apply wp_try, wp_get_tx_free_size; auto; [now apply rested_txv|]. intros z s2 v N2 N3 _ Hv. cbv beta iota.
    destruct (rested_sevs i _ _ N2 R1) as (Rz & _ & Gz & _). destruct (rested_sevs i _ _ N3 Rz) as (R2 & _ & G2 & _).
    assert (N4 : sevs i (sk i s) (sk i s2)) by (eapply sevs_trans; [|eapply sevs_trans]; eauto).
    assert (Ev : v = tx_size (sk i s2)).
    { rewrite Hv; rewrite ?(rested_fsr _ Rz), ?(rested_fsr _ R2); unfold tx_size; now rewrite ?G2, ?Gz. }
    clear Hv. subst v. pose proof R2 as (_ & V2 & _). destruct (N.eqb_spec (tx_size (sk i s2)) 0) as [|_]; [now apply valid_pos in V2|].
    destruct (rested_sevs i _ _ N4 R) as (_ & P1 & P2 & P3 & P4 & P5).
    assert (Z2 : tx_size (sk i s2) = tx_size (sk i s)) by (unfold tx_size; now rewrite P2).
    apply (wp_udp_send_loop fuel buf Q fuel s2 [] buf); auto; [congruence|..]; intros s'.
    - intros (cs & ps & O1 & O2 & O3 & O4 & O5 & O6). apply HO. exists cs, ps. rewrite <- Z2. split; [exact O1|]. split; [exact O2|].
      split; [now apply (sends_sevs i _ (sk i s2))|]. unfold fresh_ok in *. rewrite P3, P2 in O6. rewrite P2 in O5. rewrite P4 in O4. auto.
    - intros (cs & rest & ps & O1 & O2 & O3 & O4 & O5 & O6). apply HT. exists cs, rest, ps. rewrite <- Z2. do 4 (split; [assumption|]).
      split; [now apply (sends_sevs i _ (sk i s2))|]. now rewrite P4 in O6.
    - intros (cs & rest & ps & O1 & O2 & O3). apply HL. exists cs, rest, ps. rewrite <- Z2. do 2 (split; [assumption|]).
      now apply (sends_sevs i _ (sk i s2)).
  Qed.
End Send.
