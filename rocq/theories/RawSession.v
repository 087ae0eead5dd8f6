(** A MACRAW device in use: initialize_macraw, then any sequence of API calls. *)
From Verif Require Export RawFrames InitFacts.
From Verif Require Import Datasheet ErrorFacts TcpSession.

(** ** Initialisation: after the reset no socket is open, so the network changes nothing but
    the link bits *)
Definition still (x : sock) : Prop :=
  sr x = SOCK_CLOSED /\ tx_busy x = false /\ tx_okdue x = false /\ tx_ack x = tx_rd x /\ tx_rd x < 65536.
Lemma still_step x ev : still x -> sock_step x ev = x.
Proof.
  intros (H1 & H2 & H3 & H4 & H5).
  destruct ev; unfold sock_step, transmit; rewrite ?H1, ?H2, ?H3; try reflexivity.
  rewrite H4, sub16_self by exact H5. rewrite N.min_0_r, N.add_0_r, N.mod_small by exact H5. rewrite <- H4. now destruct x.
Qed.
Definition still_chip (c : chip) : Prop := forall i, still (socks c i).
(** same sockets, same common registers but for the link bits *)
Definition alike (c c' : chip) : Prop := (forall i, socks c' i = socks c i) /\ (forall x, x <> PHYCFGR -> com c' x = com c x).
Lemma alike_refl c : alike c c. Proof. split; auto. Qed.
Lemma alike_trans a b c : alike a b -> alike b c -> alike a c.
Proof. intros (A1 & A2) (B1 & B2). split; [intros i; now rewrite B1|]. intros x H. now rewrite B2, A2. Qed.
Lemma still_nsteps l : forall c, still_chip c -> alike c (nsteps c l).
Proof.
  unfold nsteps. induction l as [|ev l IH]; intros c H; cbn [fold_left]; [apply alike_refl|].
  assert (E : alike c (nstep c ev)).
  { split; [|intros x Hx; apply (com_nsteps x [ev] Hx c)]. intros j. unfold nstep. destruct (ev_sock ev) as [n|]; [|destruct ev; reflexivity]. unfold set_sock. cbn [socks].
    destruct (N.eqb_spec j n) as [->|]; [|reflexivity]. now apply still_step. }
  eapply alike_trans; [exact E|]. apply IH. intros j. destruct E as (E & _). rewrite E. apply H.
Qed.
Lemma still_alone e : forall n c t, still_chip c -> alike c (alone e c t n).
Proof.
  induction n as [|n IH]; intros c t H; cbn [alone]; [apply alike_refl|]. pose proof (still_nsteps (happens e t) c H) as E.
  eapply alike_trans; [exact E|]. apply IH. intros j. destruct E as (E & _). rewrite E. apply H.
Qed.
(** [c'] is [c] with socket [i] replaced *)
Definition with_sock (c : chip) (i : N) (x : sock) (c' : chip) : Prop :=
  (forall j, socks c' j = if j =? i then x else socks c j) /\ (forall a, a <> PHYCFGR -> com c' a = com c a).

Section Init.
  Context (e : env).
  Hypothesis NF : no_faults e.

  Lemma wp_still_write {A} i a v (k : res unit berr -> prog A) Q s : i < 8 -> still_chip (s_chip s) ->
    (forall s', with_sock (s_chip s) i (sock_wr i (socks (s_chip s) i) a v) (s_chip s') -> wp e (k (Ok tt)) Q s') ->
    wp e (BusWrite (register (socket_new i)) a [v] k) Q s.
  Proof.
    intros Hi H HQ. rewrite so_reg by exact Hi. unfold wp. cbn [run]. unfold bus_write. rewrite NF. cbn [write_bytes].
    apply HQ. cbn [s_chip end_call on_chip]. destruct (still_nsteps (happens e (s_tick s)) _ H) as (E1 & E2).
    cbn [s_chip tick]. unfold wbyte. destruct (blk_reg i) as (-> & -> & ->). split; [|exact E2].
    intros j. cbn [socks set_sock]. rewrite E1. destruct (j =? i); [reflexivity|apply E1].
  Qed.
  Definition sized (x : sock) (kb : N) : sock := set_regs x (upd (upd (regs x) Sn_TXBUF_SIZE (u8 kb)) Sn_RXBUF_SIZE (u8 kb)).
  Lemma sized_still x kb : still x -> still (sized x kb). Proof. auto. Qed.
  Lemma wp_still_sizes i kb {R} (h h' : berr -> R) (k : prog R) Q s : i < 8 -> still_chip (s_chip s) ->
    (forall s', with_sock (s_chip s) i (sized (socks (s_chip s) i) kb) (s_chip s') -> wp e k Q s') ->
    wp e (try a <- write_frame (register (socket_new i)) s_TXBUF_SIZE [u8 kb] else h ;;
          try b <- write_frame (register (socket_new i)) s_RXBUF_SIZE [u8 kb] else h' ;; k) Q s.
  Proof.
    intros Hi H HQ. unfold write_frame. apply wp_try. apply wp_still_write; auto. intros s1 (W1 & C1). apply wp_ret. cbv beta iota.
    assert (H1 : still_chip (s_chip s1)).
    { intros j. rewrite W1. destruct (j =? i); [|apply H]. exact (H i). }
    apply wp_try. apply wp_still_write; auto. intros s2 (W2 & C2). apply wp_ret. cbv beta iota. apply HQ. split.
    - intros j. rewrite W2, !W1, N.eqb_refl. destruct (j =? i); [reflexivity|]. reflexivity.
    - intros a Ha. now rewrite C2, C1.
  Qed.
  Lemma wp_zero (Q : outcome (res unit berr) -> sys -> Prop) : forall l s, NoDup l -> (forall i, In i l -> i < 8) -> still_chip (s_chip s) ->
    (forall s', (forall j, socks (s_chip s') j = if existsb (N.eqb j) l then sized (socks (s_chip s) j) 0 else socks (s_chip s) j) ->
       (forall a, a <> PHYCFGR -> com (s_chip s') a = com (s_chip s) a) -> Q (Done (Ok tt)) s') ->
    wp e (raw_zero_buffers l) Q s.
  Proof.
    induction l as [|i l IH]; intros s ND Hl H HQ; cbn [raw_zero_buffers]; [apply wp_ret, HQ; auto|]. cbv zeta.
    apply wp_still_sizes; auto; [apply Hl; now left|]. intros s1 (W1 & C1). inversion ND as [|? ? Ni ND']; subst.
    apply IH; auto; [intros j Hj; apply Hl; now right| |].
    - intros j. rewrite W1. destruct (j =? i); [apply sized_still|]; apply H.
    - intros s2 W2 C2. apply HQ; [|intros a Ha; now rewrite C2, C1].
      intros j. rewrite W2, W1. cbn [existsb]. destruct (N.eqb_spec j i) as [->|Hji]; cbn [orb]; [|reflexivity].
      destruct (existsb (N.eqb i) l) eqn:X; [|reflexivity]. apply existsb_exists in X as (y & Hy & Ey). apply N.eqb_eq in Ey. subst y. contradiction.
  Qed.

  Definition raw_open (x : sock) : sock :=
    set_sr (init_pointers (set_regs (sized (sock_reset x) 16) (upd (regs (sized (sock_reset x) 16)) Sn_MR (u8 132)))) SOCK_MACRAW.
  Lemma wp_initialize_macraw mc (Q : outcome (res RawDevice InitializeError) -> sys -> Prop) s :
    (forall s' n, let c := alone e (s_chip s) (s_tick s) n in
       socks (s_chip s') 0 = raw_open (socks c 0) ->
       (forall j, 1 <= j < 8 -> socks (s_chip s') j = sized (sock_reset (socks c j)) 0) ->
       fld (s_chip s') SHAR 6 = mac_octets mc ->
       (forall a, a <> PHYCFGR -> a < SHAR \/ SHAR + 6 <= a -> com (s_chip s') a = com_reset a) ->
       Q (Done (Ok (mkRaw (socket_new 0)))) s') ->
    wp e (initialize_macraw mc) Q s.
  Proof.
    intros HQ. unfold initialize_macraw. cbv zeta. apply wp_try. unfold write_frame at 1. change c_MODE with MR. change COMMON with 0.
    apply wp_mr_write; auto. intros s1 C1 T1. apply wp_ret. cbv beta iota.
    assert (W1 : s_chip s1 = chip_reset (alone e (s_chip s) (s_tick s) 1)) by (rewrite C1; reflexivity).
    set (c := alone e (s_chip s) (s_tick s) 1) in *.
    assert (H1 : still_chip (s_chip s1)) by (rewrite W1; intros j; repeat split).
    apply wp_try. unfold write_frame at 1. destruct (mac_octets_len mc) as (Lm & Lm').
    apply wp_com_write; [exact NF|reflexivity|rewrite Lm; discriminate|right; rewrite Lm; discriminate|right; rewrite Lm; discriminate|]. rewrite Lm'. intros s2 Ov T2. apply wp_ret. cbv beta iota.
    destruct (still_alone e 6 _ (s_tick s1) H1) as (A1 & A2).
    assert (Fl : fld (s_chip s2) SHAR 6 = mac_octets mc) by (rewrite <- Lm' at 1; apply (fld_over e SHAR _ s1 s2 6 Ov)).
    destruct Ov as (Ov1 & Ov2).
    assert (S2 : forall j, socks (s_chip s2) j = sock_reset (socks c j)) by (intros j; rewrite Ov2, A1, W1; reflexivity).
    assert (H2 : still_chip (s_chip s2)) by (intros j; rewrite S2; repeat split).
    assert (Cm : forall a, a <> PHYCFGR -> a < SHAR \/ SHAR + 6 <= a -> com (s_chip s2) a = com_reset a).
    { intros a Ha Hr. rewrite Ov1, Lm. change c_MAC with SHAR.
      destruct (N.leb_spec SHAR a), (N.ltb_spec a (SHAR + 6)); cbn [andb]; try lia; rewrite A2, W1 by exact Ha; reflexivity. }
    unfold raw_new. cbv zeta. apply wp_still_sizes; auto; [reflexivity|]. intros s3 (W3 & C3).
    assert (H3 : still_chip (s_chip s3)) by (intros j; rewrite W3; destruct (j =? 0); [apply sized_still|]; apply H2).
    apply wp_try, wp_zero; auto.
    { repeat constructor; cbn; intuition discriminate. }
    { cbn. intros i Hi. intuition (subst; reflexivity). }
    intros s4 W4 C4. cbv beta iota.
    assert (H4 : still_chip (s_chip s4)) by (intros j; rewrite W4; destruct (existsb _ _); [apply sized_still|]; apply H3).
    apply wp_try. unfold write_frame. apply wp_still_write; auto; [reflexivity|]. intros s5 (W5 & C5). apply wp_ret. cbv beta iota.
    assert (E5 : socks (s_chip s5) 0 = set_regs (sized (sock_reset (socks c 0)) 16) (upd (regs (sized (sock_reset (socks c 0)) 16)) Sn_MR (u8 132))).
    { rewrite W5, N.eqb_refl, W4. change (existsb (N.eqb 0) [1; 2; 3; 4; 5; 6; 7]) with false. cbv iota. rewrite W3, N.eqb_refl, S2. reflexivity. }
    assert (H5 : still_chip (s_chip s5)).
    { intros j. destruct (N.eq_dec j 0) as [->|Hj]; [rewrite E5; repeat split|]. rewrite W5. destruct (N.eqb_spec j 0); [contradiction|]. apply H4. }
    apply wp_try. unfold command, write_frame. apply wp_still_write; auto; [reflexivity|]. intros s6 (W6 & C6). apply wp_ret. cbv beta iota. apply wp_ret.
    apply (HQ s6 1%nat).
    - rewrite W6, N.eqb_refl, E5. reflexivity.
    - intros j Hj. assert (J : j =? 0 = false) by (apply N.eqb_neq; lia). rewrite W6, J, W5, J, W4, W3, J, S2.
      assert (X : existsb (N.eqb j) [1; 2; 3; 4; 5; 6; 7] = true).
      { apply existsb_exists. exists j. split; [|apply N.eqb_refl]. cbn. lia. }
      rewrite X. reflexivity.
    - rewrite <- Fl. apply com_list_ext. intros x Hx.
      assert (x <> PHYCFGR) by (unfold PHYCFGR, SHAR in *; lia). now rewrite C6, C5, C4, C3.
    - intros a Ha Hr. rewrite C6, C5, C4, C3 by exact Ha. now apply Cm.
  Qed.
End Init.

(** ** Between two calls *)
Definition rawsess (x : sock) : Prop := rawst x /\ tx_size x = 16384 /\ rx_size x = 16384 /\ exists q, fqueue x q.
Lemma rawsess_sevs i x y : sevs i x y -> rawsess x -> rawsess y.
Proof.
  intros H (St & E1 & E2 & q & Q). destruct (rawst_sevs i x y H St) as (St' & _). destruct (sevs_wr i x y H) as (_ & Z & _ & Z').
  destruct St as (S & _ & _ & V). destruct (sevs_fqueue i x y q H S (proj1 V) Q) as (q' & Q' & _).
  split; [exact St'|]. split; [congruence|]. split; [congruence|]. eauto.
Qed.
Lemma raw_open_sess x : let y := raw_open x in
  rawsess y /\ pending y = [] /\ rxlog y = [] /\ sent y = sent x /\ regs y Sn_MR = u8 132 /\ ir y = 0.
Proof.
  cbv zeta. unfold raw_open. set (z := set_regs _ _).
  assert (E1 : tx_wr (set_sr (init_pointers z) SOCK_MACRAW) = seed_tx x mod 65536).
  { unfold tx_wr, init_pointers. sfields. rewrite !put16_puts, get16_puts_other by (left; reflexivity).
    apply puts_get16, N.mod_lt. discriminate. }
  assert (E2 : rx_rd (set_sr (init_pointers z) SOCK_MACRAW) = seed_rx x mod 65536).
  { unfold rx_rd, init_pointers. sfields. rewrite !put16_puts. apply puts_get16, N.mod_lt. discriminate. }
  pose proof (N.mod_lt (seed_tx x) 65536 ltac:(discriminate)) as L1. pose proof (N.mod_lt (seed_rx x) 65536 ltac:(discriminate)) as L2.
  assert (E3 : tx_size (set_sr (init_pointers z) SOCK_MACRAW) = 16384) by reflexivity.
  assert (E4 : rx_size (set_sr (init_pointers z) SOCK_MACRAW) = 16384) by reflexivity.
  assert (E5 : rx_rsr (set_sr (init_pointers z) SOCK_MACRAW) = 0).
  { unfold rx_rsr, init_pointers. sfields. apply sub16_self. exact L2. }
  assert (E6 : pending (set_sr (init_pointers z) SOCK_MACRAW) = []) by (unfold pending; rewrite E5; reflexivity).
  split; [|split; [exact E6|repeat split]].
  split; [|split; [exact E3|split; [exact E4|exists []; split; [exact E6|constructor]]]].
  split; [reflexivity|]. split; [|split; [reflexivity|]].
  - split; [now right|]. rewrite E1, E3. split; [unfold valid_size; auto 10|]. repeat split.
  - split; [|exact E2]. unfold rxv. rewrite E4, E5. split; [unfold valid_size; auto 10|]. split; [exact L2|]. split; [exact L2|]. lia.
Qed.
Lemma rawst_regs x r : (forall a, a <> Sn_IMR -> r a = regs x a) -> rawst x ->
  rawst (set_regs x r) /\ tx_size (set_regs x r) = tx_size x /\ rx_size (set_regs x r) = rx_size x /\ pending (set_regs x r) = pending x.
Proof.
  intros H (S & (P & V & B & E) & O & (V' & E')).
  assert (W : tx_wr (set_regs x r) = tx_wr x) by (unfold tx_wr, get16; sfields; now rewrite !H by discriminate).
  assert (D : rx_rd (set_regs x r) = rx_rd x) by (unfold rx_rd, get16; sfields; now rewrite !H by discriminate).
  assert (Z : tx_size (set_regs x r) = tx_size x) by (unfold tx_size; sfields; now rewrite !H by discriminate).
  assert (Z' : rx_size (set_regs x r) = rx_size x) by (unfold rx_size; sfields; now rewrite !H by discriminate).
  split; [|split; [exact Z|split; [exact Z'|unfold pending; now rewrite Z']]].
  split; [exact S|]. split.
  - split; [exact P|]. split; [now rewrite Z|]. split; [exact B|]. rewrite W. exact E.
  - split; [exact O|]. split; [|now rewrite D]. unfold rxv. now rewrite Z'.
Qed.

(** what a program reports as written, and as read *)
Definition raw_berr (o : rawout) : option berr := match o with RwUnit r => eb r | RwFrame _ r => eb r | RwSent r => eb r end.
Definition wrote (o : rawop) (u : rawout) : list (list byte) :=
  match o, u with RwWrite f, RwSent (Ok _) => if (0 <? len f) && (len f <=? 16384) then [f] else [] | _, _ => [] end.
(** frame [g] arrives in [buf], cut to its size *)
Definition filled_with (g buf buf' : list byte) (n : N) : Prop := n = N.min (len g) (len buf) /\ buf' = take n g ++ drop n buf.
Definition handed1 (o : rawop) (u : rawout) (l : list (list byte)) : Prop :=
  match o, u with
  | RwRead buf, RwFrame buf' (Ok n) =>
      (l = [] /\ buf' = buf /\ n = 0) \/ (exists g, l = [g] /\ filled_with g buf buf' n)
  | _, _ => l = []
  end.
Lemma es_raw_step fuel d o : estop raw_berr (raw_step fuel d o).
Proof.
  destruct o; cbn [raw_step].
  - eapply estop_bind; [apply es_raw_enable|intros x H; exact H|intros x er H; eexists; split; [reflexivity|exact H]].
  - eapply estop_bind; [apply es_raw_clear|intros x H; exact H|intros x er H; eexists; split; [reflexivity|exact H]].
  - eapply estop_bind; [apply es_raw_disable|intros x H; exact H|intros x er H; eexists; split; [reflexivity|exact H]].
  - eapply estop_bind; [apply es_raw_read_frame|intros x H; exact H|intros x er H; eexists; split; [reflexivity|exact H]].
  - eapply estop_bind; [apply es_raw_write_frame|intros x H; exact H|intros x er H; eexists; split; [reflexivity|exact H]].
Qed.

Lemma raw_frame_kept x x' : kept x x' -> rawst x -> rawst x' -> tx_size x = 16384 -> rx_size x = 16384 ->
  (exists q, fqueue x' q) -> rawsess x'.
Proof.
  intros (_ & K & _) _ St E1 E2 Q. split; [exact St|]. unfold tx_size, rx_size in *. rewrite !K by discriminate. auto.
Qed.
Definition raw0 : RawDevice := mkRaw (socket_new 0).

(** one call, from one moment between calls to the next; [q0] is the queue it finds *)
Definition raw_effect (q0 : list (list byte)) (x : sock) (o : rawop) (u : rawout) (x' : sock) : Prop :=
  rawsess x' /\ map p_data (sent x') = map p_data (sent x) ++ wrote o u /\
  exists l rest q', q0 ++ q' = l ++ rest /\ fqueue x' rest /\ rxlog x' = rxlog x ++ frames q' /\
    handed1 o u l /\ Forall wf_frame l /\ (forall buf, o = RwRead buf -> q0 <> [] -> l <> []).
Lemma effect_still i q0 x y x' o u : rawsess x -> fqueue x q0 -> sevs i x y -> wrote o u = [] -> (forall buf, o = RwRead buf -> q0 = []) ->
  handed1 o u [] ->
  rawst x' -> tx_size x' = tx_size y -> rx_size x' = rx_size y -> pending x' = pending y -> rxlog x' = rxlog y -> sent x' = sent y ->
  raw_effect q0 x o u x'.
Proof.
  intros (St & E1 & E2 & _) Q0 N W Ho Hh St' Z1 Z2 P L T. pose proof St as (S & _ & _ & V). destruct (rawst_sevs i x y N St) as (_ & Ty & _).
  destruct (sevs_wr i x y N) as (_ & Y1 & _ & Y2).
  destruct (sevs_fqueue i x y q0 N S (proj1 V) Q0) as (q' & (A & B) & C).
  assert (Q' : fqueue x' (q0 ++ q')) by (unfold fqueue; rewrite P; auto).
  split; [|split].
  - split; [exact St'|]. split; [congruence|]. split; [congruence|]. eauto.
  - now rewrite W, T, Ty, app_nil_r.
  - exists [], (q0 ++ q'), q'. split; [reflexivity|]. split; [exact Q'|]. split; [congruence|].
    split; [exact Hh|]. split; [constructor|]. intros buf E Hq. elim Hq. now apply (Ho buf).
Qed.

Section Step.
  Context (e : env).
  Hypothesis NF : no_faults e.
  Notation sk0 := (sk 0).

  Lemma wp_com_byte a v {A} (k : res unit berr -> prog A) Q s : 0 < a -> a <> PHYCFGR -> a <> VERSIONR -> a < 65535 ->
    (forall s', sevs 0 (sk0 s) (sk0 s') -> com (s_chip s') a = v -> wp e (k (Ok tt)) Q s') -> wp e (BusWrite 0 a [v] k) Q s.
  Proof.
    intros H0 H1 H2 H3 H. apply wp_com_write; auto; try (change (len [v]) with 1; lia). cbn [length]. intros s' (O1 & O2) _. apply H.
    - unfold sk. rewrite O2. apply alone_sevs.
    - rewrite O1. change (len [v]) with 1. destruct (N.leb_spec a a); [|lia]. destruct (N.ltb_spec a (a + 1)); [|lia]. cbn [andb]. now rewrite N.sub_diag.
  Qed.
  Lemma mask_regs y v a : a <> Sn_IMR -> puts (regs y) Sn_IMR [v] a = regs y a.
  Proof. intros H. apply puts_other. change (len [v]) with 1. lia. Qed.

  Lemma wp_raw_step fuel o q (Q : outcome rawout -> sys -> Prop) s : rawsess (sk0 s) -> fqueue (sk0 s) q ->
    (forall u s', raw_effect q (sk0 s) o u (sk0 s') -> Q (Done u) s') -> (forall s', Q Looping s') ->
    wp e (raw_step fuel raw0 o) Q s.
  Proof.
    intros Se Qu HQ HL. pose proof Se as (St & Zt & Zr & _). pose proof St as (S & R & Od & V). pose proof R as (_ & _ & B & _).
    assert (H8 : 0 < 8) by reflexivity.
    destruct o as [w| | |buf|f]; cbn [raw_step]; apply wp_bind.
    - unfold raw_enable_interrupts, raw0. cbn [raw_socket]. apply wp_try, wp_set_interrupt_mask; auto. intros y s1 N1 E1. cbv beta iota.
      apply wp_try. unfold write_frame. change COMMON with 0. apply wp_com_byte; [reflexivity|discriminate|discriminate|reflexivity|].
      intros s2 N2 _. apply wp_ret. cbv beta iota. apply wp_ret. apply wp_ret. apply HQ.
      assert (X : exists y2, sevs 0 y y2 /\ sk0 s2 = set_regs y2 (puts (regs y2) Sn_IMR [u8 (b2n w)])).
      { rewrite E1 in N2. destruct (sevs_set_regs 0 y _ _ (puts_sizes [u8 (b2n w)] (regs y) Sn_IMR eq_refl) (proj1 (sevs_idle _ _ _ N1 B)) N2) as (y2 & N3 & E3).
        exists y2. split; [exact N3|]. now rewrite (sevs_regs _ _ _ N3). }
      destruct X as (y2 & N3 & E3). assert (N03 : sevs 0 (sk0 s) y2) by (eapply sevs_trans; eauto).
      destruct (rawst_regs y2 (puts (regs y2) Sn_IMR [u8 (b2n w)]) (mask_regs y2 _) (proj1 (rawst_sevs 0 _ _ N03 St))) as (T1 & T2 & T3 & T4).
      apply (effect_still 0 q (sk0 s) y2); auto; rewrite ?E3; auto; try discriminate; try reflexivity.
    - unfold raw_clear_interrupts, raw0. cbn [raw_socket]. apply wp_reset_interrupt; auto. intros y s1 N1 E1. apply wp_ret. apply HQ.
      pose proof (proj1 (rawst_sevs 0 _ _ N1 St)) as T1.
      apply (effect_still 0 q (sk0 s) y); auto; rewrite ?E1; auto; try discriminate; try reflexivity.
    - unfold raw_disable_interrupts, raw0. cbn [raw_socket]. apply wp_try. unfold write_frame at 1. change COMMON with 0.
      apply wp_com_byte; [reflexivity|discriminate|discriminate|reflexivity|].
      intros s1 N1 _. apply wp_ret. cbv beta iota.
      apply wp_try, wp_set_interrupt_mask; auto; [apply (sevs_idle _ _ _ N1 B)|]. intros y s2 N2 E2. cbv beta iota. apply wp_ret. apply wp_ret. apply HQ.
      assert (N02 : sevs 0 (sk0 s) y) by (eapply sevs_trans; eauto).
      destruct (rawst_regs y (puts (regs y) Sn_IMR [u8 255]) (mask_regs y _) (proj1 (rawst_sevs 0 _ _ N02 St))) as (T1 & T2 & T3 & T4).
      apply (effect_still 0 q (sk0 s) y); auto; rewrite ?E2; auto; try discriminate; try reflexivity.
    - apply (wp_raw_read e 0 NF H8 fuel buf q); auto.
      + intros n buf' s' (St' & T & G & _ & g & later & q' & E1 & F & W & L & Hn & Hb). apply wp_ret, HQ. cbn [fst snd].
        split; [|split].
        * split; [exact St'|]. unfold tx_size, rx_size in *. rewrite !G by discriminate. eauto.
        * rewrite T. cbn [wrote]. now rewrite app_nil_r.
        * exists [g], later, q'. split; [exact E1|]. split; [exact F|]. split; [exact L|]. split; [|split; [now constructor|discriminate]].
          right. exists g. split; [reflexivity|]. split; assumption.
      + intros s' N1 ->. apply wp_ret, HQ. cbn [fst snd]. pose proof (proj1 (rawst_sevs 0 _ _ N1 St)).
        apply (effect_still 0 [] (sk0 s) (sk0 s')); auto. left. auto.
    - apply wp_raw_write; auto.
      + intros s' H1 H2 (St' & K & T). apply wp_ret, HQ. rewrite Zt in H2. pose proof K as (_ & _ & _ & _ & G).
        destruct (rxgrow_queue _ _ q G S (proj1 V) Qu) as (q' & Q1 & Q2). split; [|split].
        * apply (raw_frame_kept (sk0 s)); eauto.
        * rewrite T, map_app. cbn [wrote]. destruct (N.ltb_spec 0 (len f)); [|lia]. destruct (N.leb_spec (len f) 16384); [|lia]. reflexivity.
        * exists [], (q ++ q'), q'. split; [reflexivity|]. split; [exact Q1|]. split; [exact Q2|]. split; [reflexivity|]. split; [constructor|discriminate].
      + intros s' H1 (St' & K & T & _). apply wp_ret, HQ. rewrite Zt in H1. pose proof K as (_ & _ & _ & _ & G).
        destruct (rxgrow_queue _ _ q G S (proj1 V) Qu) as (q' & Q1 & Q2). split; [|split].
        * apply (raw_frame_kept (sk0 s)); eauto.
        * rewrite T. cbn [wrote]. destruct (N.ltb_spec 0 (len f)), (N.leb_spec (len f) 16384); cbn [andb]; rewrite ?app_nil_r; auto.
          destruct H1 as [->|H1]; [now apply N.lt_irrefl in H|lia].
        * exists [], (q ++ q'), q'. split; [reflexivity|]. split; [exact Q1|]. split; [exact Q2|]. split; [reflexivity|]. split; [constructor|discriminate].
  Qed.
End Step.

(** ** Whole programs *)
Definition raw_ok (u : rawout) : Prop := raw_berr u = None.
(** the reads among the calls handed out exactly [l], in order *)
Fixpoint handed (ops : list rawop) (outs : list rawout) (l : list (list byte)) : Prop :=
  match ops, outs with
  | [], [] => l = []
  | o :: ops', u :: outs' => exists l1 l2, l = l1 ++ l2 /\ handed1 o u l1 /\ handed ops' outs' l2
  | _, _ => False
  end.
(** the frames of the writes among the calls that reported success *)
Fixpoint written (ops : list rawop) (outs : list rawout) : list (list byte) :=
  match ops, outs with
  | o :: ops', u :: outs' => wrote o u ++ written ops' outs'
  | _, _ => []
  end.

Lemma raw_step_effect e fuel o q u s s' : rawsess (sk 0 s) -> fqueue (sk 0 s) q ->
  run e (raw_step fuel raw0 o) s = (Done u, s') -> raw_ok u -> raw_effect q (sk 0 s) o u (sk 0 s').
Proof.
  intros Se Q R H.
  refine (session_call raw_berr e _ (fun r t => forall v, r = Done v -> raw_effect q (sk 0 s) o v (sk 0 t)) s _ _ (es_raw_step fuel raw0 o) R _ _ u eq_refl).
  - intros r E. injection E as <-. exact H.
  - apply (wp_raw_step (nofail e) (nofail_no_faults e) fuel o q); auto; [intros v t G w E; now injection E as <-|discriminate].
Qed.
Lemma run_raw_effect e fuel : forall ops outs q s s', rawsess (sk 0 s) -> fqueue (sk 0 s) q ->
  run e (run_raw fuel raw0 ops) s = (Done outs, s') -> Forall raw_ok outs ->
  rawsess (sk 0 s') /\ map p_data (sent (sk 0 s')) = map p_data (sent (sk 0 s)) ++ written ops outs /\
  exists taken rest q', q ++ q' = taken ++ rest /\ fqueue (sk 0 s') rest /\ rxlog (sk 0 s') = rxlog (sk 0 s) ++ frames q' /\ handed ops outs taken /\ Forall wf_frame taken.
Proof.
  induction ops as [|o ops IH]; intros outs q s s' Se Q R F; cbn [run_raw] in R.
  - injection R as <- <-. split; [exact Se|]. split; [now rewrite app_nil_r|]. exists [], q, []. change (frames []) with (@nil byte). rewrite !app_nil_r. split; [reflexivity|]. split; [exact Q|]. split; [reflexivity|]. split; [reflexivity|constructor].
  - apply run_bind_done in R as (u & s1 & R1 & R). apply run_bind_done in R as (us & s2 & R2 & R). injection R as <- <-.
    inversion F as [|? ? F1 F2]; subst. destruct (raw_step_effect e fuel o q u s s1 Se Q R1 F1) as (Se1 & T1 & l & rest & q1 & A1 & A2 & A3 & A4 & A5 & _).
    destruct (IH us rest s1 s2 Se1 A2 R2 F2) as (Se2 & T2 & l2 & rest2 & q2 & B1 & B2 & B3 & B4 & B5).
    split; [exact Se2|]. split; [rewrite T2, T1, <- app_assoc; reflexivity|]. exists (l ++ l2), rest2, (q1 ++ q2).
    split; [now rewrite app_assoc, A1, <- !app_assoc, B1|]. split; [exact B2|]. split; [rewrite B3, A3, frames_app, app_assoc; reflexivity|].
    split; [|apply Forall_app; auto]. cbn [handed]. exists l, l2. auto.
Qed.

(** after [initialize_macraw] *)
Definition macraw_up (mc : mac) (s : sys) : Prop :=
  (exists x, socks (s_chip s) 0 = raw_open x) /\ (forall j, 1 <= j < 8 -> exists x, socks (s_chip s) j = sized (sock_reset x) 0) /\
  fld (s_chip s) SHAR 6 = mac_octets mc.
Lemma initialize_macraw_up e mc s d s' : run e (initialize_macraw mc) s = (Done (Ok d), s') -> d = raw0 /\ macraw_up mc s'.
Proof.
  intros R. refine (session_call ei e _ (fun r t => r = Done (Ok d) -> d = raw0 /\ macraw_up mc t) s _ _ (es_initialize_macraw mc) R _ _ eq_refl).
  - intros r E. now injection E as <-.
  - apply wp_initialize_macraw; [apply nofail_no_faults|]. intros s1 n c H0 H1 H2 _ E. injection E as <-. split; [reflexivity|].
    split; [eauto|]. split; [eauto|exact H2].
Qed.
Lemma macraw_up_sess mc s : macraw_up mc s -> rawsess (sk 0 s) /\ fqueue (sk 0 s) [] /\ rxlog (sk 0 s) = [].
Proof.
  intros ((x & E) & _). unfold sk. rewrite E. destruct (raw_open_sess x) as (A & B & C & _). split; [exact A|]. split; [|exact C]. split; [exact B|constructor].
Qed.
(** a state of a running program: after initialisation and calls none of which met a bus error *)
Definition macraw_reached (e : env) (mc : mac) (fuel : nat) (ops : list rawop) (outs : list rawout) (s1 s2 : sys) : Prop :=
  exists s0 d, run e (initialize_macraw mc) s0 = (Done (Ok d), s1) /\ run e (run_raw fuel d ops) s1 = (Done outs, s2) /\ Forall raw_ok outs.
Lemma macraw_reached_inv e mc fuel ops outs s1 s2 : macraw_reached e mc fuel ops outs s1 s2 ->
  rawsess (sk 0 s2) /\ map p_data (sent (sk 0 s2)) = map p_data (sent (sk 0 s1)) ++ written ops outs /\
  exists taken rest, rxlog (sk 0 s2) = frames (taken ++ rest) /\ fqueue (sk 0 s2) rest /\ handed ops outs taken /\ Forall wf_frame taken.
Proof.
  intros (s0 & d & R1 & R2 & F). destruct (initialize_macraw_up e mc s0 d s1 R1) as (-> & Up). destruct (macraw_up_sess mc s1 Up) as (Se & Q & L).
  destruct (run_raw_effect e fuel ops outs [] s1 s2 Se Q R2 F) as (Se2 & T & l & rest & q' & A1 & A2 & A3 & A4).
  split; [exact Se2|]. split; [exact T|]. exists l, rest. rewrite A3, L. cbn [List.app] in *. rewrite A1. auto.
Qed.
