(** Whom a socket dials, over whole programs with bus errors. *)
From Verif Require Export Commands.
From Verif Require Import Datasheet TcpSession ErrorFacts FrameFacts.

(** ** Dialling *)
(** [blk], [a], [v]: neither a CONNECT to socket [i] nor a write to one of its registers [F] *)
Definition nodial (i : N) (F : list N) (blk a : N) (v : byte) : Prop :=
  (F <> [] -> blk <> 0) /\ (blk = BSB_REG i -> ~ In a F /\ (a = Sn_CR -> b2n v <> CR_CONNECT)).
Definition frozen (D : list (N * list byte * N)) (F : list N) (rv : N -> byte) (x : sock) : Prop :=
  dialled x = D /\ forall a, In a F -> regs x a = rv a.
Definition low (F : list N) : Prop := forall a, In a F -> 4 <= a < 0x12.
Lemma frozen_ev i D F rv x ev : ev_sock ev = Some i -> frozen D F rv x -> frozen D F rv (sock_step x ev).
Proof.
  intros E (H1 & H2). pose proof (sevs_one i x ev E) as S. split; [now rewrite (sevs_dialled i x _ S)|]. intros a Ha. rewrite (sevs_regs i x _ S). auto.
Qed.
Lemma frozen_like D F rv x y : dialled y = dialled x -> (forall a, In a F -> regs y a = regs x a) -> frozen D F rv x -> frozen D F rv y.
Proof. intros E R (H1 & H2). split; [congruence|]. intros a Ha. rewrite R by exact Ha. auto. Qed.
Lemma frozen_init D F rv x : low F -> frozen D F rv x -> frozen D F rv (init_pointers x).
Proof.
  intros L. apply frozen_like; [reflexivity|]. intros a Ha. apply L in Ha. unfold init_pointers, put16, upd, Sn_TX_WR, Sn_RX_RD. cbn [regs set_regs set_tx_rd set_tx_ack set_tx_end set_tx_busy set_tx_okdue set_rx_wr set_rx_base set_rxlog].
  repeat match goal with |- context [?u =? ?v] => destruct (N.eqb_spec u v); [lia|] end. reflexivity.
Qed.
Lemma frozen_sr D F rv x v : frozen D F rv x -> frozen D F rv (set_sr x v). Proof. now apply frozen_like. Qed.
Lemma frozen_busy D F rv x v : frozen D F rv x -> frozen D F rv (set_tx_busy x v). Proof. now apply frozen_like. Qed.
Lemma frozen_okdue D F rv x v : frozen D F rv x -> frozen D F rv (set_tx_okdue x v). Proof. now apply frozen_like. Qed.
Lemma frozen_end D F rv x v : frozen D F rv x -> frozen D F rv (set_tx_end x v). Proof. now apply frozen_like. Qed.
Lemma frozen_base D F rv x v : frozen D F rv x -> frozen D F rv (set_rx_base x v). Proof. now apply frozen_like. Qed.
Lemma frozen_cmd i D F rv x c : low F -> c <> CR_CONNECT -> frozen D F rv x -> frozen D F rv (do_command i x c).
Proof.
  intros L Hc H. apply N.eqb_neq in Hc. unfold do_command. rewrite Hc. clear Hc.
  repeat match goal with |- frozen _ _ _ (if ?b then _ else _) => destruct b | |- context [let p := _ in _] => cbv zeta end;
    repeat first [assumption|apply frozen_sr|apply frozen_busy|apply frozen_okdue|apply frozen_end|apply frozen_base|apply frozen_init; [assumption|]].
Qed.
Lemma frozen_wr i D F rv x a v : low F -> ~ In a F -> (a = Sn_CR -> b2n v <> CR_CONNECT) -> frozen D F rv x -> frozen D F rv (sock_wr i x a v).
Proof.
  intros L Ha Hc H. unfold sock_wr. destruct (N.eqb_spec a Sn_CR) as [E|_]; [apply frozen_cmd; auto|].
  destruct (a =? Sn_IR); [revert H; now apply frozen_like|]. destruct (read_only a); [exact H|]. revert H. apply frozen_like; [reflexivity|].
  intros b Hb. cbn [regs set_regs]. unfold upd. destruct (N.eqb_spec b a) as [->|_]; [contradiction|reflexivity].
Qed.
Lemma frozen_wbyte i D F rv c blk a v : low F -> nodial i F blk a v -> frozen D F rv (socks c i) -> frozen D F rv (socks (wbyte c blk a v) i).
Proof.
  intros L (N0 & N1) H. unfold wbyte. destruct (N.eqb_spec blk 0) as [->|Hb].
  - assert (F = []) as -> by (destruct F; [reflexivity|elim N0; [discriminate|reflexivity]]).
    destruct (a =? MR).
    + destruct (N.testbit (b2n v) 7); [|exact H]. destruct H as (H & _). split; [exact H|intros ? []].
    + destruct (a =? VERSIONR); exact H.
  - set (n := blk / 4). destruct (N.eq_dec i n) as [->|Hn].
    + assert (Dm : blk = 4 * n + blk mod 4) by (apply N.div_mod; discriminate). cbv zeta. fold n in N1.
      destruct (blk mod 4) as [|[[p|p|]|[p|p|]|]] eqn:Em; try exact H.
      * destruct (rx_size (socks c n) =? 0); [exact H|]. cbn [socks set_sock]. rewrite N.eqb_refl. revert H. now apply frozen_like.
      * destruct (tx_size (socks c n) =? 0); [exact H|]. cbn [socks set_sock]. rewrite N.eqb_refl. revert H. now apply frozen_like.
      * cbn [socks set_sock]. rewrite N.eqb_refl. destruct N1 as [A B]; [unfold BSB_REG; lia|]. now apply frozen_wr.
    + assert (E : forall z, socks (set_sock c n z) i = socks c i) by (intros z; cbn [socks set_sock]; apply N.eqb_neq in Hn; now rewrite Hn).
      cbv zeta. destruct (blk mod 4) as [|[[p|p|]|[p|p|]|]]; try exact H;
        try (match goal with |- context [if ?b then _ else _] => destruct b end; try exact H); rewrite E; exact H.
Qed.
Lemma run_frozen {A} e i D F rv (p : prog A) s : low F -> mild (nodial i F) p -> frozen D F rv (sk i s) -> frozen D F rv (sk i (snd (run e p s))).
Proof.
  intros L M. apply (run_mild (nodial i F) e i (frozen D F rv)); [intros; now apply (frozen_ev i)|intros c blk a v P; now apply frozen_wbyte|exact M].
Qed.
(** a computation that gives no CONNECT *)
Lemma writes_mild_at {A} l i (p : prog A) : ~ In CR_CONNECT l -> (forall c, In c l -> c < 256) ->
  writes (fun b a d => b = BSB_REG i -> a + len d <= Sn_CR \/ (Sn_CR < a /\ a + len d <= 65536) \/ (a = Sn_CR /\ exists c, In c l /\ d = [u8 c])) p ->
  mild (nodial i []) p.
Proof.
  intros Hl Hb. induction p as [a|w| |b a d k IH|b a d k IH]; cbn [writes mild]; intros H; auto. destruct H as [H1 H2]. split; [|auto].
  destruct (N.eq_dec b (BSB_REG i)) as [->|Hne]; [|apply each_all; intros a' v; split; [congruence|intros E; contradiction]].
  destruct (H1 eq_refl) as [C|[(C1 & C2)|(C1 & c & Hc & ->)]]; clear H1 IH H2.
  - assert (X : forall d a, a + len d <= Sn_CR -> each (nodial i []) (BSB_REG i) a d).
    { clear. induction d as [|v d IH]; intros a Ha; cbn [each]; [exact I|]. unfold len in Ha. cbn [length] in Ha. unfold Sn_CR in Ha.
      split; [split; [congruence|intros _; split; [intros []|intros E; unfold Sn_CR in E; lia]]|]. apply IH. unfold next_addr, len, Sn_CR. rewrite N.mod_small by lia. lia. }
    now apply X.
  - assert (X : forall d a, Sn_CR < a -> a + len d <= 65536 -> each (nodial i []) (BSB_REG i) a d).
    { clear. induction d as [|v d IH]; intros a Ha Hb; cbn [each]; [exact I|]. unfold len in Hb. cbn [length] in Hb. unfold Sn_CR in Ha.
      split; [split; [congruence|intros _; split; [intros []|intros E; unfold Sn_CR in E; lia]]|].
      destruct d as [|w d]; [exact I|]. cbn [length] in Hb. apply IH; unfold next_addr, len, Sn_CR; cbn [length]; rewrite N.mod_small by lia; lia. }
    now apply X.
  - cbn [each]. split; [|exact I]. split; [congruence|]. intros _. split; [intros []|]. intros _ E. rewrite b2n_u8, N.mod_small in E by now apply Hb. congruence.
Qed.
Lemma writes_mild {A} j l i (p : prog A) : ~ In CR_CONNECT l -> (forall c, In c l -> c < 256) -> writes (cmdw j l) p -> mild (nodial i []) p.
Proof. intros Hl Hb W. apply (writes_mild_at l); [exact Hl|exact Hb|]. eapply writes_mono; [|exact W]. intros b a d H E. exact (proj2 (H i E)). Qed.

Section Connect.
  Context (e : env) (i : N) (Hi : i < 8) (D : list (N * list byte * N)).
  Notation s_ := (socket_new i).
  Definition ends {A E} (F : list N) (rv : N -> byte) (o : outcome (res A E)) (s' : sys) : Prop :=
    match o with Done (Ok _) => frozen D F rv (sk i s') | _ => dialled (sk i s') = D end.
  Lemma t_mild {A E} F rv (p : prog (res A E)) s : low F -> mild (nodial i F) p -> frozen D F rv (sk i s) -> wp e p (ends F rv) s.
  Proof.
    intros L M H. unfold wp. pose proof (run_frozen e i D F rv p s L M H) as R. destruct (run e p s) as [[[a|x]| | |] s1]; cbn [ends fst snd] in *; auto; apply R.
  Qed.
  Lemma t_try {A E R} F rv (p : prog (res A E)) (h : E -> R) k (Q : outcome R -> sys -> Prop) s :
    wp e p (ends F rv) s -> (forall o s1, dialled (sk i s1) = D -> Q o s1) ->
    (forall a s1, frozen D F rv (sk i s1) -> wp e (k a) Q s1) -> wp e (try_ p h k) Q s.
  Proof.
    intros W K1 K2. apply wp_try. eapply wp_mono; [|exact W]. intros [[a|x]| | |] s1 H; cbn [ends] in H; auto.
  Qed.
  Lemma t_seq {A E B E'} F rv F' rv' (p : prog (res A E)) (h : E -> res B E') k s : (forall x, exists y, h x = Err y) ->
    wp e p (ends F rv) s -> (forall a s1, frozen D F rv (sk i s1) -> wp e (k a) (ends F' rv') s1) -> wp e (try_ p h k) (ends F' rv') s.
  Proof.
    intros Hh W K. apply wp_try. eapply wp_mono; [|exact W]. intros [[a|x]| | |] s1 H; cbn [ends] in H; auto.
    destruct (Hh x) as (y & ->). exact H.
  Qed.
  Lemma nd_reg F a v : (F <> [] -> ~ In a F) -> a <> Sn_CR -> nodial i F (BSB_REG i) a v.
  Proof. intros H Ha. split; [unfold BSB_REG; lia|]. intros _. split; [destruct F; [intros []|apply H; discriminate]|contradiction]. Qed.
  (** one byte of a register put in place *)
  Lemma put_byte F rv s a v : low F -> 4 <= a < 0x12 -> ~ In a F -> frozen D F rv (sk i s) ->
    frozen D (a :: F) (upd rv a v) (sk i (on_chip (fun c => wbyte c (BSB_REG i) a v) (tick e s))).
  Proof.
    intros L Ha Hn H. unfold sk at 1, on_chip. cbn [s_chip]. rewrite wbyte_reg.
    assert (H1 : frozen D F rv (sk i (tick e s))).
    { apply (sevs_inv i (frozen D F rv) (fun x ev Hev => frozen_ev i D F rv x ev Hev) (sk i s)); [apply tick_sevs|exact H]. }
    fold (sk i (tick e s)). destruct H1 as [A B]. unfold sock_wr.
    assert (E1 : a =? Sn_CR = false) by (apply N.eqb_neq; unfold Sn_CR; lia).
    assert (E2 : a =? Sn_IR = false) by (apply N.eqb_neq; unfold Sn_IR; lia). rewrite E1, E2.
    assert (E3 : read_only a = false). { unfold read_only. repeat match goal with |- context [?x =? ?y] => destruct (N.eqb_spec x y); [unfold Sn_SR, Sn_TX_FSR, Sn_TX_RD, Sn_RX_RSR, Sn_RX_WR in *; lia|] end. 
      repeat match goal with |- context [?x <=? ?y] => destruct (N.leb_spec x y) end; try reflexivity; unfold Sn_SR, Sn_TX_FSR, Sn_TX_RD, Sn_RX_RSR, Sn_RX_WR in *; lia. }
    rewrite E3. split; [exact A|]. intros b Hb. cbn [regs set_regs]. unfold upd. destruct (N.eqb_spec b a) as [->|Hne]; [reflexivity|].
    destruct Hb as [->|Hb]; [contradiction|auto].
  Qed.
  Lemma low_cons F a : 4 <= a < 0x12 -> low F -> low (a :: F).
  Proof. intros Ha L b [<-|Hb]; auto. Qed.
  Lemma t_put2 F rv s a u v : low F -> 4 <= a < 0x11 -> ~ In a F -> ~ In (a + 1) F -> frozen D F rv (sk i s) ->
    wp e (write_frame (register s_) a [u; v]) (ends (a + 1 :: a :: F) (upd (upd rv a u) (a + 1) v)) s.
  Proof.
    intros L Ha N1 N2 H. assert (Na : next_addr a = a + 1) by (unfold next_addr; apply N.mod_small; lia).
    assert (M : mild (nodial i []) (write_frame (register s_) a [u; v])).
    { unfold write_frame. cbn [mild each]. rewrite so_reg by exact Hi. rewrite Na. split; [|intros []; exact I].
      split; [|split; [|exact I]]; (apply nd_reg; [congruence|unfold Sn_CR; lia]). }
    pose proof (run_frozen e i D [] rv _ s ltac:(intros ? []) M ltac:(split; [apply H|intros ? []])) as R.
    unfold wp in *. unfold write_frame in *. cbn [run] in *. rewrite so_reg in * by exact Hi. unfold bus_write in *.
    destruct (fails e (s_call s)) as [[q er]|]; cbn [run fst snd] in *; [apply R|].
    cbn [ends write_bytes]. change (sk i (end_call ?x)) with (sk i x). rewrite Na.
    apply (put_byte (a :: F) (upd rv a u)); [apply low_cons; [lia|exact L]|lia|intros [E|E]; [lia|contradiction]|].
    apply put_byte; auto. lia.
  Qed.
  Lemma t_put4 F rv s a b0 b1 b2 b3 : low F -> 4 <= a < 0xf -> (forall k, k < 4 -> ~ In (a + k) F) -> frozen D F rv (sk i s) ->
    wp e (write_frame (register s_) a [b0; b1; b2; b3])
      (ends (a + 3 :: a + 2 :: a + 1 :: a :: F) (upd (upd (upd (upd rv a b0) (a + 1) b1) (a + 2) b2) (a + 3) b3)) s.
  Proof.
    intros L Ha N1 H. assert (Na : next_addr a = a + 1) by (unfold next_addr; apply N.mod_small; lia).
    assert (Nb : next_addr (a + 1) = a + 2) by (unfold next_addr; rewrite N.mod_small by lia; lia).
    assert (Nc : next_addr (a + 2) = a + 3) by (unfold next_addr; rewrite N.mod_small by lia; lia).
    assert (M : mild (nodial i []) (write_frame (register s_) a [b0; b1; b2; b3])).
    { unfold write_frame. cbn [mild each]. rewrite so_reg by exact Hi. rewrite Na, Nb, Nc. split; [|intros []; exact I].
      split; [|split; [|split; [|split; [|exact I]]]]; (apply nd_reg; [congruence|unfold Sn_CR; lia]). }
    pose proof (run_frozen e i D [] rv _ s ltac:(intros ? []) M ltac:(split; [apply H|intros ? []])) as R.
    unfold wp in *. unfold write_frame in *. cbn [run] in *. rewrite so_reg in * by exact Hi. unfold bus_write in *.
    destruct (fails e (s_call s)) as [[q er]|]; cbn [run fst snd] in *; [apply R|].
    cbn [ends write_bytes]. change (sk i (end_call ?x)) with (sk i x). rewrite Na, Nb, Nc.
    pose proof (N1 0 ltac:(lia)) as M0. pose proof (N1 1 ltac:(lia)) as M1. pose proof (N1 2 ltac:(lia)) as M2. pose proof (N1 3 ltac:(lia)) as M3. rewrite N.add_0_r in M0.
    repeat (apply put_byte; [repeat (apply low_cons; [lia|]); exact L|lia|cbn [In]; intuition lia|]). exact H.
  Qed.

  Lemma m_mode F m : ~ In s_MODE F -> mild (nodial i F) (set_mode s_ m).
  Proof. intros H. unfold set_mode, write_frame. cbn [mild each]. rewrite so_reg by exact Hi. split; [|intros []; exact I]. split; [|exact I]. apply nd_reg; [auto|discriminate]. Qed.
  Lemma m_int F m : ~ In s_INTERRUPT F -> mild (nodial i F) (reset_interrupt s_ m).
  Proof. intros H. unfold reset_interrupt, write_frame. cbn [mild each]. rewrite so_reg by exact Hi. split; [|intros []; exact I]. split; [|exact I]. apply nd_reg; [auto|discriminate]. Qed.
  Lemma m_mask F m : ~ In s_INTERRUPT_MASK F -> mild (nodial i F) (set_interrupt_mask s_ m).
  Proof. intros H. unfold set_interrupt_mask, write_frame. cbn [mild each]. rewrite so_reg by exact Hi. split; [|intros []; exact I]. split; [|exact I]. apply nd_reg; [auto|discriminate]. Qed.
  Lemma m_cmd F c : ~ In s_COMMAND F -> c <> CmConnect -> mild (nodial i F) (command s_ c).
  Proof.
    intros H Hc. unfold command, write_frame. cbn [mild each]. rewrite so_reg by exact Hi. split; [|intros []; exact I]. split; [|exact I].
    split; [unfold BSB_REG; lia|]. intros _. split; [exact H|]. intros _. destruct c; try discriminate. contradiction.
  Qed.
  Lemma m_read F {R} blk a n (f : list byte -> R) : mild (nodial i F) (try d <- read_reg blk a n else Err ;; Ret (Ok (f d))).
  Proof. apply mild_try; [cbn; intros got [u|er] _; exact I|]. intros d. exact I. Qed.
  Definition free (F : list N) : Prop := forall a, In a [s_MODE; s_INTERRUPT; s_INTERRUPT_MASK; s_COMMAND] -> ~ In a F.
  Lemma m_close F : free F -> mild (nodial i F) (tcp_socket_close (mkTcp s_)).
  Proof.
    intros H. unfold tcp_socket_close. cbn [t_socket]. apply mild_try; [apply m_mode, H; cbn; auto|]. intros. apply mild_try; [|intros; exact I].
    apply m_cmd; [apply H; cbn; auto|discriminate].
  Qed.
  Lemma m_reopen F : free F -> mild (nodial i F) (tcp_reopen (mkTcp s_)).
  Proof.
    intros H. unfold tcp_reopen. cbn [t_socket]. apply mild_try; [apply m_cmd; [apply H; cbn; auto|discriminate]|]. intros.
    apply mild_try; [apply m_int, H; cbn; auto|]. intros. apply mild_try; [apply m_mode, H; cbn; auto|]. intros.
    apply mild_try; [apply m_mask, H; cbn; auto|]. intros. apply mild_try; [|intros; exact I]. apply m_cmd; [apply H; cbn; auto|discriminate].
  Qed.
  Lemma m_wait F fuel : free F -> mild (nodial i F) (tcp_connect_wait fuel (mkTcp s_)).
  Proof.
    intros H. induction fuel as [|fuel IH]; cbn [tcp_connect_wait t_socket]; [exact I|]. apply mild_try; [apply m_read|]. intros st.
    destruct (status_try_from st) as [[]|]; try exact IH; try exact I. apply mild_try; [now apply m_close|]. intros. now apply m_reopen.
  Qed.

  (** the CONNECT itself: the bus may fail before or after it *)
  Lemma t_connect F rv s (Q : outcome (res unit berr) -> sys -> Prop) : low F -> frozen D F rv (sk i s) ->
    (forall o s1, dialled (sk i s1) = D -> Q o s1) ->
    (forall o x s1, frozen D F rv x -> dialled (sk i s1) = D ++ [(get16 (regs x) Sn_PORT,
        [regs x Sn_DIPR; regs x (Sn_DIPR + 1); regs x (Sn_DIPR + 2); regs x (Sn_DIPR + 3)], get16 (regs x) Sn_DPORT)] -> Q o s1) ->
    wp e (command s_ CmConnect) Q s.
  Proof.
    intros L H K1 K2. unfold command, write_frame, wp. cbn [run]. rewrite so_reg by exact Hi. unfold bus_write.
    assert (H1 : frozen D F rv (sk i (tick e s))).
    { apply (sevs_inv i (frozen D F rv) (fun x ev Hev => frozen_ev i D F rv x ev Hev) (sk i s)); [apply tick_sevs|exact H]. }
    assert (B : forall o, Q o (end_call (write_bytes e (BSB_REG i) s_COMMAND [u8 (command_u8 CmConnect)] s))).
    { intros o. cbn [write_bytes]. set (s1 := end_call _). assert (E : sk i s1 = do_command i (sk i (tick e s)) CR_CONNECT).
      { unfold s1, sk, end_call, on_chip. cbn [s_chip]. rewrite wbyte_reg. reflexivity. }
      unfold do_command in E. change (CR_CONNECT =? CR_OPEN) with false in E. change (CR_CONNECT =? CR_LISTEN) with false in E. change (CR_CONNECT =? CR_CONNECT) with true in E. cbv iota zeta in E.
      destruct (sr (sk i (tick e s)) =? SOCK_INIT); [|apply K1; rewrite E; apply H1].
      apply (K2 o (sk i (tick e s))); [exact H1|]. rewrite E. cbn [dialled set_dialled]. now rewrite (proj1 H1). }
    destruct (fails e (s_call s)) as [[[|q] er]|]; cbn [run fst snd firstn].
    - cbn [write_bytes]. apply K1. change (sk i (end_call s)) with (sk i s). apply H.
    - rewrite firstn_nil. apply B.
    - apply B.
  Qed.
  Definition dial (r : addr4) : N * list byte * N := (49849 + i, octets (a_ip r), a_port r).
  Lemma connect_dials fuel r s : a_port r < 65536 -> dialled (sk i s) = D ->
    wp e (tcp_connect fuel (mkTcp s_) (V4 r)) (fun _ s' => dialled (sk i s') = D \/ dialled (sk i s') = D ++ [dial r]) s.
  Proof.
    intros Hp H0. destruct r as [[b0 b1 b2 b3] rp]. cbn [a_port] in Hp.
    set (Q := fun (_ : outcome (res unit (nberr terr))) s' => dialled (sk i s') = D \/ dialled (sk i s') = D ++ [dial (Addr4 (Ip4 b0 b1 b2 b3) rp)]).
    assert (L0 : low []) by (intros ? []).
    set (F1 := [5; 4]). set (v1 := upd (upd (fun _ => x00) 4 (u8 ((49849 + i) / 256))) 5 (u8 (49849 + i))).
    assert (L1 : low F1) by (intros a [<-|[<-|[]]]; lia).
    set (F2 := 15 :: 14 :: 13 :: 12 :: F1). set (v2 := upd (upd (upd (upd v1 12 b0) 13 b1) 14 b2) 15 b3).
    assert (L2 : low F2) by (intros a [<-|[<-|[<-|[<-|Ha]]]]; [lia..|now apply L1]).
    set (F3 := 17 :: 16 :: F2). set (v3 := upd (upd v2 16 (u8 (rp / 256))) 17 (u8 rp)).
    assert (L3 : low F3) by (intros a [<-|[<-|Ha]]; [lia..|now apply L2]).
    assert (Fr : forall F, F = [] \/ F = F1 \/ F = F2 \/ F = F3 -> free F).
    { intros F HF a Ha Hin. unfold F3, F2, F1 in *. cbn [In] in Ha. unfold s_MODE, s_INTERRUPT, s_INTERRUPT_MASK, s_COMMAND in Ha.
      destruct HF as [->|[->|[->| ->]]]; cbn [In] in Hin; lia. }
    (* after the destination is known *)
    assert (Do : forall s, frozen D F1 v1 (sk i s) -> wp e (tcp_do_connect fuel (mkTcp s_) (Addr4 (Ip4 b0 b1 b2 b3) rp)) (fun _ s' => Q Cut s') s).
    { intros s1 H1. unfold tcp_do_connect. cbn [t_socket a_ip a_port].
      apply (t_try F2 v2); [|intros o s2 E; now left|].
      { apply (t_put4 F1 v1 s1 12); [exact L1|lia| |exact H1]. intros k Hk. unfold F1. cbn [In]. lia. }
      intros a s2 H2. apply (t_try F3 v3); [|intros o s3 E; now left|].
      { apply (t_put2 F2 v2 s2 16); [exact L2|lia| | |exact H2]; unfold F2, F1; cbn [In]; lia. }
      intros b s3 H3. apply wp_try. apply (t_connect F3 v3); [exact L3|exact H3| |].
      - intros [[u|x]| | |] s4 E; try (left; exact E).
        eapply wp_mono; [|apply (t_mild [] v3 _ s4 L0 (m_wait [] fuel (Fr [] (or_introl eq_refl))))].
        + intros [[u'|x]| | |] s5 E5; left; cbn [ends] in E5; try exact E5; apply E5.
        + split; [exact E|intros ? []].
      - intros o x s4 Hx E4.
        assert (E : dialled (sk i s4) = D ++ [dial (Addr4 (Ip4 b0 b1 b2 b3) rp)]).
        { rewrite E4. unfold dial. cbn [a_ip a_port octets]. destruct Hx as [_ Hx].
          assert (Rv : forall a, In a F3 -> regs x a = v3 a) by exact Hx.
          unfold get16, Sn_PORT, Sn_DIPR, Sn_DPORT. rewrite !Rv by (unfold F3, F2, F1; cbn [In]; lia).
          change (v3 4) with (u8 ((49849 + i) / 256)). change (v3 (4 + 1)) with (u8 (49849 + i)). change (v3 12) with b0. change (v3 (12 + 1)) with b1.
          change (v3 (12 + 2)) with b2. change (v3 (12 + 3)) with b3. change (v3 16) with (u8 (rp / 256)). change (v3 (16 + 1)) with (u8 rp).
          rewrite !b2n_u8. f_equal. f_equal. f_equal; [f_equal|]; lia. }
        clear E4 Hx. destruct o as [[u|y]| | |]; try (right; exact E).
        pose proof (run_frozen e i (D ++ [dial (Addr4 (Ip4 b0 b1 b2 b3) rp)]) [] v3 _ s4 L0 (m_wait [] fuel (Fr [] (or_introl eq_refl))) ltac:(split; [exact E|intros ? []])) as R.
        right. apply R. }
    unfold tcp_connect. apply (t_try F1 v1); [|intros o s1 E; now left|].
    { unfold tcp_open. cbn [t_socket]. pose proof (Fr [] (or_introl eq_refl)) as R0. pose proof (Fr F1 (or_intror (or_introl eq_refl))) as R1.
      assert (Ht : forall x, exists y, @tE unit x = Err y) by (intros x; eexists; reflexivity).
      apply (t_seq [] v1); [exact Ht|apply t_mild; [exact L0|apply m_cmd; [apply R0; cbn; auto|discriminate]|split; [exact H0|intros ? []]]|]. intros _ s1 H1.
      apply (t_seq [] v1); [exact Ht|apply t_mild; [exact L0|apply m_int, R0; cbn; auto|exact H1]|]. clear s1 H1. intros _ s1 H1.
      apply (t_seq F1 v1); [exact Ht|apply (t_put2 [] (fun _ => x00) s1 4); [exact L0|lia|intros []|intros []|split; [apply H1|intros ? []]]|]. clear s1 H1. intros _ s1 H1.
      apply (t_seq F1 v1); [exact Ht|apply t_mild; [exact L1|apply m_mode, R1; cbn; auto|exact H1]|]. clear s1 H1. intros _ s1 H1.
      apply (t_seq F1 v1); [exact Ht|apply t_mild; [exact L1|apply m_mask, R1; cbn; auto|exact H1]|]. clear s1 H1. intros _ s1 H1.
      apply (t_seq F1 v1); [exact Ht|apply t_mild; [exact L1|apply m_cmd; [apply R1; cbn; auto|discriminate]|exact H1]|]. clear s1 H1. intros _ s1 H1.
      exact H1. }
    pose proof (Fr F1 (or_intror (or_introl eq_refl))) as R1.
    intros u s1 H1. apply wp_try.
    assert (K : wp e (tcp_socket_connect fuel (mkTcp s_) (Addr4 (Ip4 b0 b1 b2 b3) rp)) (fun _ s' => Q Cut s') s1).
    { unfold tcp_socket_connect. cbn [t_socket]. apply (t_try F1 v1); [apply t_mild; [exact L1|apply m_read|exact H1]|intros o s2 E; now left|].
      intros st s2 H2.
      assert (Again : wp e (try a <- tcp_socket_close (mkTcp s_) else Err ;; try b <- tcp_reopen (mkTcp s_) else Err ;; tcp_do_connect fuel (mkTcp s_) (Addr4 (Ip4 b0 b1 b2 b3) rp)) (fun _ s' => Q Cut s') s2).
      { apply (t_try F1 v1); [apply t_mild; [exact L1|now apply m_close|exact H2]|intros o s3 E; now left|]. intros a s3 H3.
        apply (t_try F1 v1); [apply t_mild; [exact L1|now apply m_reopen|exact H3]|intros o s4 E; now left|]. intros b s4 H4. now apply Do. }
      destruct (status_try_from st) as [[]|]; try exact Again; try (left; apply H2). now apply Do. }
    eapply wp_mono; [|exact K]. intros [[a|x]| | |] s2 H2; exact H2.
  Qed.
End Connect.

(** ** Whole programs *)
(** what a call may add to the peers socket [i] dialled: [l] *)
Definition asks (i : N) (o : op) : list (N * list byte * N) :=
  match o with OpTcpConnect _ (V4 r) => [(49849 + i, octets (a_ip r), a_port r)] | _ => [] end.
Definition raw_connect (o : op) : Prop := exists h, o = OpSocket h (KCommand CmConnect).
Definition port_fits (o : op) : Prop := match o with OpTcpConnect _ (V4 r) => a_port r < 65536 | _ => True end.
(** [x] is [y] with some elements left out *)
Fixpoint within {A} (x y : list A) : Prop :=
  match y with [] => x = [] | b :: y' => within x y' \/ exists x', x = b :: x' /\ within x' y' end.
Lemma within_nil {A} (y : list A) : within [] y.
Proof. induction y as [|b y IH]; cbn; auto. Qed.
Lemma within_app {A} (x1 x2 y1 y2 : list A) : within x1 y1 -> within x2 y2 -> within (x1 ++ x2) (y1 ++ y2).
Proof.
  revert x1. induction y1 as [|b y1 IH]; intros x1 H1 H2; cbn [within List.app] in *; [now subst|].
  destruct H1 as [H1|(x' & -> & H1)]; [left; auto|right; exists (x' ++ x2); split; [reflexivity|auto]].
Qed.
Lemma within_in {A} (x y : list A) a : within x y -> In a x -> In a y.
Proof.
  revert x. induction y as [|b y IH]; intros x H Hin; cbn [within] in H; [now subst|].
  destruct H as [H|(x' & -> & H)]; [right; eauto|]. destruct Hin as [->|Hin]; [now left|right; eauto].
Qed.
Lemma within_one {A} (d x : A) n : within (x :: n) [d] -> x :: n = [d].
Proof. cbn [within]. intros [H|(x' & -> & ->)]; [discriminate|reflexivity]. Qed.
Lemma within_none {A} (x : A) n : within (x :: n) [] -> False.
Proof. cbn [within]. discriminate. Qed.
Lemma app_self {A} (l : list A) x n : l = l ++ x :: n -> False.
Proof. intros E. apply (f_equal (@length A)) in E. rewrite app_length in E. cbn [length] in E. lia. Qed.
Lemma writes_other {A} j l i (p : prog A) : i <> j -> writes (cmdw j l) p -> mild (nodial i []) p.
Proof.
  intros Hn. induction p as [a|w| |b a d k IH|b a d k IH]; cbn [writes mild]; intros H; auto. destruct H as [H1 H2]. split; [|auto].
  apply each_all. intros a' v. split; [congruence|]. intros E. destruct (H1 i E) as (C & _). contradiction.
Qed.
Lemma low_nil : low [].
Proof. intros ? []. Qed.
Lemma run_quiet {A} e i (p : prog A) s : mild (nodial i []) p -> dialled (sk i (snd (run e p s))) = dialled (sk i s).
Proof. intros M. apply (run_frozen e i (dialled (sk i s)) [] (fun _ => x00) p s low_nil M). split; [reflexivity|intros ? []]. Qed.
Lemma op_commands_small o c : In c (op_commands o) -> c < 256.
Proof.
  destruct o as [| | | | | | | | | | | | | | | | |? q|]; try (cbn; tauto); try (cbn; intros H; repeat destruct H as [<-|H]; try reflexivity; contradiction).
  destruct q as [| | | | | | | | | | | | | |k| |]; try (cbn; tauto). cbn. intros [<-|[]]. destruct k; reflexivity.
Qed.
Lemma step_dials e fuel a o i s : good (handles a) -> i < 8 -> port_fits o -> ~ raw_connect o ->
  exists new, dialled (sk i (snd (run e (step fuel a o) s))) = dialled (sk i s) ++ new /\ within new (asks i o) /\
    (op_socket a o <> i -> new = []).
Proof.
  intros G Hi Pf Hr. assert (Same : mild (nodial i []) (step fuel a o) -> exists new, dialled (sk i (snd (run e (step fuel a o) s))) = dialled (sk i s) ++ new /\ within new (asks i o) /\ (op_socket a o <> i -> new = [])).
  { intros M. exists []. rewrite app_nil_r. split; [now apply run_quiet|split; [apply within_nil|reflexivity]]. }
  pose proof (cw_step fuel a o G) as W.
  destruct (N.eq_dec i (op_socket a o)) as [E|E]; [|apply Same; exact (writes_other _ _ i _ E W)].
  destruct (in_dec N.eq_dec CR_CONNECT (op_commands o)) as [Hc|Hc]; [|apply Same; exact (writes_mild _ _ i _ Hc (op_commands_small o) W)].
  destruct o as [| | |h r| | | | | | | | | | | | | |h q|]; try (cbn in Hc; repeat destruct Hc as [Hc|Hc]; try discriminate Hc; contradiction).
  - clear W Hc. cbn [step] in *. unfold op_socket in E. cbn [op_handle] in E.
    destruct (lookup h (handles a)) as [[|t|]|] eqn:L; try (apply Same; exact Logic.I).
    destruct (good_lookup _ _ _ G L) as (j & Hj & Ej). cbn [handle_socket] in *. destruct t as [t]. cbn [t_socket] in *. subst t. change (index (socket_new j)) with j in E. subst j.
    destruct r as [r|]; [|apply Same; apply mild_bind; [exact Logic.I|intros; exact Logic.I]].
    pose proof (connect_dials e i Hi (dialled (sk i s)) fuel r s Pf eq_refl) as K. unfold wp in K. rewrite run_bind.
    destruct (run e (tcp_connect fuel (mkTcp (socket_new i)) (V4 r)) s) as [[c| | |] s1]; cbn [fst snd run] in *;
      (destruct K as [K|K]; [exists []; rewrite app_nil_r; split; [exact K|split; [apply within_nil|reflexivity]]|
        eexists; split; [exact K|split; [right; exists []; split; reflexivity|]]; intros N; elim N; unfold op_socket; cbn [op_handle]; rewrite L; reflexivity]).
  - destruct q; try (cbn in Hc; contradiction). cbn in Hc. destruct Hc as [Hc|[]]. elim Hr. exists h. destruct c; try discriminate Hc. reflexivity.
Qed.
Lemma run_ops_dials e fuel i : i < 8 -> forall ops a s, good (handles a) -> Forall port_fits ops -> Forall (fun o => ~ raw_connect o) ops ->
  exists new, dialled (sk i (snd (run e (run_ops fuel a ops) s))) = dialled (sk i s) ++ new /\ within new (flat_map (asks i) ops).
Proof.
  intros Hi. induction ops as [|o ops IH]; intros a s G Fp Fr; cbn [run_ops flat_map].
  { exists []. rewrite app_nil_r. split; reflexivity. }
  inversion Fp as [|? ? P1 P2]; subst. inversion Fr as [|? ? R1 R2]; subst.
  destruct (step_dials e fuel a o i s G Hi P1 R1) as (n1 & E1 & W1 & _).
  assert (Stop : within n1 (asks i o ++ flat_map (asks i) ops)).
  { rewrite <- (app_nil_r n1). apply within_app; [exact W1|apply within_nil]. }
  rewrite run_bind. destruct (run e (step fuel a o) s) as [[[a1 o1]| | |] s1] eqn:R; cbn [fst snd] in *; try (exists n1; split; assumption).
  destruct (IH a1 s1 (run_good e fuel a o s a1 o1 s1 G R) P2 R2) as (n2 & E2 & W2).
  exists (n1 ++ n2). split; [|now apply within_app]. rewrite app_assoc, <- E1. rewrite run_bind.
  destruct (run e (run_ops fuel a1 ops) s1) as [[| | |] s2]; exact E2.
Qed.
Lemma step_dials_call e fuel a q s i : good (handles a) -> i < 8 -> port_fits q -> ~ raw_connect q ->
  dialled (sk i (snd (run e (step fuel a q) s))) = dialled (sk i s) \/
  exists h y r, q = OpTcpConnect h (V4 r) /\ lookup h (handles a) = Some y /\ index (handle_socket y) = i /\
    dialled (sk i (snd (run e (step fuel a q) s))) = dialled (sk i s) ++ [(49849 + i, octets (a_ip r), a_port r)].
Proof.
  intros G Hi Hp Hr. destruct (step_dials e fuel a q i s G Hi Hp Hr) as (new & E & W & N).
  destruct new as [|x new]; [left; now rewrite app_nil_r in E|right].
  destruct (N.eq_dec (op_socket a q) i) as [Eq|Eq]; [|specialize (N Eq); discriminate].
  destruct q as [| | |h [r|]| | | | | | | | | | | | | | |]; try (apply within_none in W; contradiction).
  apply within_one in W. rewrite W in E.
  unfold op_socket in Eq. cbn [op_handle] in Eq. destruct (lookup h (handles a)) as [y|] eqn:L; [exists h, y, r; auto|].
  cbn [step] in E. rewrite L in E. cbn [run snd] in E. apply app_self in E. contradiction.
Qed.
