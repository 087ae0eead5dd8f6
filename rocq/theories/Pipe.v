(** Where the bytes that leave a socket come from, whatever the bus and the network do. *)
From Verif Require Export SockSpecs TxFacts Recovery.
From Verif Require Import TcpSession FrameFacts ErrorFacts ProgFacts Datasheet.

(** [drawn true ps d]: the pieces [ps] lie in [d] one after the other, in order and without
    overlap; [drawn false]: they make up [d], nothing between them is skipped *)
Inductive drawn (lossy : bool) : list (list byte) -> list byte -> Prop :=
| dr_nil : drawn lossy [] []
| dr_piece ps d p : drawn lossy ps d -> drawn lossy (ps ++ [p]) (d ++ p)
| dr_gap ps d g : lossy = true -> drawn lossy ps d -> drawn lossy ps (d ++ g).
Lemma drawn_false ps d : drawn false ps d -> d = concat ps.
Proof.
  induction 1 as [|ps d p H IH|ps d g E H IH]; [reflexivity| |discriminate].
  now rewrite concat_app, IH; cbn [concat]; rewrite app_nil_r.
Qed.

(** a socket that can send nothing before it is opened again *)
Definition shut (x : sock) : Prop := sr x = SOCK_CLOSED /\ tx_busy x = false.
Lemma shut_step x ev : shut x -> shut (sock_step x ev).
Proof.
  unfold shut. intros (H1 & H2). ev_cases ev; auto;
    exfalso; rewrite H1 in *; first [discriminate|congruence].
Qed.

(** the buffer bytes from the read pointer to [p], and the pointers around them *)
Definition rem (p : N) (x : sock) : list byte :=
  ring_read (txm x) (tx_size x) (tx_rd x) (N.to_nat (sub16 p (tx_rd x))).
Definition pv (p : N) (x : sock) : Prop :=
  p < 65536 /\ tx_rd x < 65536 /\ tx_ack x < 65536 /\ tx_end x < 65536 /\
  sub16 p (tx_ack x) = sub16 p (tx_end x) + (sub16 (tx_end x) (tx_rd x) + sub16 (tx_rd x) (tx_ack x)).

Section Flow.
  Context (lossy : bool) (S0 : list packet).

  (** everything sent since [S0] is drawn from [C]; what the buffer holds up to [p] is the end of
      [C]; [n] more bytes fit *)
  Definition flow (C : list byte) (p n : N) (x : sock) : Prop :=
    valid_size (tx_size x) /\
    (lossy = true \/ (sr x <> SOCK_UDP /\ sr x <> SOCK_MACRAW)) /\
    exists l D g, sent x = S0 ++ l /\ drawn lossy (map p_data l) D /\ C = D ++ g /\
      (shut x \/ (pv p x /\ sub16 p (tx_ack x) + n <= tx_size x /\ g = rem p x)).
  Definition pipe (C : list byte) (x : sock) : Prop := flow C (tx_wr x) 0 x.

  Lemma flow_shut C p n x p' n' w : shut x -> flow C p n x -> flow (C ++ w) p' n' x.
  Proof.
    intros Sh (V & T & l & D & g & E & Dr & EC & _). split; [exact V|]. split; [exact T|].
    exists l, D, (g ++ w). rewrite EC, app_assoc. auto.
  Qed.
  Lemma flow_less C p n m x : m <= n -> flow C p n x -> flow C p m x.
  Proof.
    intros L (V & T & l & D & g & E & Dr & EC & Alt). split; [exact V|]. split; [exact T|].
    exists l, D, g. split; [exact E|]. split; [exact Dr|]. split; [exact EC|].
    destruct Alt as [Sh|(P & R & G)]; [now left|right]. split; [exact P|]. split; [lia|exact G].
  Qed.
  (** nothing about sending changed, or the socket was closed *)
  Lemma flow_same C p n x x' : tx_size x' = tx_size x -> (sr x' = sr x \/ sr x' <> SOCK_UDP /\ sr x' <> SOCK_MACRAW) ->
    sent x' = sent x -> (shut x -> shut x') ->
    (shut x' \/ (txm x' = txm x /\ tx_rd x' = tx_rd x /\ tx_ack x' = tx_ack x /\ tx_end x' = tx_end x)) ->
    flow C p n x -> flow C p n x'.
  Proof.
    intros Z Sr Se Sh Alt' (V & T & l & D & g & E & Dr & EC & Alt).
    split; [now rewrite Z|]. split. { destruct T as [T|(T1 & T2)]; [now left|right]. destruct Sr as [-> |Sr]; [now split|exact Sr]. }
    exists l, D, g. split; [congruence|]. split; [exact Dr|]. split; [exact EC|].
    destruct Alt' as [Sh'|(M & R1 & R2 & R3)]; [now left|].
    destruct Alt as [Sh0|(P & R & G)]; [left; auto|right]. unfold pv, rem in *. rewrite M, R1, R2, R3, Z. auto.
  Qed.

  Lemma flow_step C p n x ev : flow C p n x -> flow C p n (sock_step x ev).
  Proof.
    intros F. assert (Sh : shut x -> shut (sock_step x ev)) by apply shut_step.
    assert (R : regs (sock_step x ev) = regs x) by (ev_cases ev; auto).
    assert (M : txm (sock_step x ev) = txm x) by (ev_cases ev; auto).
    assert (Z : tx_size (sock_step x ev) = tx_size x) by (unfold tx_size; now rewrite R).
    assert (Sr : sr (sock_step x ev) = sr x \/ sr (sock_step x ev) <> SOCK_UDP /\ sr (sock_step x ev) <> SOCK_MACRAW).
    { ev_cases ev; auto; right; split; discriminate. }
    destruct ev; try (apply (flow_same C p n x); [exact Z|exact Sr| |exact Sh| |exact F];
      clear; unfold sock_step, rx_append; cbv zeta;
      repeat match goal with |- context [if ?b then _ else _] =>
               lazymatch b with context [if _ then _ else _] => fail | _ => destruct b end end;
      sfields; auto 6; fail).
    - (* transmit *)
      destruct F as (V & T & l & D & g & E & Dr & EC & Alt).
      split; [now rewrite Z|]. split. { destruct T as [T|(T1 & T2)]; [now left|right]. destruct Sr as [-> |Sr]; [now split|exact Sr]. }
      destruct Alt as [Sh0|((P0 & P1 & P2 & P3 & P4) & Rm & G)].
      { exists l, D, g. split; [|auto]. cbn [sock_step]. unfold transmit. destruct Sh0 as (_ & ->). exact E. }
      cbn [sock_step] in *. unfold transmit in *. destruct (tx_busy x); [|exists l, D, g; split; [exact E|]; split; [exact Dr|]; split; [exact EC|]; right; unfold pv; auto 10].
      cbv zeta in *.
      set (k' := if (sr x =? SOCK_UDP) || (sr x =? SOCK_MACRAW) then sub16 (tx_end x) (tx_rd x) else N.min k (sub16 (tx_end x) (tx_rd x))) in *.
      assert (Hk : k' <= sub16 (tx_end x) (tx_rd x)) by (unfold k'; destruct ((sr x =? SOCK_UDP) || (sr x =? SOCK_MACRAW)); lia).
      clearbody k'. pose proof (valid_le _ V) as Hz.
      set (rd := (tx_rd x + k') mod 65536) in *.
      assert (Hm : rd < 65536) by (unfold rd; apply N.mod_lt; discriminate).
      assert (E0 : sub16 p (tx_rd x) = sub16 p (tx_end x) + sub16 (tx_end x) (tx_rd x)) by (apply sub16_chain; auto; lia).
      assert (E1 : sub16 (tx_end x) rd = sub16 (tx_end x) (tx_rd x) - k') by (apply sub16_retire; auto).
      assert (E2 : sub16 rd (tx_ack x) = sub16 (tx_rd x) (tx_ack x) + k') by (apply sub16_advance; auto; lia).
      assert (E3 : sub16 p rd = sub16 p (tx_rd x) - k') by (apply sub16_retire; auto; lia).
      assert (Eg : g = ring_read (txm x) (tx_size x) (tx_rd x) (N.to_nat k') ++
                       ring_read (txm x) (tx_size x) rd (N.to_nat (sub16 p rd))).
      { rewrite G. unfold rem, rd at 1. rewrite ring_read_wrap by exact V. rewrite E3.
        replace (tx_rd x + k') with (tx_rd x + N.of_nat (N.to_nat k')) by lia. rewrite <- ring_read_app. f_equal. lia. }
      set (out := ring_read (txm x) (tx_size x) (tx_rd x) (N.to_nat k')) in *.
      exists (if k' =? 0 then l else l ++ [mkPacket (get16 (regs x) Sn_PORT)
           [regs x Sn_DIPR; regs x (Sn_DIPR + 1); regs x (Sn_DIPR + 2); regs x (Sn_DIPR + 3)]
           (get16 (regs x) Sn_DPORT) out]), (D ++ out), (ring_read (txm x) (tx_size x) rd (N.to_nat (sub16 p rd))).
      split; [|split; [|split]].
      + destruct (k' =? 0), ((sr x =? SOCK_UDP) || (sr x =? SOCK_MACRAW)), (k' =? sub16 (tx_end x) (tx_rd x)); sfields;
          first [exact E|rewrite E, <- app_assoc; reflexivity].
      + destruct (N.eqb_spec k' 0) as [K0|K0].
        * replace out with (@nil byte) by (unfold out; rewrite K0; reflexivity). now rewrite app_nil_r.
        * rewrite map_app. cbn [map p_data]. now constructor.
      + now rewrite EC, Eg, app_assoc.
      + right. revert Z. unfold pv, rem.
        assert (Q : forall y : sock, (tx_rd y = rd /\ (tx_ack y = tx_ack x \/ tx_ack y = rd) /\ tx_end y = tx_end x /\ txm y = txm x) ->
          tx_size y = tx_size x ->
          (p < 65536 /\ tx_rd y < 65536 /\ tx_ack y < 65536 /\ tx_end y < 65536 /\
           sub16 p (tx_ack y) = sub16 p (tx_end y) + (sub16 (tx_end y) (tx_rd y) + sub16 (tx_rd y) (tx_ack y))) /\
          sub16 p (tx_ack y) + n <= tx_size y /\
          ring_read (txm x) (tx_size x) rd (N.to_nat (sub16 p rd)) = ring_read (txm y) (tx_size y) (tx_rd y) (N.to_nat (sub16 p (tx_rd y)))).
        { intros y (Y1 & Y2 & Y3 & Y4) Y5. rewrite Y1, Y3, Y4, Y5. split; [|split; [|reflexivity]].
          - split; [exact P0|]. split; [exact Hm|]. destruct Y2 as [-> | ->].
            + split; [exact P2|]. split; [exact P3|]. lia.
            + split; [exact Hm|]. split; [exact P3|]. rewrite (sub16_self rd) by exact Hm. lia.
          - destruct Y2 as [-> | ->]; lia. }
        apply Q. clear. destruct (k' =? 0), ((sr x =? SOCK_UDP) || (sr x =? SOCK_MACRAW)), (k' =? sub16 (tx_end x) (tx_rd x)); sfields; auto 6.
    - (* given up *)
      destruct advance; [|apply (flow_same C p n x); [exact Z|exact Sr| |exact Sh| |exact F];
        clear; cbn [sock_step]; cbv zeta; destruct (tx_busy x), ((sr x =? SOCK_UDP) || (sr x =? SOCK_MACRAW)); sfields; auto 6].
      cbn [sock_step] in *. cbv zeta in *.
      destruct (tx_busy x) eqn:B; [|exact F].
      destruct ((sr x =? SOCK_UDP) || (sr x =? SOCK_MACRAW)) eqn:U.
      2: { apply (flow_same C p n x); [exact Z|exact Sr|reflexivity|exact Sh|left; split; reflexivity|exact F]. }
      destruct F as (V & T & l & D & g & E & Dr & EC & Alt).
      split; [exact V|]. split; [exact T|].
      assert (Ls : lossy = true).
      { destruct T as [T|(T1 & T2)]; [exact T|]. bsplit; contradiction. }
      destruct Alt as [(_ & Sh0)|((P0 & P1 & P2 & P3 & P4) & Rm & G)]; [congruence|].
      pose proof (valid_le _ V) as Hz.
      assert (E0 : sub16 p (tx_rd x) = sub16 p (tx_end x) + sub16 (tx_end x) (tx_rd x)) by (apply sub16_chain; auto; lia).
      exists l, (D ++ ring_read (txm x) (tx_size x) (tx_rd x) (N.to_nat (sub16 (tx_end x) (tx_rd x)))),
        (ring_read (txm x) (tx_size x) (tx_end x) (N.to_nat (sub16 p (tx_end x)))).
      split; [exact E|]. split; [now constructor|]. split.
      + rewrite EC, G, <- app_assoc. f_equal. unfold rem. rewrite E0.
        replace (N.to_nat (sub16 p (tx_end x) + sub16 (tx_end x) (tx_rd x))) with (N.to_nat (sub16 (tx_end x) (tx_rd x)) + N.to_nat (sub16 p (tx_end x)))%nat by lia.
        rewrite ring_read_app, N2Nat.id. f_equal. rewrite <- (ring_read_wrap _ _ (tx_rd x + _)) by exact V. now rewrite add_sub16.
      + right. unfold pv, rem. change (tx_size _) with (tx_size x) at 1 2. sfields.
        rewrite (sub16_self (tx_end x)) by exact P3. split; [|split; [lia|reflexivity]].
        split; [exact P0|]. split; [exact P3|]. split; [exact P3|]. split; [exact P3|]. lia.
    - (* acknowledgement *)
      destruct F as (V & T & l & D & g & E & Dr & EC & Alt).
      split; [exact V|]. split; [exact T|]. exists l, D, g. split; [exact E|]. split; [exact Dr|]. split; [exact EC|].
      destruct Alt as [Sh0|((P0 & P1 & P2 & P3 & P4) & Rm & G)]; [left; auto|right].
      cbn [sock_step]. unfold pv, rem. change (tx_size (set_tx_ack x _)) with (tx_size x). sfields.
      set (m := N.min k (sub16 (tx_rd x) (tx_ack x))).
      assert (Hm : m <= sub16 (tx_rd x) (tx_ack x)) by (unfold m; lia).
      rewrite (sub16_retire p (tx_ack x) m), (sub16_retire (tx_rd x) (tx_ack x) m) by (auto; lia).
      split; [|split; [lia|exact G]]. split; [exact P0|]. split; [exact P1|]. split; [apply N.mod_lt; discriminate|]. split; [exact P3|]. lia.
  Qed.

  Lemma flow_sevs i C p n x y : sevs i x y -> flow C p n x -> flow C p n y.
  Proof. apply sevs_inv. intros z ev _. apply flow_step. Qed.
  Lemma pipe_sevs i C x y : sevs i x y -> pipe C x -> pipe C y.
  Proof. intros H P. unfold pipe in *. destruct (sevs_wr _ _ _ H) as (-> & _). now apply (flow_sevs i _ _ _ x). Qed.
  Lemma pipe_less C n x : flow C (tx_wr x) n x -> pipe C x.
  Proof. apply flow_less. lia. Qed.
  Lemma pipe_shut C x w : shut x -> pipe C x -> pipe (C ++ w) x.
  Proof. intros Sh. now apply flow_shut. Qed.

  (** ** Writes that do not put anything into the buffer *)
  Lemma pipe_init C x m : lossy = true -> pipe C x -> pipe C (set_sr (init_pointers x) m).
  Proof.
    intros Ls (V & T & l & D & g & E & Dr & EC & _).
    destruct (init_pointers_facts x m) as (T1 & T2 & T3 & T4 & _ & _ & _ & B & O & Lg & Se & _ & Sr & Zt & _).
    set (y := set_sr (init_pointers x) m) in *.
    assert (Z0 : sub16 (tx_wr y) (tx_wr y) = 0) by now apply sub16_self.
    split; [now rewrite Zt|]. split; [now left|]. exists l, (D ++ g), []. split; [congruence|]. split; [now constructor|].
    split; [now rewrite app_nil_r|]. right. unfold pv, rem. rewrite T1, T2, T3, Z0. split; [auto 10|]. split; [lia|reflexivity].
  Qed.
  Lemma pipe_dialled C x v : pipe C x -> pipe C (set_dialled x v).
  Proof. apply flow_same; auto. Qed.
  Lemma pipe_command C i x c : (lossy = true \/ (c <> CR_OPEN /\ c <> CR_CONNECT)) ->
    pipe C x -> pipe C (do_command i x c).
  Proof.
    intros Hc P. unfold do_command.
    destruct (N.eqb_spec c CR_OPEN) as [-> |N1].
    { destruct Hc as [Ls|(Hc & _)]; [|now contradiction Hc].
      destruct (sr x =? SOCK_CLOSED); [|exact P]. cbv zeta.
      destruct (_ =? MR_TCP); [now apply pipe_init|]. destruct (_ =? MR_UDP); [now apply pipe_init|].
      destruct (_ && _); [now apply pipe_init|exact P]. }
    destruct (c =? CR_LISTEN).
    { destruct (sr x =? SOCK_INIT) eqn:Ei; [|exact P]. apply N.eqb_eq in Ei. unfold pipe in *. change (tx_wr (set_sr x _)) with (tx_wr x).
      revert P. apply flow_same; auto; [right; split; discriminate|]. intros (Sc & _). rewrite Ei in Sc. discriminate Sc. }
    destruct (N.eqb_spec c CR_CONNECT) as [-> |N2].
    { destruct Hc as [Ls|(_ & Hc)]; [|now contradiction Hc].
      destruct (sr x =? SOCK_INIT); [|exact P]. cbv zeta. apply pipe_dialled. now apply pipe_init. }
    destruct (c =? CR_DISCON).
    { destruct (sr x =? SOCK_ESTABLISHED) eqn:Ei; [|destruct (sr x =? SOCK_CLOSE_WAIT) eqn:Ej; [|exact P]]; unfold pipe in *;
        change (tx_wr (set_sr x _)) with (tx_wr x); revert P; apply flow_same; auto; try (right; split; discriminate);
        intros (Sc & _); rewrite Sc in *; discriminate. }
    destruct (c =? CR_CLOSE).
    { unfold pipe in *. change (tx_wr (set_tx_okdue _ _)) with (tx_wr x). revert P.
      apply flow_same; [reflexivity|right; split; discriminate|reflexivity|intros _; split; reflexivity|left; split; reflexivity]. }
    destruct (c =? CR_SEND).
    { destruct (is_sending_state (sr x)) eqn:Is; [|exact P].
      destruct P as (V & T & l & D & g & E & Dr & EC & Alt). split; [exact V|]. split; [exact T|].
      exists l, D, g. split; [exact E|]. split; [exact Dr|]. split; [exact EC|].
      destruct Alt as [(Sc & _)|((P0 & P1 & P2 & P3 & P4) & Rm & G)]; [rewrite Sc in Is; discriminate Is|right].
      unfold pv, rem. change (tx_wr (set_tx_okdue _ _)) with (tx_wr x). change (tx_size (set_tx_okdue _ _)) with (tx_size x). sfields.
      split; [|split; [exact Rm|exact G]]. pose proof (valid_le _ V).
      assert (E0 : sub16 (tx_wr x) (tx_rd x) = sub16 (tx_wr x) (tx_end x) + sub16 (tx_end x) (tx_rd x)) by (apply sub16_chain; auto; lia).
      split; [exact P0|]. split; [exact P1|]. split; [exact P2|]. split; [exact P0|].
      rewrite (sub16_self (tx_wr x)) by exact P0. lia. }
    destruct (c =? CR_RECV); [|exact P]. unfold pipe in *. change (tx_wr (set_rx_base x _)) with (tx_wr x). revert P. now apply flow_same; auto.
  Qed.
  Lemma pipe_reg C x a v : a <> Sn_TX_WR -> a <> Sn_TX_WR + 1 -> a <> Sn_TXBUF_SIZE -> pipe C x -> pipe C (set_regs x (upd (regs x) a v)).
  Proof.
    intros H1 H2 H3 P.
    assert (Ez : tx_size (set_regs x (upd (regs x) a v)) = tx_size x).
    { unfold tx_size, upd. sfields. destruct (N.eqb_spec Sn_TXBUF_SIZE a); [congruence|reflexivity]. }
    assert (Ew : tx_wr (set_regs x (upd (regs x) a v)) = tx_wr x).
    { unfold tx_wr, get16, upd. sfields. destruct (N.eqb_spec Sn_TX_WR a); [congruence|]. destruct (N.eqb_spec (Sn_TX_WR + 1) a); [congruence|reflexivity]. }
    unfold pipe in *. rewrite Ew. revert P. apply flow_same; auto.
  Qed.

  (** a byte that is written anywhere but into socket [i]'s TX memory, write pointer and buffer size *)
  Definition harmless (i blk a : N) (v : byte) : Prop :=
    blk <> BSB_TX i /\
    (blk = BSB_REG i -> a <> Sn_TX_WR /\ a <> Sn_TX_WR + 1 /\ a <> Sn_TXBUF_SIZE /\
       (a = Sn_CR -> lossy = true \/ (b2n v <> CR_OPEN /\ b2n v <> CR_CONNECT))).
  Lemma blk_cases i blk : blk <> 0 -> blk / 4 = i ->
    (blk mod 4 = 1 /\ blk = BSB_REG i) \/ (blk mod 4 = 2 /\ blk = BSB_TX i) \/ (blk mod 4 = 3 /\ blk = BSB_RX i) \/ blk mod 4 = 0.
  Proof. intros H E. unfold BSB_REG, BSB_TX, BSB_RX. lia. Qed.
  Lemma pipe_wbyte C i c blk a v : harmless i blk a v -> pipe C (socks c i) -> pipe C (socks (wbyte c blk a v) i).
  Proof.
    intros (H1 & H2) P. unfold wbyte. destruct (N.eqb_spec blk 0) as [-> |Hb].
    { destruct (a =? MR); [|now destruct (a =? VERSIONR)]. destruct (N.testbit (b2n v) 7); [|exact P].
      cbn [chip_reset socks]. destruct P as (V & T & l & D & g & E & Dr & EC & _).
      split; [right; left; reflexivity|]. split; [right; split; discriminate|]. exists l, D, g.
      split; [exact E|]. split; [exact Dr|]. split; [exact EC|]. left. split; reflexivity. }
    cbv zeta. destruct (N.eq_dec (blk / 4) i) as [Ei|Ei].
    2: { assert (S : forall x, socks (set_sock c (blk / 4) x) i = socks c i).
         { intros x. unfold set_sock. cbn [socks]. destruct (N.eqb_spec i (blk / 4)); [congruence|reflexivity]. }
         destruct (blk mod 4) as [|[[[]|[]|]|[[]|[]|]|]]; rewrite ?S; try exact P;
           match goal with |- context [if ?b then _ else _] => destruct b end; rewrite ?S; exact P. }
    rewrite Ei. assert (S : forall x, socks (set_sock c i x) i = x).
    { intros x. unfold set_sock. cbn [socks]. now rewrite N.eqb_refl. }
    destruct (blk_cases i blk Hb Ei) as [(Em & Eb)|[(_ & Eb)|[(Em & _)|Em]]]; [|contradiction|rewrite Em|now rewrite Em].
    - rewrite Em, S. destruct (H2 Eb) as (A1 & A2 & A3 & A4). unfold sock_wr.
      destruct (N.eqb_spec a Sn_CR) as [Ea|_]; [apply pipe_command; auto|].
      destruct (a =? Sn_IR); [unfold pipe in *; change (tx_wr (set_ir _ _)) with (tx_wr (socks c i)); revert P; apply flow_same; auto|].
      destruct (read_only a); [exact P|]. now apply pipe_reg.
    - destruct (rx_size (socks c i) =? 0); [exact P|]. rewrite S. unfold pipe in *. change (tx_wr (set_rxm _ _)) with (tx_wr (socks c i)).
      revert P. apply flow_same; auto.
  Qed.

  (** ** Putting [w] into the buffer at [p]: [k] bytes are there, the write pointer still is [p] *)
  Definition stage (C : list byte) (p : N) (w : list byte) (k : nat) (x : sock) : Prop :=
    flow C p (len w) x /\
    (shut x \/ (tx_wr x = p /\ ring_read (txm x) (tx_size x) p k = firstn k w)).
  Lemma stage_step C p w k x ev : stage C p w k x -> stage C p w k (sock_step x ev).
  Proof.
    intros (F & H). split; [now apply flow_step|]. destruct H as [Sh|(H1 & H2)]; [left; now apply shut_step|right].
    assert (R : regs (sock_step x ev) = regs x) by (ev_cases ev; auto).
    assert (M : txm (sock_step x ev) = txm x) by (ev_cases ev; auto).
    unfold tx_wr, tx_size in *. now rewrite R, M.
  Qed.
  Lemma stage_sevs i C p w k x y : sevs i x y -> stage C p w k x -> stage C p w k y.
  Proof. apply sevs_inv. intros z ev _. apply stage_step. Qed.
  Lemma stage_pipe C p w k x : stage C p w k x -> pipe C x.
  Proof.
    intros (F & [Sh|(<- & _)]); [|now apply pipe_less in F].
    unfold pipe. rewrite <- (app_nil_r C). now apply (flow_shut C p (len w)).
  Qed.
  Lemma stage_byte i C p w k c b : stage C p w k (socks c i) -> nth_error w k = Some b ->
    stage C p w (S k) (socks (wbyte c (BSB_TX i) ((p + N.of_nat k) mod 65536) b) i).
  Proof.
    intros (F & H) Hb. pose proof F as (V & T & l & D & g & E & Dr & EC & Alt).
    rewrite wbyte_tx by now apply valid_pos. set (x := socks c i) in *.
    assert (K : N.of_nat k < len w) by (unfold len; assert (k < length w)%nat by (apply nth_error_Some; congruence); lia).
    set (x' := set_txm x _).
    assert (Ez : tx_size x' = tx_size x) by reflexivity.
    destruct H as [Sh|(H1 & H2)].
    { split; [|left; exact Sh]. revert F. now apply flow_same; auto. }
    destruct Alt as [Sh|((P0 & P1 & P2 & P3 & P4) & Rm & G)].
    { split; [|left; exact Sh]. revert F. now apply flow_same; auto. }
    pose proof (valid_pos _ V) as Hz. pose proof (valid_le _ V) as Hz'.
    assert (Em : txm x' = ring_write (txm x) (tx_size x) ((p + N.of_nat k) mod 65536) [b]) by reflexivity.
    rewrite ring_write_wrap in Em by exact V.
    split.
    - split; [exact V|]. split; [exact T|]. exists l, D, g. split; [exact E|]. split; [exact Dr|]. split; [exact EC|]. right.
      split; [unfold pv; auto 10|]. split; [exact Rm|]. rewrite G. unfold rem. rewrite Ez. change (tx_rd x') with (tx_rd x). rewrite Em.
      assert (E0 : sub16 p (tx_rd x) <= sub16 p (tx_ack x)).
      { assert (sub16 p (tx_rd x) = sub16 p (tx_end x) + sub16 (tx_end x) (tx_rd x)) by (apply sub16_chain; auto; lia). lia. }
      assert (Ep : ring_write (txm x) (tx_size x) (p + N.of_nat k) [b] =
                   ring_write (txm x) (tx_size x) (tx_rd x + sub16 p (tx_rd x) + N.of_nat k) [b]).
      { rewrite <- (ring_write_wrap _ _ (tx_rd x + sub16 p (tx_rd x) + N.of_nat k)) by exact V.
        rewrite <- N.add_mod_idemp_l, add_sub16 by (auto; discriminate). now rewrite ring_write_wrap by exact V. }
      rewrite Ep. symmetry. apply ring_read_write_before; [exact Hz|lia|lia|]. rewrite len_cons. change (len []) with 0. lia.
    - right. split; [exact H1|]. rewrite Ez. replace (S k) with (k + 1)%nat by lia. rewrite ring_read_app.
      rewrite Em. rewrite ring_read_write_before; [|exact Hz|lia|lia|rewrite len_cons; change (len []) with 0; lia].
      rewrite H2. change 1%nat with (length [b]). rewrite ring_read_write_same; [|exact Hz|rewrite len_cons; change (len []) with 0; lia].
      clear - Hb. revert k Hb. induction w as [|c w IH]; intros [|k] Hb; cbn in *; try discriminate; [congruence|]. f_equal. now apply IH.
  Qed.
  Lemma stage_bytes e i C p w : forall d k s a, stage C p w k (sk i s) -> a = (p + N.of_nat k) mod 65536 ->
    firstn (length d) (skipn k w) = d ->
    stage C p w (k + length d) (sk i (write_bytes e (BSB_TX i) a d s)).
  Proof.
    induction d as [|b d IH]; intros k s a H Ea Ed; cbn [write_bytes length] in *; [now rewrite Nat.add_0_r|].
    assert (Hb : nth_error w k = Some b).
    { destruct (skipn k w) as [|c r] eqn:Es; [discriminate|]. cbn in Ed. injection Ed as -> Ed.
      rewrite <- (firstn_skipn k w), Es. assert (L : length (firstn k w) = k).
      { rewrite firstn_length. assert (length (skipn k w) <> 0)%nat by (rewrite Es; discriminate). rewrite skipn_length in *. lia. }
      rewrite nth_error_app2, L, Nat.sub_diag by lia. reflexivity. }
    replace (k + S (length d))%nat with (S k + length d)%nat by lia. apply IH.
    - unfold sk, on_chip. cbn [s_chip]. subst a. apply stage_byte; [|exact Hb]. apply (stage_sevs i _ _ _ _ (sk i s)); [apply tick_sevs|exact H].
    - unfold next_addr. rewrite Ea, N.add_mod_idemp_l by discriminate. f_equal. lia.
    - replace (S k) with (1 + k)%nat by lia. 
      destruct (skipn k w) as [|c r] eqn:Es; [discriminate|]. cbn in Ed. injection Ed as -> Ed.
      assert (X : skipn (S k) w = r).
      { clear - Es. revert k Es. induction w as [|y w IH]; intros [|k] Es; cbn in *; try discriminate; [congruence|now apply IH]. }
      change (1 + k)%nat with (S k). rewrite X. exact Ed.
  Qed.
  (** the write pointer moved over [w] *)
  Lemma stage_done C p w x : stage C p w (length w) x ->
    flow (C ++ w) ((p + len w) mod 65536) 0 x.
  Proof.
    intros (F & H). pose proof F as (V & T & l & D & g & E & Dr & EC & Alt).
    destruct H as [Sh|(H1 & H2)]; [now apply (flow_shut C p (len w))|].
    destruct Alt as [Sh|((P0 & P1 & P2 & P3 & P4) & Rm & G)]; [now apply (flow_shut C p (len w))|].
    pose proof (valid_le _ V) as Hz'. rewrite firstn_all in H2.
    split; [exact V|]. split; [exact T|]. exists l, D, (g ++ w). split; [exact E|]. split; [exact Dr|]. split; [now rewrite EC, app_assoc|].
    right. set (p' := (p + len w) mod 65536).
    assert (Hp : p' < 65536) by (apply N.mod_lt; discriminate).
    assert (E0 : sub16 p (tx_rd x) = sub16 p (tx_end x) + sub16 (tx_end x) (tx_rd x)) by (apply sub16_chain; auto; lia).
    assert (A1 : sub16 p' (tx_ack x) = sub16 p (tx_ack x) + len w) by (apply sub16_advance; auto; lia).
    assert (A2 : sub16 p' (tx_end x) = sub16 p (tx_end x) + len w) by (apply sub16_advance; auto; lia).
    assert (A3 : sub16 p' (tx_rd x) = sub16 p (tx_rd x) + len w) by (apply sub16_advance; auto; lia).
    split; [|split].
    - split; [exact Hp|]. split; [exact P1|]. split; [exact P2|]. split; [exact P3|]. lia.
    - lia.
    - rewrite G. unfold rem. rewrite A3. replace (N.to_nat (sub16 p (tx_rd x) + len w)) with (N.to_nat (sub16 p (tx_rd x)) + length w)%nat by (unfold len; lia).
      rewrite ring_read_app, N2Nat.id. f_equal. rewrite <- H2 at 1.
      rewrite <- (ring_read_wrap _ _ (tx_rd x + _)) by exact V. now rewrite add_sub16.
  Qed.
  Lemma flow_txwr C p n x m : (forall a, a <> Sn_TX_WR -> a <> Sn_TX_WR + 1 -> m a = regs x a) -> flow C p n x -> flow C p n (set_regs x m).
  Proof.
    intros Hm. apply flow_same; auto. unfold tx_size. sfields. now rewrite Hm by discriminate.
  Qed.
End Flow.
