(** The driver never gives LISTEN or DISCON: the states a socket is ever in. *)
From Verif Require Import Datasheet Life LifeFacts LifeWire Commands Dial LifeCalls RawStays NetFacts.

(** ** States *)
Definition plain_state (v : N) : Prop :=
  In v [SOCK_CLOSED; SOCK_INIT; SOCK_SYNSENT; SOCK_ESTABLISHED; SOCK_CLOSE_WAIT; SOCK_UDP; SOCK_MACRAW].
Definition plain_chip (c : chip) : Prop := forall n, plain_state (sr (socks c n)).
Definition nobye (blk a : N) (v : byte) : Prop :=
  blk mod 4 = 1 -> a = Sn_CR -> b2n v <> CR_LISTEN /\ b2n v <> CR_DISCON.

Ltac plain := unfold plain_state; cbn; tauto.
Lemma append_sr x d : sr (rx_append x d) = sr x.
Proof. unfold rx_append. now destruct (_ <=? _). Qed.
Lemma transmit_sr x k : sr (transmit x k) = sr x.
Proof. unfold transmit. repeat match goal with |- context [if ?b then _ else _] => destruct b end; reflexivity. Qed.
Lemma plain_step x ev : plain_state (sr x) -> plain_state (sr (sock_step x ev)).
Proof.
  intros H. destruct ev; cbn [sock_step]; rewrite ?transmit_sr;
    repeat match goal with |- context [if ?b then _ else _] => destruct b end; rewrite ?append_sr; cbn [set_ir set_sr set_tx_okdue set_tx_busy set_tx_ack set_tx_rd sr];
    try exact H; try plain.
Qed.
Lemma plain_cmd n x c : c <> CR_LISTEN -> c <> CR_DISCON -> plain_state (sr x) -> plain_state (sr (do_command n x c)).
Proof.
  intros H1 H2 H. apply N.eqb_neq in H1, H2. unfold do_command. rewrite H1, H2. cbv zeta.
  repeat match goal with |- context [if ?b then _ else _] => destruct b end;
    cbn [set_sr set_tx_okdue set_tx_busy set_tx_end set_rx_base set_dialled sr]; try exact H; plain.
Qed.
Lemma plain_nstep c ev : plain_chip c -> plain_chip (nstep c ev).
Proof.
  intros H n. unfold nstep. destruct (ev_sock ev) as [m|]; [|destruct ev; apply H].
  cbn [set_sock socks]. destruct (n =? m) eqn:E; [|apply H]. apply plain_step, H.
Qed.
Lemma plain_wbyte c blk a v : nobye blk a v -> plain_chip c -> plain_chip (wbyte c blk a v).
Proof.
  intros NB H n. unfold wbyte. destruct (blk =? 0).
  { destruct (a =? MR); [destruct (N.testbit _ 7)|destruct (a =? VERSIONR)]; try apply H. cbn [chip_reset socks sock_reset sr]. plain. }
  cbv zeta. destruct (blk mod 4) as [|[[p|p|]|[p|p|]|]] eqn:M; try apply H.
  - destruct (rx_size _ =? 0); [apply H|]. cbn [set_sock socks]. destruct (n =? blk / 4); [cbn [set_rxm sr]|]; apply H.
  - destruct (tx_size _ =? 0); [apply H|]. cbn [set_sock socks]. destruct (n =? blk / 4); [cbn [set_txm sr]|]; apply H.
  - cbn [set_sock socks]. destruct (n =? blk / 4); [|apply H]. unfold sock_wr.
    destruct (N.eqb_spec a Sn_CR) as [Ea|Ea]; [|destruct (a =? Sn_IR); [apply H|]; destruct (read_only a); apply H].
    destruct (NB M Ea) as (N1 & N2). apply plain_cmd; auto.
Qed.
Lemma run_plain {A} e (p : prog A) s : mild nobye p -> plain_chip (s_chip s) -> plain_chip (s_chip (snd (run e p s))).
Proof. intros M. apply (run_inv nobye e plain_chip); auto using plain_nstep, plain_wbyte. Qed.

(** ** Programs *)
Definition cmds (l : list N) (b a : N) (d : list byte) : Prop :=
  forall i, b = BSB_REG i -> a + len d <= Sn_CR \/ (Sn_CR < a /\ a + len d <= 65536) \/ (a = Sn_CR /\ exists c, In c l /\ d = [u8 c]).
Lemma cmds_mild {A} l (p : prog A) : ~ In CR_LISTEN l -> ~ In CR_DISCON l -> (forall c, In c l -> c < 256) -> writes (cmds l) p -> mild nobye p.
Proof.
  intros L1 L2 Hb. induction p as [a|w| |b a d k IH|b a d k IH]; cbn [writes mild]; intros H; auto. destruct H as [H1 H2]. split; [|auto].
  destruct (N.eq_dec (b mod 4) 1) as [Hm|Hm]; [|apply each_all; intros a' v E; contradiction].
  assert (Eb : b = BSB_REG (b / 4)) by (unfold BSB_REG; pose proof (N.div_mod b 4 ltac:(discriminate)); lia).
  destruct (H1 _ Eb) as [C|[(C1 & C2)|(C1 & c & Hc & ->)]]; clear H1 IH H2.
  - assert (X : forall d a, a + len d <= Sn_CR -> each nobye b a d).
    { clear. induction d as [|v d IH]; intros a Ha; cbn [each]; [exact I|]. unfold len in Ha. cbn [length] in Ha. unfold Sn_CR in Ha.
      split; [intros _ E; unfold Sn_CR in E; lia|]. apply IH. unfold next_addr, len, Sn_CR. rewrite N.mod_small by lia. lia. }
    now apply X.
  - assert (X : forall d a, Sn_CR < a -> a + len d <= 65536 -> each nobye b a d).
    { clear. induction d as [|v d IH]; intros a Ha Hb; cbn [each]; [exact I|]. unfold len in Hb. cbn [length] in Hb. unfold Sn_CR in Ha.
      split; [intros _ E; unfold Sn_CR in E; lia|].
      destruct d as [|w d]; [exact I|]. cbn [length] in Hb. apply IH; unfold next_addr, len, Sn_CR; cbn [length]; rewrite N.mod_small by lia; lia. }
    now apply X.
  - cbn [each]. split; [|exact I]. intros _ _. rewrite b2n_u8, N.mod_small by now apply Hb. split; intros E; subst c; contradiction.
Qed.
(** the program gives neither of the two commands itself *)
Definition no_bye (q : lop) : Prop :=
  forall h c, q = LCall (OpSocket h (KCommand c)) -> c <> CmListen /\ c <> CmDiscon.
Lemma no_bye_commands q : no_bye q -> ~ In CR_LISTEN (life_commands q) /\ ~ In CR_DISCON (life_commands q) /\ forall c, In c (life_commands q) -> c < 256.
Proof.
  intros H. destruct q as [u|k m|mc|o|o| | | |k|k]; cbn [life_commands]; try (split; [now intros []|split; [now intros []|now intros c []]]).
  - split; [|split]; [| |apply op_commands_small]; destruct o; cbn [op_commands]; try (now intros []); try (intros E; cbn in E; intuition discriminate).
    + destruct q; try (now intros []). destruct (H _ _ eq_refl) as (H1 & H2). destruct c; intros [E|[]]; try discriminate E; congruence.
    + destruct q; try (now intros []). destruct (H _ _ eq_refl) as (H1 & H2). destruct c; intros [E|[]]; try discriminate E; congruence.
  - destruct o; cbn [raw_commands]; (split; [|split]); try (now intros []); try (intros [E|[]]; discriminate E); try (now intros c []); intros c [<-|[]]; reflexivity.
Qed.
Lemma lstep_nobye chk fuel l q : wired l -> no_bye q -> mild nobye (lstep chk fuel l q).
Proof.
  intros W NB. destruct (no_bye_commands q NB) as (H1 & H2 & H3).
  assert (K : forall j, (forall mc, q <> LInitRaw mc) ->
     (forall o h y, q = LCall o -> op_handle o = Some h -> lookup h (lhandles l) = Some y -> j = index (handle_socket y)) ->
     (forall o, q = LRawCall o -> j = 0) -> mild nobye (lstep chk fuel l q)).
  { intros j N J1 J2. apply (cmds_mild (life_commands q)); auto. eapply writes_mono; [|apply (cw_lstep_at chk fuel l q j W N J1 J2)].
    intros b a d Hc i E. exact (proj2 (Hc i E)). }
  destruct q as [u|k m|mc|o|o| | | |k|k]; try (apply (K 0); congruence).
  - apply (cmds_mild [CR_OPEN]); try (intros [E|[]]; discriminate E); [intros c [<-|[]]; reflexivity|].
    eapply writes_mono; [|apply (macw_lstep chk fuel l mc)]. intros b a d Hc i E. destruct (Hc i E) as (_ & [C|[C|(_ & C & D)]]); auto.
    right. right. split; [exact C|]. exists CR_OPEN. split; [now left|exact D].
  - destruct (op_handle o) as [h|] eqn:Eh; [|apply (K 0); congruence].
    destruct (lookup h (lhandles l)) as [y|] eqn:L; [|apply (K 0); congruence].
    apply (K (index (handle_socket y))); congruence.
Qed.
Lemma life_nobye_run e chk fuel : forall ops l s, wired l -> Forall no_bye ops -> plain_chip (s_chip s) ->
  plain_chip (s_chip (snd (run e (run_life chk fuel l ops) s))).
Proof.
  induction ops as [|q ops IH]; intros l s W F H; cbn [run_life]; [exact H|]. inversion F as [|? ? F1 F2]; subst.
  pose proof (run_plain e _ s (lstep_nobye chk fuel l q W F1) H) as P.
  rewrite run_bind. destruct (run e (lstep chk fuel l q) s) as [[[l1 o1]| | |] s1] eqn:R; cbn [fst snd] in *; try exact P.
  assert (Wl : wired l1).
  { destruct (run_exec e (lstep chk fuel l q) s _ _ R) as (tr & X). exact (proj2 (ptree_exec _ _ _ _ _ _ (pt_lstep chk fuel l q W) X)). }
  specialize (IH l1 s1 Wl F2 P). rewrite run_bind. destruct (run e (run_life chk fuel l1 ops) s1) as [[| | |] s2]; exact IH.
Qed.
