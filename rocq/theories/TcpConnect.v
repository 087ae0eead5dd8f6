(** TCP connect against the chip. *)
From Verif Require Export OpenFacts.
From Verif Require Import Datasheet ValueFacts.

Lemma u8_small n : n < 256 -> b2n (u8 n) = n.
Proof. intros H. rewrite b2n_u8. now apply N.mod_small. Qed.

(** the status byte the driver sees while a connection attempt is under way *)
Lemma status_tcp x : tcp_states x ->
  (x = SOCK_CLOSED /\ status_try_from (u8 x) = Some StClosed) \/
  (x = SOCK_SYNSENT /\ status_try_from (u8 x) = Some StSynSent) \/
  (x = SOCK_ESTABLISHED /\ status_try_from (u8 x) = Some StEstablished) \/
  (x = SOCK_CLOSE_WAIT /\ status_try_from (u8 x) = Some StCloseWait).
Proof. intros [-> | [-> | [-> | ->]]]; auto. Qed.

(** the socket after CONNECT *)
Definition dial_entry (x : sock) : N * list byte * N :=
  (get16 (regs x) Sn_PORT,
   [regs x Sn_DIPR; regs x (Sn_DIPR + 1); regs x (Sn_DIPR + 2); regs x (Sn_DIPR + 3)],
   get16 (regs x) Sn_DPORT).
Definition dialled_of (x : sock) : sock :=
  set_dialled (set_sr (init_pointers x) SOCK_SYNSENT) (dialled x ++ [dial_entry x]).
Lemma do_connect i x : sr x = SOCK_INIT -> do_command i x (command_u8 CmConnect) = dialled_of x.
Proof. intros H. unfold do_command. rewrite H. reflexivity. Qed.

(** registers when CONNECT is issued *)
Definition dial_regs (port : N) (r : addr4) (m : N -> byte) : N -> byte :=
  puts (puts (open_regs (Some port) MR_TCP m) Sn_DIPR (octets (a_ip r))) Sn_DPORT (to_be (a_port r)).

Section Connect.
  Context (e : env) (i : N).
  Hypothesis NF : no_faults e.
  Hypothesis Hi : i < 8.
  Let t := mkTcp (socket_new i).

  Lemma wp_tcp_socket_close (Q : outcome (res unit terr) -> sys -> Prop) s : idle (sk i s) ->
    (forall y z s1, sevs i (sk i s) y -> sevs i (set_regs y (puts (regs y) Sn_MR [u8 MR_CLOSE])) z ->
       sk i s1 = closed_of z -> Q (Done (Ok tt)) s1) ->
    wp e (tcp_socket_close (mkTcp (socket_new i))) Q s.
  Proof.
    intros I H. unfold tcp_socket_close. cbn [t_socket].
    apply wp_try, wp_set_mode; auto. intros y s1 N1 E1. cbv beta iota.
    apply wp_try, wp_command; auto. intros z s2 N2 E2. cbv beta iota. apply wp_ret.
    rewrite E1 in N2. exact (H y z s2 N1 N2 E2).
  Qed.

  (** after a failed attempt: closed and re-opened *)
  Definition reopened (x s1 : sock) : Prop := exists y, 
    s1 = opened y (open_regs None MR_TCP (regs y)) SOCK_INIT /\
    dialled y = dialled x /\ sent y = sent x /\
    (forall a, a <> Sn_MR -> regs y a = regs x a).

  Lemma wp_connect_wait (Q : outcome (res unit terr) -> sys -> Prop) : forall fuel s,
    idle (sk i s) -> tcp_states (sr (sk i s)) ->
    (forall s1, sevs i (sk i s) (sk i s1) -> sr (sk i s1) = SOCK_ESTABLISHED -> Q (Done (Ok tt)) s1) ->
    (forall x s1, sevs i (sk i s) x -> sr x = SOCK_CLOSED -> reopened (sk i s) (sk i s1) -> Q (Done (Ok tt)) s1) ->
    (forall s1, sevs i (sk i s) (sk i s1) -> Q Looping s1) ->
    wp e (tcp_connect_wait fuel (mkTcp (socket_new i))) Q s.
  Proof.
    induction fuel as [|fuel IH]; intros s I T H1 H2 H3; cbn [tcp_connect_wait].
    { apply H3. apply sevs_refl. }
    cbn [t_socket]. apply wp_try, wp_get_status; auto. intros s1 N1. cbv beta iota.
    pose proof (sevs_tcp _ _ _ N1 T) as T1. destruct (sevs_idle _ _ _ N1 I) as (I1 & _).
    assert (Again : wp e (tcp_connect_wait fuel (mkTcp (socket_new i))) Q s1).
    { apply IH; auto.
      - intros s2 N2. apply H1. eapply sevs_trans; eauto.
      - intros x s2 N2 Hx (y & Y1 & Y2 & Y3 & Y4). apply (H2 x); [eapply sevs_trans; eauto|exact Hx|].
        exists y. split; [exact Y1|]. destruct (sevs_idle _ _ _ N1 I) as (_ & _ & _ & Es).
        split; [rewrite Y2; now apply (sevs_dialled i)|]. split; [congruence|].
        intros a Ha. rewrite Y4 by exact Ha. now rewrite (sevs_regs i _ _ N1).
      - intros s2 N2. apply H3. eapply sevs_trans; eauto. }
    destruct (status_tcp _ T1) as [(E & ->)|[(E & ->)|[(E & ->)|(E & ->)]]]; auto.
    - (* closed: the attempt failed *)
      apply wp_try, wp_tcp_socket_close; auto. intros y z s2 N2 N3 E2. cbv beta iota.
      apply wp_tcp_reopen; auto. intros x s3 N4 E3. apply (H2 (sk i s1)); auto.
      assert (Qz : quietst (sk i s2)) by (rewrite E2; apply quiet_closed).
      destruct (quiet_sevs _ _ _ Qz N4) as (a & ->). rewrite E2 in E3.
      assert (Ny : sevs i (sk i s) y) by (eapply sevs_trans; eauto).
      destruct (sevs_idle _ _ _ Ny I) as (Iy & _ & _ & Sy).
      destruct (sevs_idle _ _ _ N3 Iy) as (_ & _ & _ & Sz).
      exists (set_tx_ack (closed_of z) a). split; [exact E3|].
      split. { change (dialled z = dialled (sk i s)). rewrite (sevs_dialled _ _ _ N3). exact (sevs_dialled _ _ _ Ny). }
      split. { change (sent z = sent (sk i s)). rewrite Sz. exact Sy. }
      intros b Hb. change (regs z b = regs (sk i s) b). rewrite (sevs_regs _ _ _ N3). sfields.
      rewrite (sevs_regs _ _ _ Ny). apply puts_other. unfold Sn_MR in *. change (len [u8 MR_CLOSE]) with 1. lia.
    - apply wp_ret. now apply H1.
  Qed.

  (** everything up to the wait for an answer *)
  Definition dial_state (r : addr4) (x : sock) : sock :=
    dialled_of (set_regs (opened x (open_regs (Some (49849 + i)) MR_TCP (regs x)) SOCK_INIT)
      (puts (puts (regs (opened x (open_regs (Some (49849 + i)) MR_TCP (regs x)) SOCK_INIT))
         Sn_DIPR (octets (a_ip r))) Sn_DPORT (to_be (a_port r)))).
  Lemma wp_tcp_connect_pre fuel r (Q : outcome (res unit (nberr terr)) -> sys -> Prop) s :
    (forall x s5, sevs i (sk i s) x -> sk i s5 = dial_state r x ->
       wp e (tcp_connect_wait fuel (mkTcp (socket_new i))) (fun o s' =>
         match o with
         | Done (Ok a) => Q (Done (Ok tt)) s'
         | Done (Err x) => Q (Done (Err (NbOther x))) s'
         | o => Q (cast o) s'
         end) s5) ->
    wp e (tcp_connect fuel (mkTcp (socket_new i)) (V4 r)) Q s.
  Proof.
    intros H. unfold tcp_connect. cbn [t_socket].
    apply wp_try. change (index (socket_new i)) with i. apply wp_tcp_open; auto. intros x s1 N1 E1. cbv beta iota.
    set (rg := open_regs (Some (49849 + i)) MR_TCP (regs x)) in *.
    assert (Q1 : quietst (opened x rg SOCK_INIT)).
    { split; [now right|]. destruct (opened_tx x rg SOCK_INIT) as (_ & _ & _ & _ & _ & _ & _ & A & B & _). split; assumption. }
    destruct (opened_tx x rg SOCK_INIT) as (O1 & O2 & _ & O3 & _).
    assert (Ex : forall y, sevs i (opened x rg SOCK_INIT) y -> y = opened x rg SOCK_INIT).
    { intros y. apply quiet_sevs_exact; auto; congruence. }
    apply wp_try. unfold tcp_socket_connect. cbn [t_socket].
    apply wp_try, wp_get_status; auto. intros s2 N2. cbv beta iota. rewrite E1 in N2. apply Ex in N2.
    rewrite N2. change (status_try_from (u8 (sr (opened x rg SOCK_INIT)))) with (Some StInit). cbv iota.
    unfold tcp_do_connect. cbn [t_socket].
    apply wp_try, wp_set_destination_ip; auto; [rewrite N2; apply Q1|]. intros y3 s3 N3 E3. cbv beta iota.
    rewrite N2 in N3. apply Ex in N3. subst y3.
    set (x3 := sk i s3) in *.
    assert (Ex3 : forall y, sevs i x3 y -> y = x3).
    { intros y Hy. rewrite E3 in Hy |- *. destruct (sevs_set_regs i _ _ _ (puts_sizes (octets (a_ip r)) (regs (opened x rg SOCK_INIT)) Sn_DIPR ltac:(reflexivity)) (proj1 (proj2 Q1)) Hy) as (z & Z1 & Z2).
      apply Ex in Z1. rewrite Z2, Z1. reflexivity. }
    apply wp_try, wp_set_destination_port; auto; [fold x3; rewrite E3; apply Q1|]. intros y4 s4 N4 E4. cbv beta iota.
    fold x3 in N4. apply Ex3 in N4. subst y4.
    assert (Ex4 : forall y, sevs i (sk i s4) y -> y = sk i s4).
    { intros y Hy. rewrite E4 in Hy |- *. destruct (sevs_set_regs i _ _ _ (puts_sizes (to_be (a_port r)) (regs x3) Sn_DPORT ltac:(reflexivity)) ltac:(rewrite E3; apply Q1) Hy) as (z & Z1 & Z2).
      apply Ex3 in Z1. rewrite Z2, Z1. reflexivity. }
    apply wp_try, wp_command; auto. intros y5 s5 N5 E5. cbv beta iota. apply Ex4 in N5. subst y5.
    rewrite do_connect in E5 by (rewrite E4, E3; cbn [sr set_regs]; reflexivity).
    eapply wp_mono; [|apply (H x s5 N1)].
    - intros [[u|x0]| | |] s6 H6; try exact H6; try (apply wp_ret; exact H6).
    - unfold dial_state. fold rg. rewrite E5, E4, E3, upd_regs_set. cbn [regs set_regs]. reflexivity.
  Qed.

  Lemma wp_tcp_connect fuel r (Q : outcome (res unit (nberr terr)) -> sys -> Prop) s :
    (forall x s1, sevs i (sk i s) x -> let y := dial_state r x in
       (sevs i y (sk i s1) -> sr (sk i s1) = SOCK_ESTABLISHED -> Q (Done (Ok tt)) s1) /\
       (forall z, sevs i y z -> sr z = SOCK_CLOSED -> reopened y (sk i s1) -> Q (Done (Ok tt)) s1) /\
       (sevs i y (sk i s1) -> Q Looping s1)) ->
    wp e (tcp_connect fuel (mkTcp (socket_new i)) (V4 r)) Q s.
  Proof.
    intros H. apply wp_tcp_connect_pre. intros x s5 N1 E5.
    apply wp_connect_wait.
    - rewrite E5. reflexivity.
    - rewrite E5. right. now left.
    - intros s6 N6 Hs. rewrite E5 in N6. destruct (H x s6 N1) as (H1 & _). now apply H1.
    - intros z s6 N6 Hz Hr. rewrite E5 in N6, Hr. destruct (H x s6 N1) as (_ & H2 & _). now apply (H2 z).
    - intros s6 N6. rewrite E5 in N6. destruct (H x s6 N1) as (_ & _ & H3). now apply H3.
  Qed.

  (** ** Termination *)
  Lemma wp_get_status_exact (R : outcome (res byte berr) -> sys -> Prop) s :
    R (Done (Ok (u8 (sr (sk i (tick e s)))))) (end_call (tick e s)) ->
    wp e (get_status (socket_new i)) R s.
  Proof.
    intros H. unfold get_status, read_reg, try_. cbn [bind zeros repeat]. rewrite so_reg by exact Hi.
    unfold wp. cbn [run]. unfold bus_read. rewrite NF. cbn [length read_bytes]. rewrite rbyte_reg. exact H.
  Qed.

  Definition decided (x : N) : Prop := x = SOCK_ESTABLISHED \/ x = SOCK_CLOSED.
  Definition decision (ev : nevent) : Prop := ev = EvEstablished i \/ ev = EvConnectFailed i.
  Lemma decided_step x ev : idle x -> ev <> EvPeerFin i -> ev_sock ev = Some i -> decided (sr x) -> decided (sr (sock_step x ev)).
  Proof.
    unfold decided, idle. intros I H E D. destruct ev; cbn [ev_sock] in E; try discriminate E; injection E as E; subst; unfold sock_step, transmit, rx_append; rewrite ?I; cbv zeta;
      repeat match goal with |- context [if ?b then _ else _] => destruct b eqn:? end; sfields; auto; congruence.
  Qed.
  Lemma dialling_step x ev : idle x -> ev <> EvPeerFin i -> ev_sock ev = Some i ->
    sr x = SOCK_SYNSENT \/ decided (sr x) -> sr (sock_step x ev) = SOCK_SYNSENT \/ decided (sr (sock_step x ev)).
  Proof.
    intros I H E [D|D]; [|right; now apply decided_step].
    unfold decided, idle in *. destruct ev; cbn [ev_sock] in E; try discriminate E; injection E as E; subst; unfold sock_step, transmit, rx_append; rewrite ?I; cbv zeta;
      repeat match goal with |- context [if ?b then _ else _] => destruct b eqn:? end; sfields; auto; congruence.
  Qed.
  Lemma decision_step x ev : decision ev -> sr x = SOCK_SYNSENT -> decided (sr (sock_step x ev)).
  Proof. intros [-> | ->] D; cbn [sock_step]; rewrite D; [left|right]; reflexivity. Qed.
  Lemma dialling_nsteps : forall l c, ~ In (EvPeerFin i) l -> idle (socks c i) ->
    sr (socks c i) = SOCK_SYNSENT \/ decided (sr (socks c i)) ->
    idle (socks (nsteps c l) i) /\
    (sr (socks (nsteps c l) i) = SOCK_SYNSENT \/ decided (sr (socks (nsteps c l) i))) /\
    (decided (sr (socks c i)) \/ Exists decision l -> decided (sr (socks (nsteps c l) i))).
  Proof.
    induction l as [|ev l IH]; intros c HN I D.
    - split; [exact I|]. split; [exact D|]. intros [H|H]; [exact H|inversion H].
    - unfold nsteps in *. cbn [fold_left].
      assert (HN' : ~ In (EvPeerFin i) l) by (intros X; apply HN; now right).
      assert (Hev : ev <> EvPeerFin i) by (intros ->; apply HN; now left).
      assert (St : (ev_sock ev = Some i /\ socks (nstep c ev) i = sock_step (socks c i) ev) \/
                   (ev_sock ev <> Some i /\ socks (nstep c ev) i = socks c i)).
      { unfold nstep. destruct (ev_sock ev) as [n|] eqn:E.
        - unfold set_sock. cbn [socks]. destruct (N.eqb_spec i n) as [->|Hne]; [now left|right]. split; congruence.
        - right. split; [congruence|]. now destruct ev. }
      destruct St as [[Es E]|[Es E]].
      + destruct (IH (nstep c ev) HN') as (J1 & J2 & J3).
        * rewrite E. apply (proj1 (sevs_idle i _ _ (sevs_one i _ _ Es) I)).
        * rewrite E. now apply dialling_step.
        * split; [exact J1|]. split; [exact J2|]. intros [H|H].
          -- apply J3. left. rewrite E. now apply decided_step.
          -- inversion H as [? ? Hd|? ? Hd]; subst.
             ++ apply J3. left. rewrite E. destruct D as [D|D]; [now apply decision_step|now apply decided_step].
             ++ apply J3. now right.
      + destruct (IH (nstep c ev) HN') as (J1 & J2 & J3); rewrite ?E; auto.
        split; [exact J1|]. split; [exact J2|]. intros [H|H]; apply J3; [left; now rewrite E|].
        inversion H as [? ? Hd|? ? Hd]; subst; [|now right].
        destruct Hd as [-> | ->]; now elim Es.
  Qed.

  (** without an EvEstablished, EvPeerFin does nothing to a socket that is dialling *)
  Definition refused (x : N) : Prop := x = SOCK_SYNSENT \/ x = SOCK_CLOSED.
  Lemma refused_nsteps : forall l c, ~ In (EvEstablished i) l -> idle (socks c i) -> refused (sr (socks c i)) ->
    idle (socks (nsteps c l) i) /\ refused (sr (socks (nsteps c l) i)) /\
    (sr (socks c i) = SOCK_CLOSED \/ In (EvConnectFailed i) l -> sr (socks (nsteps c l) i) = SOCK_CLOSED).
  Proof.
    induction l as [|ev l IH]; intros c HN I D.
    - split; [exact I|]. split; [exact D|]. intros [H|H]; [exact H|destruct H].
    - unfold nsteps in *. cbn [fold_left].
      assert (HN' : ~ In (EvEstablished i) l) by (intros X; apply HN; now right).
      assert (Hev : ev <> EvEstablished i) by (intros ->; apply HN; now left).
      assert (St : (ev_sock ev = Some i /\ socks (nstep c ev) i = sock_step (socks c i) ev) \/
                   (ev_sock ev <> Some i /\ socks (nstep c ev) i = socks c i)).
      { unfold nstep. destruct (ev_sock ev) as [n|] eqn:E.
        - unfold set_sock. cbn [socks]. destruct (N.eqb_spec i n) as [->|Hne]; [now left|right]. split; congruence.
        - right. split; [congruence|]. now destruct ev. }
      destruct St as [[Es E]|[Es E]].
      + assert (K : refused (sr (sock_step (socks c i) ev)) /\ (sr (socks c i) = SOCK_CLOSED \/ ev = EvConnectFailed i -> sr (sock_step (socks c i) ev) = SOCK_CLOSED)).
        { set (x := socks c i) in *. clearbody x. unfold idle in I. clear IH E HN HN'.
          destruct ev; cbn [ev_sock] in Es; try discriminate Es; injection Es as Es; subst; unfold sock_step, transmit, rx_append; rewrite ?I; cbv zeta;
            try (now elim Hev); destruct D as [D|D]; rewrite D; unfold SOCK_SYNSENT, SOCK_CLOSED, SOCK_ESTABLISHED, SOCK_LISTEN, SOCK_CLOSE_WAIT, SOCK_FIN_WAIT, SOCK_LAST_ACK, SOCK_UDP, SOCK_MACRAW in *; cbn [N.eqb Pos.eqb orb andb];
            repeat match goal with |- context [if ?b then _ else _] => destruct b eqn:? end; sfields;
            (split; [unfold refused; auto|intros [X|X]; try discriminate X; congruence]). }
        destruct K as (K1 & K2). destruct (IH (nstep c ev) HN') as (J1 & J2 & J3).
        * rewrite E. apply (proj1 (sevs_idle i _ _ (sevs_one i _ _ Es) I)).
        * rewrite E. exact K1.
        * split; [exact J1|]. split; [exact J2|]. intros [H|[H|H]]; apply J3; [left; rewrite E; auto|left; rewrite E; auto|now right].
      + destruct (IH (nstep c ev) HN') as (J1 & J2 & J3); rewrite ?E; auto.
        split; [exact J1|]. split; [exact J2|]. intros [H|[H|H]]; apply J3; [left; now rewrite E| |now right].
        subst ev. now elim Es.
  Qed.

  Lemma connect_wait_terminates (HN : forall t, In (EvEstablished i) (happens e t) -> ~ In (EvPeerFin i) (happens e t)) : forall fuel s,
    idle (sk i s) -> sr (sk i s) = SOCK_SYNSENT ->
    (exists t, (s_tick s <= t < s_tick s + fuel)%nat /\ Exists decision (happens e t)) ->
    wp e (tcp_connect_wait fuel (mkTcp (socket_new i))) (fun o s' => o = Done (Ok tt)) s.
  Proof.
    induction fuel as [|fuel IH]; intros s I D (t0 & Ht & Hd); [lia|].
    cbn [tcp_connect_wait t_socket]. apply wp_try, wp_get_status_exact.
    assert (J : idle (sk i (tick e s)) /\ (sr (sk i (tick e s)) = SOCK_SYNSENT \/ decided (sr (sk i (tick e s)))) /\
      (Exists decision (happens e (s_tick s)) -> decided (sr (sk i (tick e s))))).
    { change (sk i (tick e s)) with (socks (nsteps (s_chip s) (happens e (s_tick s))) i).
      assert (Dec : In (EvEstablished i) (happens e (s_tick s)) \/ ~ In (EvEstablished i) (happens e (s_tick s))).
      { generalize (happens e (s_tick s)). induction l as [|ev l [IHl|IHl]]; [now right|left; now right|].
        destruct ev as [n| | | | | | | | | | |]; try (right; intros [X|X]; [discriminate X|contradiction]).
        destruct (N.eq_dec n i) as [->|Hn]; [left; now left|]. right. intros [X|X]; [congruence|contradiction]. }
      destruct Dec as [Y|Y].
      - destruct (dialling_nsteps (happens e (s_tick s)) (s_chip s) (HN _ Y) I (or_introl D)) as (J1 & J2 & J3). auto.
      - destruct (refused_nsteps (happens e (s_tick s)) (s_chip s) Y I (or_introl D)) as (J1 & J2 & J3). split; [exact J1|].
        split; [destruct J2 as [J2|J2]; [now left|right; now right]|]. intros X. right. apply J3. right.
        apply Exists_exists in X as (ev & Hin & [-> | ->]); [contradiction|exact Hin]. }
    destruct J as (J1 & J2 & J3).
    destruct J2 as [J2|J2].
    - assert (t0 <> s_tick s).
      { intros ->. destruct (J3 Hd) as [X|X]; rewrite X in J2; discriminate. }
      rewrite J2. change (status_try_from (u8 SOCK_SYNSENT)) with (Some StSynSent). cbv iota.
      apply IH; [exact J1|exact J2|]. exists t0. cbn [s_tick end_call tick]. split; [lia|exact Hd].
    - destruct J2 as [J2|J2]; rewrite J2.
      + apply wp_ret. reflexivity.
      + change (status_try_from (u8 SOCK_CLOSED)) with (Some StClosed). cbv iota.
        apply wp_try, wp_tcp_socket_close; auto. intros y z s2 _ _ _. cbv beta iota.
        apply wp_tcp_reopen; auto.
  Qed.
End Connect.

(** what the dialled socket looks like *)
Lemma dialled_of_regs x a : (a < 0x24 \/ 0x29 < a \/ a = 0x26 \/ a = 0x27) -> regs (dialled_of x) a = regs x a.
Proof.
  intros H. unfold dialled_of, init_pointers. sfields. unfold put16, upd, Sn_TX_WR, Sn_RX_RD.
  repeat match goal with |- context [N.eqb ?u ?v] => destruct (N.eqb_spec u v) end; try lia; reflexivity.
Qed.
Lemma dialled_of_facts x : sr (dialled_of x) = SOCK_SYNSENT /\ idle (dialled_of x) /\
  tx_okdue (dialled_of x) = false /\ sent (dialled_of x) = sent x.
Proof. unfold dialled_of, init_pointers, idle. sfields. auto. Qed.
Lemma dial_state_regs i r x : let y := dial_state i r x in
  regs y Sn_MR = u8 MR_TCP /\ regs y Sn_IMR = u8 0 /\ sr y = SOCK_SYNSENT /\ idle y /\
  tx_okdue y = false /\ sent y = sent x.
Proof.
  cbv zeta. unfold dial_state. set (o := opened x _ _). set (rr := puts _ Sn_DPORT _).
  destruct (dialled_of_facts (set_regs o rr)) as (F1 & F2 & F3 & F4).
  split; [|split; [|split; [exact F1|split; [exact F2|split; [exact F3|]]]]].
  - rewrite dialled_of_regs by (left; reflexivity). cbn [regs set_regs]. unfold rr.
    rewrite !puts_other by (left; reflexivity). unfold o. rewrite opened_regs by (left; reflexivity). reflexivity.
  - rewrite dialled_of_regs by (right; left; reflexivity). cbn [regs set_regs]. unfold rr.
    rewrite !puts_other by (right; discriminate). unfold o. rewrite opened_regs by (right; left; reflexivity). reflexivity.
  - rewrite F4. cbn [sent set_regs]. apply opened_tx.
Qed.
Lemma dial_state_dialled i r x : i < 8 -> a_port r < 65536 ->
  dialled (dial_state i r x) = dialled x ++ [(49849 + i, octets (a_ip r), a_port r)].
Proof.
  intros Hi Hr. unfold dial_state, dialled_of. cbn [dialled set_dialled]. set (o := opened x _ _).
  assert (Ho : dialled o = dialled x) by apply opened_tx. cbn [dialled set_regs]. rewrite Ho. f_equal. f_equal.
  unfold dial_entry. cbn [regs set_regs].
  assert (G : forall a, a < 0x10 -> puts (puts (regs o) Sn_DIPR (octets (a_ip r))) Sn_DPORT (to_be (a_port r)) a
     = puts (regs o) Sn_DIPR (octets (a_ip r)) a) by (intros a Ha; apply puts_other; now left).
  rewrite !G by reflexivity.
  assert (G16 : get16 (puts (puts (regs o) Sn_DIPR (octets (a_ip r))) Sn_DPORT (to_be (a_port r))) Sn_PORT = 49849 + i).
  { rewrite !get16_puts_other by (left; reflexivity). unfold get16, o. rewrite !opened_regs by (left; reflexivity).
    fold (get16 (open_regs (Some (49849 + i)) MR_TCP (regs x)) Sn_PORT). unfold open_regs.
    rewrite get16_puts_other by (left; reflexivity). rewrite get16_puts_other by (right; discriminate).
    apply puts_get16. lia. }
  rewrite G16, puts_get16 by assumption. f_equal.
Qed.
Lemma reopened_facts x s1 : reopened x s1 ->
  regs s1 Sn_MR = u8 MR_TCP /\ regs s1 Sn_IMR = u8 0 /\ sr s1 = SOCK_INIT /\ dialled s1 = dialled x /\ sent s1 = sent x /\ idle s1.
Proof.
  intros (y & -> & D & Es & R). pose proof (opened_tx y (open_regs None MR_TCP (regs y)) SOCK_INIT) as O. cbv zeta in O.
  decompose [and] O. rewrite !opened_regs by (first [left; reflexivity | right; left; reflexivity]).
  split; [reflexivity|]. split; [reflexivity|]. split; [reflexivity|]. split; [congruence|]. split; [congruence|assumption].
Qed.

(** an attempt that is accepted and at once closed by the peer *)
Definition accept_and_close (i : N) : env :=
  mkEnv (fun _ => [EvEstablished i; EvPeerFin i]) (fun _ => None).
Lemma accept_and_close_stuck i : i < 8 -> forall fuel s, sr (sk i s) = SOCK_SYNSENT \/ sr (sk i s) = SOCK_CLOSE_WAIT ->
  wp (accept_and_close i) (tcp_connect_wait fuel (mkTcp (socket_new i))) (fun o _ => o = Looping) s.
Proof.
  intros Hi. induction fuel as [|fuel IH]; intros s H; [reflexivity|].
  cbn [tcp_connect_wait t_socket]. apply wp_try, wp_get_status_exact; [intros j; reflexivity|exact Hi|].
  assert (E : sr (sk i (tick (accept_and_close i) s)) = SOCK_CLOSE_WAIT).
  { unfold sk, tick, nsteps. cbn [happens accept_and_close s_chip fold_left]. unfold nstep. cbn [ev_sock].
    unfold set_sock. cbn [socks]. rewrite N.eqb_refl. fold (sk i s).
    destruct H as [H|H]; cbn [sock_step]; rewrite H; [reflexivity|].
    change ((SOCK_CLOSE_WAIT =? SOCK_SYNSENT) || (SOCK_CLOSE_WAIT =? SOCK_LISTEN)) with false. cbv iota. rewrite H. exact H. }
  rewrite E. change (status_try_from (u8 SOCK_CLOSE_WAIT)) with (Some StCloseWait). cbv iota.
  apply IH. right. exact E.
Qed.
