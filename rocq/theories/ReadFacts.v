(** Reading while the network acts: which instant a value belongs to. *)
From Verif Require Export FrameFacts SockSpecs.
From Verif Require Import Datasheet.

Lemma alone_S e c t n : alone e c t (S n) = nsteps (alone e c t n) (happens e (t + n)).
Proof. replace (S n) with (n + 1)%nat by lia. rewrite alone_add. reflexivity. Qed.
Lemma alone_nofail e : forall n c t, alone (nofail e) c t n = alone e c t n.
Proof. induction n as [|n IH]; intros c t; cbn [alone]; [reflexivity|apply IH]. Qed.

(** ** The received size only grows while the driver looks *)
Definition rx16 (x : sock) : Prop := rx_wr x < 65536 /\ rx_base x < 65536 /\ rx_size x < 65536.
Lemma rx16_step x ev : rx16 x -> rx16 (sock_step x ev) /\ rx_rsr x <= rx_rsr (sock_step x ev).
Proof.
  intros (Hw & Hb & Hz).
  assert (A : forall c, rx16 (rx_append x c) /\ rx_rsr x <= rx_rsr (rx_append x c)).
  { intros c. unfold rx_append. destruct (N.leb_spec (len c) (rx_size x - rx_rsr x)) as [H|H]; [|split; [split; auto|lia]].
    cbv zeta. unfold rx16, rx_rsr, rx_size in *. sfields. pose proof (sub16_lt (rx_wr x) (rx_base x)) as L.
    assert (E : sub16 (rx_wr x) (rx_base x) + len c < 65536 \/ len c = 0) by lia.
    split; [split; [apply N.mod_lt; discriminate|auto]|].
    destruct E as [E|E]; [rewrite sub16_advance by assumption; lia|].
    rewrite E, N.add_0_r, N.mod_small by exact Hw. lia. }
  destruct ev; unfold sock_step; try exact (A _);
    repeat match goal with |- context [if ?b then _ else _] => destruct b; try exact (A _) end;
    try (split; [split; [exact Hw|split; [exact Hb|exact Hz]]|apply N.le_refl]).
  unfold transmit. cbv zeta.
  repeat match goal with |- context [if ?b then _ else _] =>
    lazymatch b with context [if _ then _ else _] => fail | _ => destruct b end end;
    (split; [split; [exact Hw|split; [exact Hb|exact Hz]]|apply N.le_refl]).
Qed.
Lemma rx16_nsteps i l : forall c, rx16 (socks c i) ->
  rx16 (socks (nsteps c l) i) /\ rx_rsr (socks c i) <= rx_rsr (socks (nsteps c l) i).
Proof.
  unfold nsteps. induction l as [|ev l IH]; intros c H; cbn [fold_left]; [split; [exact H|lia]|].
  assert (S : rx16 (socks (nstep c ev) i) /\ rx_rsr (socks c i) <= rx_rsr (socks (nstep c ev) i)).
  { unfold nstep. destruct (ev_sock ev) as [n|].
    - unfold set_sock. cbn [socks]. destruct (N.eqb_spec i n) as [<-|_]; [now apply rx16_step|split; [exact H|lia]].
    - destruct ev; (split; [exact H|apply N.le_refl]). }
  destruct S as [S1 S2]. destruct (IH _ S1) as [T1 T2]. split; [exact T1|lia].
Qed.
Lemma rx16_alone e i : forall n c t, rx16 (socks c i) ->
  rx16 (socks (alone e c t n) i) /\ rx_rsr (socks c i) <= rx_rsr (socks (alone e c t n) i).
Proof.
  induction n as [|n IH]; intros c t H; cbn [alone]; [split; [exact H|lia]|].
  destruct (rx16_nsteps i (happens e t) c H) as [S1 S2]. destruct (IH _ (S t) S1) as [T1 T2]. split; [exact T1|lia].
Qed.

Section Size.
  Context (e : env) (i : N).
  Hypothesis NF : no_faults e.
  Hypothesis Hi : i < 8.
  (** the size after [k] more bytes on the bus *)
  Definition rsr_at (s : sys) (k : nat) : N := rx_rsr (socks (alone e (s_chip s) (s_tick s) k) i).
  (** two bytes: the high one of the size now, the low one of the size a byte later *)
  Lemma wp_rsr (k : list byte * res unit berr -> prog (res N berr)) Q s :
    (forall s', s_chip s' = alone e (s_chip s) (s_tick s) 2 -> s_tick s' = (s_tick s + 2)%nat ->
       wp e (k ([hi (rsr_at s 1); lo (rsr_at s 2)], Ok tt)) Q s') ->
    wp e (BusRead (BSB_REG i) s_RECEIVED_SIZE [x00; x00] k) Q s.
  Proof.
    intros H. unfold wp. cbn [run]. unfold bus_read. rewrite NF. cbn [length read_bytes]. rewrite !rbyte_reg. cbn [fst snd].
    apply (H (end_call (tick e (tick e s)))); [reflexivity|cbn [s_tick end_call tick]; lia].
  Qed.
  Lemma wp_size fuel (R : outcome (res N berr) -> sys -> Prop) : forall s, rx16 (sk i s) ->
    (forall n k s', s_tick s' = (s_tick s + n)%nat -> s_chip s' = alone e (s_chip s) (s_tick s) n -> (1 <= k <= n)%nat ->
       R (Done (Ok (rsr_at s k))) s') ->
    (forall s', R Looping s') ->
    wp e (get_receive_size fuel (socket_new i)) R s.
  Proof.
    induction fuel as [|fuel IH]; intros s V H HL; cbn [get_receive_size]; [apply HL|].
    unfold read_reg, try_. cbn [bind zeros repeat]. rewrite so_reg by exact Hi.
    apply wp_rsr. intros s1 C1 T1. cbn [bind fst snd].
    apply wp_rsr. intros s2 C2 T2. cbn [bind fst snd].
    assert (E1 : forall k, rsr_at s1 k = rsr_at s (2 + k)).
    { intros k. unfold rsr_at. now rewrite C1, T1, alone_add. }
    rewrite !E1. change (2 + 1)%nat with 3%nat. change (2 + 2)%nat with 4%nat.
    assert (Tot : s_chip s2 = alone e (s_chip s) (s_tick s) 4 /\ s_tick s2 = (s_tick s + 4)%nat).
    { split; [|lia]. rewrite C2, C1, T1. symmetry. apply (alone_add e 2 2). }
    destruct Tot as [C T]. clear C1 T1 C2 T2 E1 s1.
    assert (Mono : forall k n, rsr_at s k <= rsr_at s (k + n)).
    { intros k n. unfold rsr_at. rewrite alone_add. apply rx16_alone. now apply rx16_alone. }
    destruct (bytes_eqb _ _) eqn:E.
    - apply bytes_eqb_eq in E. injection E as E1 E2. apply wp_ret. rewrite from_be_2.
      replace (b2n (hi (rsr_at s 1)) * 256 + b2n (lo (rsr_at s 2))) with (rsr_at s 2); [apply (H 4%nat 2%nat); auto; lia|].
      apply (f_equal b2n) in E1. unfold hi, lo in *. rewrite !b2n_u8 in *.
      pose proof (Mono 1%nat 1%nat) as M1. pose proof (Mono 2%nat 1%nat) as M2. cbn [Nat.add] in M1, M2.
      assert (B : forall k, rsr_at s k < 65536) by (intros; apply sub16_lt).
      pose proof (B 1%nat). pose proof (B 2%nat). pose proof (B 3%nat). lia.
    - apply IH.
      + unfold sk. rewrite C. now apply rx16_alone.
      + intros n k s' T' C' K. replace (rsr_at s2 k) with (rsr_at s (4 + k)).
        * apply (H (4 + n)%nat); [lia| |lia]. now rewrite alone_add, <- C, <- T.
        * unfold rsr_at. now rewrite C, T, alone_add.
      + exact HL.
  Qed.
End Size.
