(** The buffer sizes of the sockets during a Device program. *)
From Verif Require Export AccessFacts PipeCalls.
From Verif Require Import InitFacts PipeSession ProgFacts Datasheet HistoryFacts RawHistory.

Definition two_k (x : sock) : Prop := regs x Sn_TXBUF_SIZE = x02 /\ regs x Sn_RXBUF_SIZE = x02.
Definition size_safe (i : N) (blk a : N) (v : byte) : Prop :=
  blk = BSB_REG i -> a <> Sn_RXBUF_SIZE /\ a <> Sn_TXBUF_SIZE.

Lemma each_range (P : N -> N -> byte -> Prop) blk : forall d a,
  a + N.of_nat (length d) < 65536 -> (forall k v, a <= k < a + N.of_nat (length d) -> P blk k v) -> each P blk a d.
Proof.
  induction d as [|v d IH]; intros a L H; cbn [each]; [exact I|]. cbn [length] in *. rewrite Nat2N.inj_succ in *.
  split; [apply H; lia|]. unfold next_addr. rewrite N.mod_small by lia. apply IH; [lia|]. intros k w Hk. apply H. lia.
Qed.
Lemma plain_each i blk a d : i < 8 -> plain_write blk a d \/ tx_read_write blk a d -> each (size_safe i) blk a d.
Proof.
  intros Hi W. pose proof (plain_keeps_sizes blk a d W i Hi) as S.
  destruct (N.eq_dec blk (BSB_REG i)) as [E|E]; [|apply each_all; intros a' v E'; contradiction].
  apply each_range.
  - destruct W as [[W _]|(j & _ & _ & -> & ->)]; [|reflexivity].
    destruct W as [[E' _]|(j & Hj & [(E' & W & _)|(E' & _)])]; try (unfold BSB_REG, BSB_COMMON, BSB_TX in *; lia).
    unfold writable_register in W. cbn in W.
    repeat destruct W as [W|W]; try discriminate W; try contradiction; injection W as <- <-; lia.
  - intros k v Hk _. split; intros ->; [apply (S E Sn_RXBUF_SIZE)|apply (S E Sn_TXBUF_SIZE)]; auto.
Qed.
Lemma mild_sizes {A} i (G : A -> Prop) (p : prog A) : i < 8 ->
  atree read_ok (fun b a d => plain_write b a d \/ tx_read_write b a d) G p -> mild (size_safe i) p.
Proof.
  intros Hi. induction p as [x|w| |b a d k IH|b a d k IH]; cbn [atree mild]; auto.
  - intros [_ H] got r L. apply IH. now apply H.
  - intros [W H]. split; [now apply plain_each|]. intros r. now apply IH.
Qed.

Lemma two_k_ev i x ev : ev_sock ev = Some i -> two_k x -> two_k (sock_step x ev).
Proof.
  intros _. assert (E : regs (sock_step x ev) = regs x); [|unfold two_k; now rewrite E].
  destruct ev; cbn [sock_step]; unfold transmit, rx_append;
    repeat match goal with |- context [if ?b then _ else _] => destruct b end; reflexivity.
Qed.
Lemma two_k_wr i c blk a v : i < 8 -> size_safe i blk a v -> two_k (socks c i) -> two_k (socks (wbyte c blk a v) i).
Proof.
  intros Hi H T. unfold wbyte. destruct (N.eqb_spec blk 0) as [->|N0].
  { destruct (_ =? MR).
    - destruct (N.testbit _ 7); [split; reflexivity|exact T].
    - destruct (_ =? VERSIONR); exact T. }
  destruct (N.eq_dec (blk / 4) i) as [En|En].
  2:{ assert (Z : forall y, socks (set_sock c (blk / 4) y) i = socks c i).
      { intros y. unfold set_sock. cbn [socks]. destruct (N.eqb_spec i (blk / 4)); [congruence|reflexivity]. }
      destruct (blk mod 4) as [|[[]|[]|]]; try exact T; cbv zeta;
        repeat match goal with |- context [if ?b then _ else _] => destruct b end; rewrite ?Z; exact T. }
  assert (Z : forall y, socks (set_sock c (blk / 4) y) i = y).
  { intros y. unfold set_sock. cbn [socks]. rewrite En, N.eqb_refl. reflexivity. }
  pose proof (N.div_mod blk 4 ltac:(discriminate)) as DM. rewrite En in DM.
  destruct (blk mod 4) as [|[[]|[]|]] eqn:Em; try exact T; cbv zeta;
    repeat match goal with |- context [if ?b then _ else _] => destruct b end; rewrite ?Z; try exact T; rewrite ?En; try exact T.
  specialize (H ltac:(unfold BSB_REG; lia)). destruct H as [H1 H2].
  unfold sock_wr. destruct (_ =? Sn_CR) eqn:E1.
  { unfold do_command. unfold two_k in *.
    repeat match goal with |- context [if ?b then _ else _] => destruct b end; exact T. }
  destruct (_ =? Sn_IR); [exact T|]. destruct (read_only a); [exact T|].
  unfold two_k, upd in *. cbn [set_regs regs]. destruct (N.eqb_spec Sn_TXBUF_SIZE a); [congruence|]. destruct (N.eqb_spec Sn_RXBUF_SIZE a); [congruence|]. exact T.
Qed.

Lemma ops_sizes e i fuel ops a s : i < 8 -> pool_inv a -> two_k (sk i s) -> two_k (sk i (snd (run e (run_ops fuel a ops) s))).
Proof.
  intros Hi Ha T. apply (run_mild (size_safe i) e i two_k); auto.
  - intros x ev. apply two_k_ev.
  - intros c blk ad v. now apply two_k_wr.
  - eapply mild_sizes; [exact Hi|]. apply at_run_ops; [exact Ha|].
    apply Forall_forall. intros o _ _ b' a' d' H'. exact H'.
Qed.
Lemma init_sizes e assertion ho m s00 d s0 i : run e (initialize_with_host assertion ho m) s00 = (Done (Ok d), s0) -> two_k (sk i s0).
Proof.
  intros R. apply run_init in R as (s1 & c & h' & _ & _ & _ & Hs & R & ->).
  pose proof (run_spares e i _ (spares_refresh i ho) s1) as N1. rewrite R in N1. cbn [snd] in N1.
  apply (sevs_inv i two_k (two_k_ev i) _ _ N1). unfold sk. rewrite Hs. split; reflexivity.
Qed.
