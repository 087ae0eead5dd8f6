(** The registers of a socket that only bus writes change: mode, ports, destination, interrupt
    mask, and those no call writes (buffer sizes, TTL, ...). *)
From Verif Require Export Commands.
From Verif Require Import Datasheet.

(** registers that are memory to the chip: not the command and interrupt registers, not the
    read-only ones, not the buffer pointers (which the OPEN and CONNECT commands set) *)
Definition setting (x : N) : bool :=
  negb (read_only x || (x =? Sn_CR) || (x =? Sn_IR) || (x =? Sn_TX_WR) || (x =? Sn_TX_WR + 1) || (x =? Sn_RX_RD) || (x =? Sn_RX_RD + 1)).

(** ** The chip *)
Lemma init_pointers_regs x y : setting y = true -> regs (init_pointers x) y = regs x y.
Proof.
  intros H. unfold init_pointers, setting in *. cbn [regs set_regs set_tx_rd set_tx_ack set_tx_end set_rx_wr set_rx_base set_rxlog set_tx_busy set_tx_okdue].
  unfold put16, upd. rewrite negb_true_iff, !orb_false_iff in H. destruct H as [[[[[[_ _] _] H1] H2] H3] H4]. now rewrite H1, H2, H3, H4.
Qed.
Lemma do_command_regs n x c y : setting y = true -> regs (do_command n x c) y = regs x y.
Proof.
  intros H. pose proof (init_pointers_regs x y H) as P. unfold do_command.
  cbv zeta. generalize dependent (init_pointers x). intros x' P.
  repeat match goal with |- context [if ?b then _ else _] => destruct b end; cbn [regs set_sr set_dialled set_tx_okdue set_tx_busy set_tx_end set_rx_base]; first [exact P|reflexivity].
Qed.
Lemma sock_wr_regs n x a v y : setting y = true -> regs (sock_wr n x a v) y = if y =? a then v else regs x y.
Proof.
  intros H. unfold sock_wr. destruct (N.eqb_spec a Sn_CR) as [->|Hc].
  - rewrite do_command_regs by exact H. destruct (N.eqb_spec y Sn_CR) as [->|]; [discriminate H|reflexivity].
  - destruct (N.eqb_spec a Sn_IR) as [->|Hi]; [destruct (N.eqb_spec y Sn_IR) as [->|]; [discriminate H|reflexivity]|].
    destruct (read_only a) eqn:R; [|reflexivity]. destruct (N.eqb_spec y a) as [->|]; [|reflexivity].
    unfold setting in H. rewrite R in H. discriminate H.
Qed.
Lemma rx_append_regs x d : regs (rx_append x d) = regs x.
Proof. unfold rx_append. now destruct (_ <=? _). Qed.
Lemma sock_step_regs x ev : regs (sock_step x ev) = regs x.
Proof.
  destruct ev; cbn [sock_step]; try reflexivity;
    try (repeat match goal with |- context [if ?b then _ else _] => destruct b end; try reflexivity; apply rx_append_regs).
  unfold transmit. repeat match goal with |- context [if ?b then _ else _] => destruct b end; reflexivity.
Qed.
Lemma nstep_regs c ev j : regs (socks (nstep c ev) j) = regs (socks c j).
Proof.
  unfold nstep. destruct (ev_sock ev) as [n|] eqn:E; [|destruct ev; try discriminate E; reflexivity].
  cbn [socks set_sock]. destruct (N.eqb_spec j n) as [->|]; [apply sock_step_regs|reflexivity].
Qed.
Lemma nsteps_regs l : forall c j, regs (socks (nsteps c l) j) = regs (socks c j).
Proof. induction l as [|ev l IH]; intros c j; [reflexivity|]. cbn [nsteps fold_left]. unfold nsteps in IH. rewrite IH. apply nstep_regs. Qed.
Lemma tick_regs e s j : regs (socks (s_chip (tick e s)) j) = regs (socks (s_chip s) j).
Proof. apply nsteps_regs. Qed.

Lemma wbyte_regs c blk a v j y : setting y = true ->
  regs (socks (wbyte c blk a v) j) y =
    if blk =? 0 then (if (a =? MR) && N.testbit (b2n v) 7 then regs_reset y else regs (socks c j) y)
    else if (blk mod 4 =? 1) && (j =? blk / 4) && (y =? a) then v else regs (socks c j) y.
Proof.
  intros H. unfold wbyte. destruct (N.eqb_spec blk 0) as [->|Hb].
  - destruct (a =? MR); [destruct (N.testbit _ _); reflexivity|]. cbn [andb]. destruct (a =? VERSIONR); reflexivity.
  - cbv zeta. pose proof (N.mod_lt blk 4 ltac:(discriminate)) as L. destruct (N.eq_dec (blk mod 4) 1) as [E|E].
    + rewrite E. cbn [socks set_sock]. rewrite N.eqb_refl. cbn [andb]. destruct (N.eqb_spec j (blk / 4)) as [->|]; cbn [andb]; [|reflexivity]. now apply sock_wr_regs.
    + apply N.eqb_neq in E. rewrite E. cbn [andb]. apply N.eqb_neq in E.
      assert (C : blk mod 4 = 0 \/ blk mod 4 = 2 \/ blk mod 4 = 3) by lia. destruct C as [->|[->| ->]]; [reflexivity| |].
      * destruct (_ =? 0); [reflexivity|]. cbn [socks set_sock]. destruct (N.eqb_spec j (blk / 4)) as [->|]; reflexivity.
      * destruct (_ =? 0); [reflexivity|]. cbn [socks set_sock]. destruct (N.eqb_spec j (blk / 4)) as [->|]; reflexivity.
Qed.

(** ** A write of a frame *)
Definition rfile := N -> N -> byte.
Definition setr (i a : N) (d : list byte) (f : rfile) : rfile :=
  fun j x => if (j =? i) && (a <=? x) && (x <? a + len d) then nth (N.to_nat (x - a)) d x00 else f j x.
Definition agrees (s : sys) (f : rfile) : Prop := forall j x, setting x = true -> regs (socks (s_chip s) j) x = f j x.
Lemma write_regs e i a : forall d s f, a + len d <= 65536 -> agrees s f -> agrees (write_bytes e (BSB_REG i) a d s) (setr i a d f).
Proof.
  assert (E1 : BSB_REG i =? 0 = false) by (apply N.eqb_neq; unfold BSB_REG; lia).
  assert (E2 : BSB_REG i mod 4 =? 1 = true) by (apply N.eqb_eq; unfold BSB_REG; rewrite N.add_comm, N.mul_comm, N.mod_add by discriminate; reflexivity).
  assert (E3 : BSB_REG i / 4 = i) by (unfold BSB_REG; rewrite N.add_comm, N.mul_comm, N.div_add by discriminate; reflexivity).
  intros d. revert a. induction d as [|b d IH]; intros a s f L K j x Hx.
  - cbn [write_bytes]. unfold setr. change (len []) with 0. rewrite N.add_0_r. rewrite (K j x Hx).
    destruct (j =? i), (N.leb_spec a x), (N.ltb_spec x a); cbn [andb]; try reflexivity; lia.
  - cbn [write_bytes]. rewrite len_cons in L.
    set (s1 := on_chip (fun c => wbyte c (BSB_REG i) a b) (tick e s)).
    assert (K1 : agrees s1 (setr i a [b] f)).
    { intros j' x' Hx'. unfold s1. cbn [s_chip on_chip]. rewrite wbyte_regs, E1, E2, E3 by exact Hx'. cbn [andb]. rewrite tick_regs, (K j' x' Hx').
      unfold setr. change (len [b]) with 1. destruct (j' =? i); cbn [andb]; [|reflexivity].
      destruct (N.eqb_spec x' a) as [->|Hn].
      - rewrite N.leb_refl. destruct (N.ltb_spec a (a + 1)); [|lia]. now rewrite N.sub_diag.
      - destruct (N.leb_spec a x'), (N.ltb_spec x' (a + 1)); try reflexivity; lia. }
    destruct d as [|b' d].
    { cbn [write_bytes]. exact (K1 j x Hx). }
    assert (Nx : next_addr a = a + 1) by (unfold next_addr; rewrite len_cons in L; apply N.mod_small; lia).
    rewrite Nx. rewrite (IH (a + 1) s1 (setr i a [b] f) ltac:(lia) K1 j x Hx). unfold setr. rewrite (len_cons b (b' :: d)). change (len [b]) with 1.
    destruct (j =? i); cbn [andb]; [|reflexivity].
    destruct (N.leb_spec (a + 1) x), (N.ltb_spec x (a + 1 + len (b' :: d))), (N.leb_spec a x), (N.ltb_spec x (a + (1 + len (b' :: d)))), (N.ltb_spec x (a + 1));
      cbn [andb]; try lia; try reflexivity.
    + replace (N.to_nat (x - a)) with (S (N.to_nat (x - (a + 1)))) by lia. reflexivity.
    + replace (x - a) with 0 by lia. reflexivity.
Qed.
(** a write that leaves all these registers alone *)
Definition aside (b a : N) (d : list byte) : Prop :=
  (b = 0 /\ ((0 < a /\ a + len d <= 65536) \/ (a = 0 /\ exists v, d = [v] /\ N.testbit (b2n v) 7 = false))) \/
  (b <> 0 /\ b mod 4 <> 1) \/
  (exists i, b = BSB_REG i /\ a + len d <= 65536 /\ forall x, a <= x -> x < a + len d -> setting x = false).
Lemma write_aside e b f : forall d a s, aside b a d -> agrees s f -> agrees (write_bytes e b a d s) f.
Proof.
  intros d a s [H|[H|(i & -> & L & H)]] K.
  - destruct H as (-> & H). revert a s H K. induction d as [|v d IH]; intros a s H K; cbn [write_bytes]; [exact K|].
    assert (K1 : agrees (on_chip (fun c => wbyte c 0 a v) (tick e s)) f).
    { intros j x Hx. cbn [s_chip on_chip]. rewrite wbyte_regs by exact Hx. rewrite tick_regs, N.eqb_refl. destruct H as [[H _]|(-> & v' & [= <- _] & Hv)].
      - destruct (N.eqb_spec a MR) as [->|]; [unfold MR in H; lia|]. exact (K j x Hx).
      - rewrite Hv, andb_false_r. exact (K j x Hx). }
    destruct d as [|v' d]; [exact K1|]. apply IH; [|exact K1]. destruct H as [[H L]|(_ & w & E & _)]; [|discriminate E].
    rewrite len_cons, (len_cons v') in L. left. unfold next_addr. rewrite N.mod_small by lia. rewrite len_cons. lia.
  - destruct H as (H1 & H2). apply N.eqb_neq in H1, H2. revert a s K. induction d as [|v d IH]; intros a s K; cbn [write_bytes]; [exact K|].
    apply IH. intros j x Hx. cbn [s_chip on_chip]. rewrite wbyte_regs by exact Hx. rewrite tick_regs, H1, H2. exact (K j x Hx).
  - intros j x Hx. rewrite (write_regs e i a d s f L K j x Hx). unfold setr. destruct (N.leb_spec a x) as [A1|], (N.ltb_spec x (a + len d)) as [A2|]; rewrite ?andb_false_r; try reflexivity.
    rewrite (H x A1 A2) in Hx. discriminate Hx.
Qed.
Lemma aside_firstn b a d k : aside b a d -> aside b a (firstn k d) \/ firstn k d = [].
Proof.
  assert (L : len (firstn k d) <= len d) by (unfold len; rewrite firstn_length; lia).
  intros [(-> & [[H H']|(-> & v & -> & Hv)])|[H|(i & -> & H & H')]].
  - left. left. split; [reflexivity|]. left. lia.
  - destruct k as [|k]; [now right|left]. left. split; [reflexivity|]. right. split; [reflexivity|]. exists v. split; [|exact Hv]. cbn [firstn]. now rewrite firstn_nil.
  - left. right. left. exact H.
  - left. right. right. exists i. split; [reflexivity|]. split; [lia|]. intros x H1 H2. apply H'; lia.
Qed.

(** ** Following a computation *)
(** what the registers hold when a computation is done; after a failed write to one of them
    nothing is known *)
Section Follow.
  Context {A : Type} (Q : A -> rfile -> Prop).
  Fixpoint follow (p : prog A) (f : rfile) : Prop :=
    match p with
    | Ret a => Q a f
    | BusRead b a d k => forall got r, length got = length d -> follow (k (got, r)) f
    | BusWrite b a d k =>
        (aside b a d /\ forall r, follow (k r) f) \/
        (exists i, b = BSB_REG i /\ a + len d <= 65536 /\ follow (k (Ok tt)) (setr i a d f) /\ forall er f', follow (k (Err er)) f') \/
        (b = 0 /\ a = MR /\ d = [u8 128] /\ follow (k (Ok tt)) (fun _ => regs_reset) /\ forall er f', follow (k (Err er)) f')
    | _ => True
    end.
End Follow.
Lemma follow_bind {A B} (Q : B -> rfile -> Prop) (k : A -> prog B) (p : prog A) : forall f, follow (fun a f' => follow Q (k a) f') p f -> follow Q (bind p k) f.
Proof.
  induction p as [a|w| |b a d k' IH|b a d k' IH]; cbn [follow bind]; intros f M; auto.
  destruct M as [(M1 & M2)|[(i & -> & M1 & M2 & M3)|(-> & -> & -> & M1 & M2)]].
  - left. split; [exact M1|]. intros r. apply IH, M2.
  - right. left. exists i. split; [reflexivity|]. split; [exact M1|]. split; [apply IH, M2|]. intros. apply IH, M3.
  - right. right. split; [reflexivity|]. split; [reflexivity|]. split; [reflexivity|]. split; [apply IH, M1|]. intros. apply IH, M2.
Qed.
Lemma follow_mono {A} (Q Q' : A -> rfile -> Prop) (p : prog A) : (forall a f, Q a f -> Q' a f) -> forall f, follow Q p f -> follow Q' p f.
Proof.
  intros H. induction p as [a|w| |b a d k' IH|b a d k' IH]; cbn [follow]; intros f M; auto.
  destruct M as [(M1 & M2)|[(i & -> & M1 & M2 & M3)|(-> & -> & -> & M1 & M2)]].
  - left. split; [exact M1|]. intros r. apply IH, M2.
  - right. left. exists i. split; [reflexivity|]. split; [exact M1|]. split; [apply IH, M2|]. intros. apply IH, M3.
  - right. right. split; [reflexivity|]. split; [reflexivity|]. split; [reflexivity|]. split; [apply IH, M1|]. intros. apply IH, M2.
Qed.
Lemma read_agrees e b f : forall n a s, agrees s f -> agrees (snd (read_bytes e b a n s)) f.
Proof.
  induction n as [|n IHn]; intros a s K; cbn [read_bytes]; [exact K|]. specialize (IHn (next_addr a) (tick e s)).
  destruct (read_bytes e b (next_addr a) n (tick e s)) as [l s2]. cbn [snd] in *. apply IHn. intros j x Hx. rewrite tick_regs. auto.
Qed.
Lemma read_length e b : forall n a s, length (fst (read_bytes e b a n s)) = n.
Proof.
  induction n as [|n IHn]; intros a s; cbn [read_bytes]; [reflexivity|]. specialize (IHn (next_addr a) (tick e s)).
  destruct (read_bytes e b (next_addr a) n (tick e s)) as [l s2]. cbn [fst length] in *. now rewrite IHn.
Qed.
Lemma follow_run {A} e (Q : A -> rfile -> Prop) (p : prog A) : forall f s x s', follow Q p f -> agrees s f -> run e p s = (Done x, s') ->
  exists f', agrees s' f' /\ Q x f'.
Proof.
  induction p as [a|w| |b a d k IH|b a d k IH]; cbn [run follow]; intros f s x s' M K R; try discriminate R.
  - injection R as <- <-. eauto.
  - unfold bus_read in R. destruct (fails e (s_call s)) as [[q er]|].
    + pose proof (read_agrees e b f (Nat.min q (length d)) a s K) as T. pose proof (read_length e b (Nat.min q (length d)) a s) as L.
      destruct (read_bytes e b a _ s) as [got s1]. cbn [fst snd] in *. eapply IH; [| |exact R]; [|exact T]. apply M.
      rewrite app_length, L, skipn_length. lia.
    + pose proof (read_agrees e b f (length d) a s K) as T. pose proof (read_length e b (length d) a s) as L.
      destruct (read_bytes e b a _ s) as [got s1]. cbn [fst snd] in *. eapply IH; [| |exact R]; [now apply M|exact T].
  - unfold bus_write in R. destruct M as [(M1 & M2)|[(i & -> & M1 & M2 & M3)|(-> & -> & -> & M1 & M2)]].
    + destruct (fails e (s_call s)) as [[q er]|].
      * eapply IH; [apply M2| |exact R]. destruct (aside_firstn b a d q M1) as [H|H]; [exact (write_aside e b f _ a s H K)|rewrite H; exact K].
      * eapply IH; [apply M2| |exact R]. exact (write_aside e b f d a s M1 K).
    + destruct (fails e (s_call s)) as [[q er]|].
      * eapply IH; [apply (M3 er (setr i a (firstn q d) f))| |exact R].
        assert (L : len (firstn q d) <= len d) by (unfold len; rewrite firstn_length; lia).
        apply (write_regs e i a (firstn q d) s f); [lia|exact K].
      * eapply IH; [exact M2| |exact R]. apply (write_regs e i a d s f M1 K).
    + destruct (fails e (s_call s)) as [[q er]|].
      * eapply IH; [apply (M2 er (fun j => regs (socks (s_chip (write_bytes e 0 MR (firstn q [u8 128]) s)) j)))| |exact R]. intros j y Hy. reflexivity.
      * eapply IH; [exact M1| |exact R]. intros j y Hy. cbn [write_bytes end_call s_chip on_chip]. rewrite wbyte_regs by exact Hy. reflexivity.
Qed.

(** ** What a computation can touch at most, whatever comes of it *)
(** the write is aside, or inside the registers [R] of socket [j] *)
Definition inside (j : N) (R : N -> bool) (b a : N) (d : list byte) : Prop :=
  aside b a d \/ (b = BSB_REG j /\ a + len d <= 65536 /\ forall x, a <= x -> x < a + len d -> setting x = true -> R x = true).
Definition kept (j : N) (R : N -> bool) (s s' : sys) : Prop :=
  forall i x, setting x = true -> (i <> j \/ R x = false) -> regs (socks (s_chip s') i) x = regs (socks (s_chip s) i) x.
Definition now_in (s : sys) : rfile := fun i => regs (socks (s_chip s) i).
Lemma kept_write e j R b a d s : inside j R b a d -> kept j R s (write_bytes e b a d s) /\ forall k, kept j R s (write_bytes e b a (firstn k d) s).
Proof.
  assert (K0 : agrees s (now_in s)) by (intros ? ? _; reflexivity).
  intros [H|(-> & L & H)]; (split; [|intros k]).
  - intros i x Hx _. exact (write_aside e b (now_in s) d a s H K0 i x Hx).
  - intros i x Hx _. destruct (aside_firstn b a d k H) as [H'|H']; [exact (write_aside e b (now_in s) _ a s H' K0 i x Hx)|rewrite H'; reflexivity].
  - intros i x Hx O. rewrite (write_regs e j a d s (now_in s) L K0 i x Hx). unfold setr.
    destruct (N.eqb_spec i j) as [->|], (N.leb_spec a x) as [A1|], (N.ltb_spec x (a + len d)) as [A2|]; try reflexivity.
    destruct O as [O|O]; [congruence|]. rewrite (H x A1 A2 Hx) in O. discriminate O.
  - assert (L' : len (firstn k d) <= len d) by (unfold len; rewrite firstn_length; lia).
    intros i x Hx O. rewrite (write_regs e j a (firstn k d) s (now_in s) ltac:(lia) K0 i x Hx). unfold setr.
    destruct (N.eqb_spec i j) as [->|], (N.leb_spec a x) as [A1|], (N.ltb_spec x (a + len (firstn k d))) as [A2|]; try reflexivity.
    destruct O as [O|O]; [congruence|]. rewrite (H x A1 ltac:(lia) Hx) in O. discriminate O.
Qed.
Lemma kept_run {A} e j R (p : prog A) : writes (inside j R) p -> forall s, kept j R s (snd (run e p s)).
Proof.
  induction p as [a|w| |b a d k IH|b a d k IH]; cbn [run writes]; intros M s; try (intros i x _ _; reflexivity).
  - unfold bus_read. intros i x Hx O. destruct (fails e (s_call s)) as [[q er]|].
    + pose proof (read_agrees e b (now_in s) (Nat.min q (length d)) a s (fun _ _ _ => eq_refl) i x Hx) as T. pose proof (read_length e b (Nat.min q (length d)) a s) as L.
      destruct (read_bytes e b a _ s) as [got s1]. cbn [fst snd] in *. rewrite (IH _ (M (got ++ skipn q d) (Err er) ltac:(rewrite app_length, L, skipn_length; lia)) _ i x Hx O). exact T.
    + pose proof (read_agrees e b (now_in s) (length d) a s (fun _ _ _ => eq_refl) i x Hx) as T. pose proof (read_length e b (length d) a s) as L.
      destruct (read_bytes e b a _ s) as [got s1]. cbn [fst snd] in *. rewrite (IH _ (M _ _ L) _ i x Hx O). exact T.
  - destruct M as [M1 M2]. unfold bus_write. intros i x Hx O. pose proof (kept_write e j R b a d s M1) as [K1 K2].
    destruct (fails e (s_call s)) as [[q er]|]; rewrite (IH _ (M2 _) _ i x Hx O); [exact (K2 q i x Hx O)|exact (K1 i x Hx O)].
Qed.

(** ** Each call *)
Lemma aside_reg j a d : a + len d <= 65536 -> (forall x, a <= x -> x < a + len d -> setting x = false) -> aside (BSB_REG j) a d.
Proof. intros H1 H2. right. right. eauto. Qed.
Lemma two x a : a <= x -> x < a + 2 -> x = a \/ x = a + 1. Proof. lia. Qed.
Lemma four x a : a <= x -> x < a + 4 -> x = a \/ x = a + 1 \/ x = a + 2 \/ x = a + 3. Proof. lia. Qed.
Lemma aside_cr j v : aside (BSB_REG j) Sn_CR [v].
Proof. apply aside_reg; [vm_compute; discriminate|]. change (len [v]) with 1. intros x H1 H2. replace x with Sn_CR by lia. reflexivity. Qed.
Lemma aside_ir j v : aside (BSB_REG j) Sn_IR [v].
Proof. apply aside_reg; [vm_compute; discriminate|]. change (len [v]) with 1. intros x H1 H2. replace x with Sn_IR by lia. reflexivity. Qed.
Lemma aside_two j a v w : a + 2 <= 65536 -> setting a = false -> setting (a + 1) = false -> aside (BSB_REG j) a [v; w].
Proof. intros L A B. apply aside_reg; [exact L|]. change (len [v; w]) with 2. intros x H1 H2. destruct (two x a H1 H2) as [->| ->]; assumption. Qed.
Lemma aside_tx j a d : aside (BSB_TX j) a d.
Proof.
  right. left. unfold BSB_TX. split; [lia|]. rewrite N.add_comm, N.mul_comm, N.mod_add by discriminate. discriminate.
Qed.

Section Frame.
  Context (j : N) (Hj : j < 8) (R : N -> bool).
  Notation W := (writes (inside j R)).
  Notation s := (socket_new j).
  Lemma fw_aside a d : aside (BSB_REG j) a d -> W (write_frame (register s) a d).
  Proof. intros H. cbn [write_frame writes]. rewrite so_reg by exact Hj. split; [now left|intros []; exact I]. Qed.
  Lemma fw_reg a d : a + len d <= 65536 -> (forall x, a <= x -> x < a + len d -> R x = true) -> W (write_frame (register s) a d).
  Proof. intros L H. cbn [write_frame writes]. rewrite so_reg by exact Hj. split; [|intros []; exact I]. right. auto. Qed.
  Lemma fw_tx a d : W (write_frame (tx_buffer s) a d).
  Proof. cbn [write_frame writes]. rewrite so_tx by exact Hj. split; [left; apply aside_tx|intros []; exact I]. Qed.
  Lemma fw_command c : W (command s c). Proof. apply fw_aside, aside_cr. Qed.
  Lemma fw_reset_interrupt m : W (reset_interrupt s m). Proof. apply fw_aside, aside_ir. Qed.
  Lemma fw_set_rx_read_pointer m : W (set_rx_read_pointer s m). Proof. apply fw_aside, aside_two; [vm_compute; discriminate|reflexivity|reflexivity]. Qed.
  Lemma fw_set_tx_read_pointer m : W (set_tx_read_pointer s m). Proof. apply fw_aside, aside_two; [vm_compute; discriminate|reflexivity|reflexivity]. Qed.
  Lemma fw_set_tx_write_pointer m : W (set_tx_write_pointer s m). Proof. apply fw_aside, aside_two; [vm_compute; discriminate|reflexivity|reflexivity]. Qed.
  Lemma fw_read blk a n : W (read_reg blk a n). Proof. cbn. intros got [u|er] _; exact I. Qed.
  Lemma fw_read_into blk a buf : W (read_into blk a buf). Proof. cbn. intros got [u|er] _; exact I. Qed.
  Lemma fw_read_then {T} blk a n (f : list byte -> T) : W (try d <- read_reg blk a n else Err ;; Ret (Ok (f d))).
  Proof. apply writes_try; [apply fw_read|]. intros d. exact I. Qed.
  Lemma fw_get_receive_size fuel : W (get_receive_size fuel s).
  Proof.
    induction fuel as [|fuel IH]; cbn [get_receive_size]; [exact I|]. apply writes_try; [apply fw_read|]. intros a.
    apply writes_try; [apply fw_read|]. intros b. destruct (bytes_eqb a b); [exact I|exact IH].
  Qed.
  Lemma fw_wait_send_ok fuel : W (wait_send_ok fuel s).
  Proof. induction fuel as [|fuel IH]; cbn [wait_send_ok]; [exact I|]. apply writes_try; [apply fw_read_then|]. intros [|]; [exact I|exact IH]. Qed.
  Definition mode_ok := R Sn_MR = true.
  Definition mask_ok := R Sn_IMR = true.
  Definition port_ok := R Sn_PORT = true /\ R (Sn_PORT + 1) = true.
  Definition dip_ok := R Sn_DIPR = true /\ R (Sn_DIPR + 1) = true /\ R (Sn_DIPR + 2) = true /\ R (Sn_DIPR + 3) = true.
  Definition dport_ok := R Sn_DPORT = true /\ R (Sn_DPORT + 1) = true.
  Lemma fw_set_mode m : mode_ok -> W (set_mode s m).
  Proof. intros H. apply fw_reg; [vm_compute; discriminate|]. change (len [_]) with 1. intros x H1 H2. replace x with Sn_MR by (change s_MODE with Sn_MR in *; lia). exact H. Qed.
  Lemma fw_set_interrupt_mask m : mask_ok -> W (set_interrupt_mask s m).
  Proof. intros H. apply fw_reg; [vm_compute; discriminate|]. change (len [_]) with 1. intros x H1 H2. replace x with Sn_IMR by (change s_INTERRUPT_MASK with Sn_IMR in *; lia). exact H. Qed.
  Lemma fw_set_source_port m : port_ok -> W (set_source_port s m).
  Proof. intros (H & H'). apply fw_reg; [vm_compute; discriminate|]. change (len (to_be m)) with 2. intros x H1 H2. destruct (two x _ H1 H2) as [->| ->]; assumption. Qed.
  Lemma fw_set_destination_port m : dport_ok -> W (set_destination_port s m).
  Proof. intros (H & H'). apply fw_reg; [vm_compute; discriminate|]. change (len (to_be m)) with 2. intros x H1 H2. destruct (two x _ H1 H2) as [->| ->]; assumption. Qed.
  Lemma fw_set_destination_ip m : dip_ok -> W (set_destination_ip s m).
  Proof.
    intros (A & B & C & D). destruct m. apply fw_reg; [vm_compute; discriminate|]. change (len (octets _)) with 4. intros x H1 H2.
    destruct (four x _ H1 H2) as [->|[->|[->| ->]]]; assumption.
  Qed.

  Ltac m1 := first
    [ exact I | apply fw_read_then | apply fw_read | apply fw_read_into | apply fw_reset_interrupt | apply fw_command
    | (apply fw_set_mode; assumption) | (apply fw_set_interrupt_mask; assumption) | (apply fw_set_source_port; assumption)
    | (apply fw_set_destination_port; assumption) | (apply fw_set_destination_ip; assumption) | apply fw_set_rx_read_pointer
    | apply fw_set_tx_write_pointer | apply fw_set_tx_read_pointer | apply fw_tx | apply fw_get_receive_size | apply fw_wait_send_ok
    | (apply writes_try; [|intros ?]) | (apply writes_bind; [|intros ?]) | (apply writes_slice_to; intros ?) | (apply writes_slice_from; intros ?)
    | match goal with
      | |- W (if ?b then _ else _) => destruct b
      | |- W (match ?b with _ => _ end) => destruct b
      end ].
  Ltac ms := repeat (cbv zeta; m1).

  Lemma fw_tcp_receive fuel d : W (tcp_receive fuel (mkTcp s) d).
  Proof. unfold tcp_receive, tcp_socket_receive, tcp_is_connected, tcp_receive_data, t_socket. ms. Qed.
  Lemma fw_udp_receive fuel d dst prt : W (udp_receive fuel (mkUdp s dst prt) d).
  Proof. unfold udp_receive, udp_socket_receive, u_socket. ms. Qed.
  Lemma fw_tcp_send fuel d : W (tcp_send fuel (mkTcp s) d).
  Proof. unfold tcp_send, tcp_socket_send, tcp_is_connected, tcp_send_data, t_socket. ms. Qed.
  Lemma fw_udp_flush_loop fuel dst prt : W (udp_flush_loop fuel (mkUdp s dst prt)).
  Proof.
    induction fuel as [|fuel IH]; cbn [udp_flush_loop]; [exact I|]. apply writes_bind; [unfold udp_try_flush_tx, u_socket; ms|].
    intros [u|[|x]]; [exact I|exact IH|exact I].
  Qed.
  Lemma fw_udp_socket_send fuel dst prt d : W (udp_socket_send fuel (mkUdp s dst prt) d).
  Proof. unfold udp_socket_send, udp_send_data, udp_block_send_command. cbn [u_socket u_dest]. ms; apply fw_udp_flush_loop. Qed.
  Lemma fw_udp_send_loop fuel dst prt d : forall outer f tot, W (udp_send_loop outer fuel (mkUdp s dst prt) d f tot).
  Proof.
    induction outer as [|outer IH]; intros f tot; cbn [udp_send_loop]; destruct (_ =? _); try exact I.
    apply writes_slice_from. intros rem. cbv zeta. apply writes_slice_to. intros b.
    apply writes_try; [apply fw_udp_socket_send|]. intros n. apply writes_try; [apply fw_read_then|]. intros fr. apply IH.
  Qed.
  Lemma fw_udp_send_all fuel dst prt d : W (udp_send_all fuel (mkUdp s dst prt) d).
  Proof. unfold udp_send_all. cbn [u_socket u_dest]. ms. apply fw_udp_send_loop. Qed.
  Lemma fw_udp_set_destination dst prt r : dip_ok -> dport_ok -> W (udp_set_destination (mkUdp s dst prt) r).
  Proof. intros Hi Hp. unfold udp_set_destination. cbn [u_socket u_dest u_port]. ms. Qed.
  Lemma fw_udp_send_to fuel dst prt r d : dip_ok -> dport_ok -> W (udp_send_to fuel (mkUdp s dst prt) r d).
  Proof.
    intros Hi Hp. unfold udp_send_to. destruct r as [r|]; [|exact I]. unfold udp_send_to_v4, udp_set_destination. cbn [u_socket u_dest u_port].
    match goal with |- context [if ?b then _ else _] => destruct b end.
    - unfold try_. pose proof (fw_set_destination_ip (a_ip r) Hi) as H1. pose proof (fw_set_destination_port (a_port r) Hp) as H2.
      unfold set_destination_ip, set_destination_port, write_frame in *. cbn [bind writes fst snd] in *.
      split; [apply H1|]. intros [u|x]; cbn [bind writes fst snd]; [|exact I]. split; [apply H2|].
      intros [u'|x]; cbn [bind writes fst snd]; [|exact I]. apply writes_bind; [apply fw_udp_send_all|]. intros; exact I.
    - cbn [bind fst snd]. apply writes_bind; [apply fw_udp_send_all|]. intros; exact I.
  Qed.
  Lemma fw_tcp_close d : mode_ok -> W (tcp_close d (mkTcp s)).
  Proof. intros Hm. unfold tcp_close, tcp_socket_close, t_socket. ms. Qed.
  Lemma fw_udp_close d dst prt : mode_ok -> W (udp_close d (mkUdp s dst prt)).
  Proof. intros Hm. unfold udp_close, udp_socket_close, u_socket. ms. Qed.
  Lemma fw_tcp_reopen : mode_ok -> mask_ok -> W (tcp_reopen (mkTcp s)). Proof. intros Hm Hk. unfold tcp_reopen, t_socket. ms. Qed.
  Lemma fw_tcp_socket_close : mode_ok -> W (tcp_socket_close (mkTcp s)). Proof. intros Hm. unfold tcp_socket_close, t_socket. ms. Qed.
  Lemma fw_tcp_connect_wait fuel : mode_ok -> mask_ok -> W (tcp_connect_wait fuel (mkTcp s)).
  Proof.
    intros Hm Hk. induction fuel as [|fuel IH]; cbn [tcp_connect_wait t_socket]; [exact I|]. apply writes_try; [apply fw_read_then|]. intros st.
    destruct (status_try_from st) as [[]|]; try exact IH; try exact I. apply writes_try; [now apply fw_tcp_socket_close|]. intros a. now apply fw_tcp_reopen.
  Qed.
  Lemma fw_udp_open dst prt : mode_ok -> mask_ok -> port_ok -> W (udp_open (mkUdp s dst prt)).
  Proof. intros Hm Hk Hp. unfold udp_open. cbn [u_socket u_port]. ms. Qed.
  Lemma fw_udp_connect dst prt r : mode_ok -> mask_ok -> port_ok -> dip_ok -> dport_ok -> W (udp_connect (mkUdp s dst prt) r).
  Proof.
    intros. unfold udp_connect. destruct r as [r|]; [|exact I]. apply writes_try; [now apply fw_udp_open|]. intros a. now apply fw_udp_set_destination.
  Qed.
  Lemma fw_udp_set_port dst prt p : port_ok -> W (udp_set_port (mkUdp s dst prt) p).
  Proof. intros Hp. unfold udp_set_port. cbn [u_socket u_dest u_port]. ms. Qed.
  Lemma fw_udp_bind dst prt p : mode_ok -> mask_ok -> port_ok -> W (udp_bind (mkUdp s dst prt) p).
  Proof.
    intros Hm Hk Hp. pose proof (fw_set_source_port p Hp) as Mp. unfold udp_bind, udp_set_port, set_source_port, write_frame, try_ in *.
    cbn [u_socket u_port u_dest bind writes] in *. split; [apply Mp|]. intros [a|x]; [|exact I]. cbn [bind fst snd].
    apply writes_bind; [now apply fw_udp_open|]. intros [b|x]; exact I.
  Qed.
  Lemma fw_tcp_connect fuel r : mode_ok -> mask_ok -> port_ok -> dip_ok -> dport_ok -> W (tcp_connect fuel (mkTcp s) r).
  Proof.
    intros Hm Hk Hp Hi Hd.
    assert (Dc : forall r, W (tcp_do_connect fuel (mkTcp s) r)) by (intros q; unfold tcp_do_connect, t_socket; ms; now apply fw_tcp_connect_wait).
    unfold tcp_connect. destruct r as [r|]; [|exact I]. apply writes_try; [unfold tcp_open, t_socket; ms|]. intros a.
    apply writes_try; [|intros b; exact I]. unfold tcp_socket_connect. apply writes_try; [apply fw_read_then|]. intros st.
    destruct (status_try_from st) as [[]|]; try exact I; try apply Dc;
      (apply writes_try; [now apply fw_tcp_socket_close|]; intros c; apply writes_try; [now apply fw_tcp_reopen|]; intros d; apply Dc).
  Qed.
  Lemma fw_sockop fuel q :
    match q with
    | KSetMode _ => mode_ok | KSetMask _ => mask_ok | KSetSourcePort _ => port_ok
    | KSetDestinationIp _ => dip_ok | KSetDestinationPort _ => dport_ok | _ => True
    end -> W (run_sockop fuel s q).
  Proof. intros H. destruct q; cbn [run_sockop]; ms. Qed.
  Lemma fw_devop q : q <> QResetDevice -> W (run_devop q).
  Proof.
    intros Hq. destruct q; cbn [run_devop]; (apply writes_bind; [|intros; exact I]); try congruence.
    all: try (cbn; intros got r _; destruct r; exact I).
    - unfold dev_set_mode. cbn [write_frame writes]. split; [|intros []; exact I]. left. left. split; [reflexivity|]. right. split; [reflexivity|].
      eexists. split; [reflexivity|apply mode_no_reset].
    - unfold dev_set_retry_timeout. apply writes_try; [|intros; exact I]. cbn [write_frame writes]. split; [|intros []; exact I]. left. left. split; [reflexivity|]. left.
      split; [reflexivity|vm_compute; discriminate].
    - unfold dev_set_retry_count. apply writes_try; [|intros; exact I]. cbn [write_frame writes]. split; [|intros []; exact I]. left. left. split; [reflexivity|]. left.
      split; [reflexivity|vm_compute; discriminate].
  Qed.
End Frame.

(** what each call may change of its socket's settings *)
Definition span (a n x : N) : bool := (a <=? x) && (x <? a + n).
Definition opens (x : N) : bool := (x =? Sn_MR) || (x =? Sn_IMR) || span Sn_PORT 2 x.
Definition aims (x : N) : bool := span Sn_DIPR 4 x || span Sn_DPORT 2 x.
Definition changes (o : op) (x : N) : bool :=
  match o with
  | OpTcpConnect _ _ | OpUdpConnect _ _ => opens x || aims x
  | OpUdpBind _ _ => opens x
  | OpUdpSendTo _ _ _ => aims x
  | OpTcpClose _ | OpUdpClose _ | OpSocket _ (KSetMode _) => x =? Sn_MR
  | OpUdpSetPort _ _ | OpSocket _ (KSetSourcePort _) => span Sn_PORT 2 x
  | OpSocket _ (KSetDestinationIp _) => span Sn_DIPR 4 x
  | OpSocket _ (KSetDestinationPort _) => span Sn_DPORT 2 x
  | OpSocket _ (KSetMask _) => x =? Sn_IMR
  | _ => false
  end.
(** the writes of a call on socket [j0]; of one without socket, no other than [aside] *)
Lemma fw_step_at fuel a o j0 : good (handles a) -> o <> OpDevice QResetDevice ->
  (forall h y, op_handle o = Some h -> lookup h (handles a) = Some y -> j0 = index (handle_socket y)) ->
  writes (inside j0 (changes o)) (step fuel a o).
Proof.
  intros G Hr H. destruct (op_handle o) as [h|] eqn:E.
  - destruct (lookup h (handles a)) as [y|] eqn:L.
    + destruct (good_lookup _ _ _ G L) as (j & Hj & Ej). pose proof (H h y eq_refl L) as H'. rewrite Ej in H'. change (index (socket_new j)) with j in H'. subst j0. clear H.
      destruct o; cbn [op_handle] in E; try discriminate E; injection E as ->; cbn [step]; rewrite ?L; destruct y as [sk0|t|u]; try exact Logic.I; cbn [handle_socket] in Ej.
      all: try (destruct t as [t]; cbn [t_socket] in Ej; subst t).
      all: try (destruct u as [us ud up]; cbn [u_socket] in Ej; subst us).
      all: try subst sk0.
      all: try (match goal with |- writes _ (match ?b with _ => _ end) => destruct b; exact Logic.I end).
      all: try (apply writes_bind; [|intros; exact Logic.I]).
      all: try solve [apply fw_tcp_connect; first [exact Hj|repeat split] | apply fw_tcp_send; exact Hj | apply fw_tcp_receive; exact Hj | apply fw_tcp_close; first [exact Hj|repeat split]
        | apply fw_udp_connect; first [exact Hj|repeat split] | apply fw_udp_bind; first [exact Hj|repeat split] | apply fw_udp_send_all; exact Hj
        | apply fw_udp_send_to; first [exact Hj|repeat split]
        | apply fw_udp_receive; exact Hj | apply fw_udp_close; first [exact Hj|repeat split] | apply fw_udp_set_port; first [exact Hj|repeat split] ].
      all: apply fw_sockop; [exact Hj|]; destruct q; repeat split.
    + destruct o; cbn [op_handle] in E; try discriminate E; injection E as ->; cbn [step]; rewrite ?L; exact Logic.I.
  - destruct o; cbn [op_handle] in E; try discriminate E; cbn [step]; try exact Logic.I.
    + destruct (take_socket (dev a)) as [? []]; exact Logic.I.
    + destruct (tcp_socket (dev a)) as [? []]; exact Logic.I.
    + destruct (udp_socket (dev a)) as [? []]; exact Logic.I.
    + apply writes_bind; [|intros; exact Logic.I]. apply fw_devop. congruence.
Qed.
Lemma fw_step fuel a o : good (handles a) -> o <> OpDevice QResetDevice -> writes (inside (op_socket a o) (changes o)) (step fuel a o).
Proof. intros G Hr. apply fw_step_at; [exact G|exact Hr|]. intros h y E L. unfold op_socket. now rewrite E, L. Qed.

(** ** What the settings are after a call *)
Definition same_addr (a b : addr4) : {a = b} + {a <> b}.
Proof. decide equality; [apply N.eq_dec|decide equality; apply Byte.byte_eq_dec]. Defined.
Definition same (f g : rfile) : Prop := forall i x, f i x = g i x.
Lemma same_refl f : same f f. Proof. intros ? ?. reflexivity. Qed.
Lemma same_set i a d f g : same f g -> same (setr i a d f) (setr i a d g).
Proof. intros H j x. unfold setr. now rewrite H. Qed.
Definition opened (i port mode : N) (f : rfile) : rfile := setr i Sn_IMR [x00] (setr i Sn_MR [u8 mode] (setr i Sn_PORT [u8 (port / 256); u8 port] f)).
Definition aimed (i : N) (r : addr4) (f : rfile) : rfile := setr i Sn_DPORT [u8 (a_port r / 256); u8 (a_port r)] (setr i Sn_DIPR [ip0 (a_ip r); ip1 (a_ip r); ip2 (a_ip r); ip3 (a_ip r)] f).
Lemma setr_one i a v f : setr i a [v] f i a = v.
Proof. unfold setr. change (len [v]) with 1. rewrite N.eqb_refl, N.leb_refl, N.sub_diag. destruct (N.ltb_spec a (a + 1)); [reflexivity|lia]. Qed.
Lemma setr_off i a v f j x : x <> a -> setr i a [v] f j x = f j x.
Proof. intros H. unfold setr. change (len [v]) with 1. destruct (j =? i), (N.leb_spec a x), (N.ltb_spec x (a + 1)); cbn [andb]; try reflexivity; lia. Qed.
Lemma setr_other i a d f j x : j <> i -> setr i a d f j x = f j x.
Proof. intros H. unfold setr. apply N.eqb_neq in H. now rewrite H. Qed.
Lemma reopened i f g : same f g -> g i Sn_MR = x01 -> g i Sn_IMR = x00 -> same (setr i Sn_IMR [x00] (setr i Sn_MR [x01] (setr i Sn_MR [x00] f))) g.
Proof.
  intros S M K j x. destruct (N.eq_dec j i) as [->|Hj]; [|rewrite !setr_other by exact Hj; apply S].
  destruct (N.eq_dec x Sn_IMR) as [->|H1]; [now rewrite setr_one|]. rewrite setr_off by exact H1.
  destruct (N.eq_dec x Sn_MR) as [->|H2]; [now rewrite setr_one|]. rewrite !setr_off by exact H2. apply S.
Qed.
Lemma inside_none j b a d : inside j (fun _ => false) b a d -> aside b a d.
Proof.
  intros [H|(-> & L & H)]; [exact H|]. apply aside_reg; [exact L|]. intros x H1 H2. specialize (H x H1 H2). destruct (setting x); [|reflexivity]. now discriminate H.
Qed.
Lemma follow_aside {A} (Q : A -> rfile -> Prop) (p : prog A) f : writes aside p -> (forall a, Q a f) -> follow Q p f.
Proof. intros W H. induction p as [a|w| |b a d k IH|b a d k IH]; cbn [follow writes] in *; auto. destruct W as [W1 W2]. left. auto. Qed.
Lemma follow_none {A} j (Q : A -> rfile -> Prop) (p : prog A) f : writes (inside j (fun _ => false)) p -> (forall a, Q a f) -> follow Q p f.
Proof. intros W. apply follow_aside. revert W. apply writes_mono. intros b a d. apply inside_none. Qed.
Lemma follow_try {A E R} (Q : R -> rfile -> Prop) (p : prog (res A E)) (h : E -> R) (k : A -> prog R) f :
  follow (fun r f' => match r with Ok a => follow Q (k a) f' | Err e => Q (h e) f' end) p f -> follow Q (try_ p h k) f.
Proof. intros H. apply follow_bind. revert H. apply follow_mono. intros [a|x] f' H; exact H. Qed.

Section Table.
  Context (j : N) (Hj : j < 8).
  Notation s := (socket_new j).
  Lemma fo_set a d (Q : res unit berr -> rfile -> Prop) f : a + len d <= 65536 -> Q (Ok tt) (setr j a d f) -> (forall er f', Q (Err er) f') ->
    follow Q (write_frame (register s) a d) f.
  Proof. intros L H1 H2. cbn [write_frame follow]. rewrite so_reg by exact Hj. right. left. exists j. auto. Qed.
  Lemma fo_mode m (Q : res unit berr -> rfile -> Prop) f : Q (Ok tt) (setr j Sn_MR [u8 (protocol_u8 m)] f) -> (forall er f', Q (Err er) f') -> follow Q (set_mode s m) f.
  Proof. intros. apply fo_set; auto. vm_compute; discriminate. Qed.
  Lemma fo_mask m (Q : res unit berr -> rfile -> Prop) f : Q (Ok tt) (setr j Sn_IMR [u8 m] f) -> (forall er f', Q (Err er) f') -> follow Q (set_interrupt_mask s m) f.
  Proof. intros. apply fo_set; auto. vm_compute; discriminate. Qed.
  Lemma fo_port m (Q : res unit berr -> rfile -> Prop) f : Q (Ok tt) (setr j Sn_PORT (to_be m) f) -> (forall er f', Q (Err er) f') -> follow Q (set_source_port s m) f.
  Proof. intros. apply fo_set; auto. vm_compute; discriminate. Qed.
  Lemma fo_dport m (Q : res unit berr -> rfile -> Prop) f : Q (Ok tt) (setr j Sn_DPORT (to_be m) f) -> (forall er f', Q (Err er) f') -> follow Q (set_destination_port s m) f.
  Proof. intros. apply fo_set; auto. vm_compute; discriminate. Qed.
  Lemma fo_dip m (Q : res unit berr -> rfile -> Prop) f : Q (Ok tt) (setr j Sn_DIPR (octets m) f) -> (forall er f', Q (Err er) f') -> follow Q (set_destination_ip s m) f.
  Proof. intros. destruct m. apply fo_set; auto. vm_compute; discriminate. Qed.
  Lemma fo_command c (Q : res unit berr -> rfile -> Prop) f : (forall r, Q r f) -> follow Q (command s c) f.
  Proof. intros. eapply follow_none; [now apply (fw_command j Hj)|assumption]. Qed.
  Lemma fo_clear c (Q : res unit berr -> rfile -> Prop) f : (forall r, Q r f) -> follow Q (reset_interrupt s c) f.
  Proof. intros. eapply follow_none; [now apply (fw_reset_interrupt j Hj)|assumption]. Qed.
  Lemma fo_status (Q : res byte berr -> rfile -> Prop) f : (forall r, Q r f) -> follow Q (get_status s) f.
  Proof. intros. eapply (follow_none j); [apply fw_read_then|assumption]. Qed.

  Ltac er := intros; exact I.
  Ltac f1 := apply follow_try; first
    [ apply fo_command; intros [?|?]; [|exact I] | apply fo_clear; intros [?|?]; [|exact I]
    | apply fo_mode; [|er] | apply fo_mask; [|er] | apply fo_port; [|er] | apply fo_dport; [|er] | apply fo_dip; [|er] ].

  (** [g] on success, anything after a bus error, nothing else *)
  Definition tcp_leaves (g : rfile) (r : res unit terr) (f' : rfile) : Prop :=
    match r with Ok _ => same f' g | Err (TOther _) => True | Err _ => False end.
  Lemma fo_tcp_open p f : follow (tcp_leaves (opened j p 1 f)) (tcp_open (mkTcp s) p) f.
  Proof. unfold tcp_open, t_socket. cbv zeta. do 6 f1. cbn [follow tcp_leaves]. apply same_refl. Qed.
  Lemma fo_tcp_close f g : same f g -> follow (tcp_leaves (setr j Sn_MR [x00] g)) (tcp_socket_close (mkTcp s)) f.
  Proof. intros S. unfold tcp_socket_close, t_socket. cbv zeta. do 2 f1. cbn [follow tcp_leaves]. now apply same_set. Qed.
  Lemma fo_tcp_reopen f g : same f g -> follow (tcp_leaves (setr j Sn_IMR [x00] (setr j Sn_MR [x01] g))) (tcp_reopen (mkTcp s)) f.
  Proof. intros S. unfold tcp_reopen, t_socket. cbv zeta. do 5 f1. cbn [follow tcp_leaves]. now apply same_set, same_set. Qed.
  Lemma fo_tcp_close_reopen {A} (Q : res A terr -> rfile -> Prop) (k : unit -> prog (res A terr)) f g : same f g -> g j Sn_MR = x01 -> g j Sn_IMR = x00 ->
    (forall f', same f' g -> follow Q (k tt) f') -> (forall er f', Q (Err (TOther er)) f') ->
    follow Q (try a <- tcp_socket_close (mkTcp s) else Err ;; try b <- tcp_reopen (mkTcp s) else Err ;; k b) f.
  Proof.
    intros S M K H E. apply follow_try. eapply follow_mono; [|apply (fo_tcp_close f g S)]. intros [[]|[]] f' L; cbn [tcp_leaves] in L; try contradiction; try apply E.
    apply follow_try. eapply follow_mono; [|apply (fo_tcp_reopen f' _ L)]. intros [[]|[]] f2 L2; cbn [tcp_leaves] in L2; try contradiction; try apply E.
    apply H. intros i x. rewrite L2. apply (reopened j g g (same_refl g) M K).
  Qed.
  Lemma fo_tcp_wait fuel : forall f g, same f g -> g j Sn_MR = x01 -> g j Sn_IMR = x00 -> follow (tcp_leaves g) (tcp_connect_wait fuel (mkTcp s)) f.
  Proof.
    induction fuel as [|fuel IH]; intros f g S M K; cbn [tcp_connect_wait t_socket]; [exact I|]. apply follow_try, fo_status. intros [st|er]; [|exact I].
    destruct (status_try_from st) as [[]|]; try (now apply IH); [|cbn [follow tcp_leaves]; exact S].
    apply follow_try. eapply follow_mono; [|apply (fo_tcp_close f g S)]. intros [[]|[]] f' L; cbn [tcp_leaves] in L; try contradiction; try exact I.
    eapply follow_mono; [|apply (fo_tcp_reopen f' _ L)]. intros [[]|[]] f2 L2; cbn [tcp_leaves] in *; try contradiction; try exact I.
    intros i x. rewrite L2. apply (reopened j g g (same_refl g) M K).
  Qed.
  Lemma aimed_keeps r g x : x = Sn_MR \/ x = Sn_IMR -> aimed j r g j x = g j x.
  Proof. intros H. destruct r as [[a b c d] p]. unfold aimed, setr. rewrite N.eqb_refl. destruct H as [-> | ->]; reflexivity. Qed.
  Lemma fo_tcp_do_connect fuel r f g : same f g -> g j Sn_MR = x01 -> g j Sn_IMR = x00 -> follow (tcp_leaves (aimed j r g)) (tcp_do_connect fuel (mkTcp s) r) f.
  Proof.
    intros S M K. unfold tcp_do_connect, t_socket. cbv zeta. do 3 f1. apply fo_tcp_wait.
    - now apply same_set, same_set.
    - rewrite aimed_keeps by auto. exact M.
    - rewrite aimed_keeps by auto. exact K.
  Qed.
  Lemma fo_tcp_connect fuel r f : follow (fun res f' => match res with
      | Ok _ => same f' (aimed j r (opened j (49849 + j) 1 f))
      | Err (NbOther TUnsupportedMode) => same f' (opened j (49849 + j) 1 f)
      | Err (NbOther (TOther _)) => True | Err _ => False end) (tcp_connect fuel (mkTcp s) (V4 r)) f.
  Proof.
    set (g := opened j (49849 + j) 1 f).
    assert (M : g j Sn_MR = x01) by (unfold g, opened; rewrite setr_off by discriminate; apply setr_one).
    assert (K : g j Sn_IMR = x00) by (apply setr_one).
    unfold tcp_connect. apply follow_try. eapply follow_mono; [|apply fo_tcp_open]. intros [[]|[]] f' L; cbn [tcp_leaves] in L; try contradiction; try exact I.
    apply follow_try.
    assert (D : forall f', same f' g -> follow (fun r0 f'0 => match r0 with Ok _ => same f'0 (aimed j r g) | Err TUnsupportedMode => same f'0 g | Err (TOther _) => True | Err _ => False end)
                 (tcp_do_connect fuel (mkTcp s) r) f').
    { intros f1 S1. eapply follow_mono; [|apply (fo_tcp_do_connect fuel r f1 g S1 M K)]. intros [[]|[]] f2 L2; cbn [tcp_leaves] in L2; try contradiction; auto. }
    eapply follow_mono with (Q := fun r0 f'0 => match r0 with Ok _ => same f'0 (aimed j r g) | Err TUnsupportedMode => same f'0 g | Err (TOther _) => True | Err _ => False end).
    { intros [[]|[]] f2 L2; cbn [follow]; try contradiction; auto. }
    unfold tcp_socket_connect. apply follow_try, fo_status. intros [st|er]; [|exact I].
    destruct (status_try_from st) as [[]|]; try exact L; try (now apply D);
      (apply (fo_tcp_close_reopen _ (fun _ => tcp_do_connect fuel (mkTcp s) r) f' g L M K); [exact D|intros; exact I]).
  Qed.

  Definition udp_leaves (g : rfile) (r : res unit uerr) (f' : rfile) : Prop :=
    match r with Ok _ => same f' g | Err (UOther _) => True | Err _ => False end.
  Lemma fo_udp_open dst prt f : follow (fun r f' => match r with Ok _ => same f' (opened j prt 2 f) | Err _ => True end) (udp_open (mkUdp s dst prt)) f.
  Proof. unfold udp_open. cbn [u_socket u_port]. cbv zeta. do 6 f1. cbn [follow]. apply same_refl. Qed.
  (** the destination as [udp_set_destination] leaves it: nothing is written when it is the one it knows *)
  Definition redirected (dst : option addr4) (r : addr4) (f : rfile) : rfile :=
    match dst with Some d => if same_addr d r then f else aimed j r f | None => aimed j r f end.
  Lemma fo_udp_dest dst prt r f g : same f g ->
    follow (fun q f' => udp_leaves (redirected dst r g) (snd q) f' /\ match snd q with Ok _ => u_socket (fst q) = s | Err _ => True end) (udp_set_destination (mkUdp s dst prt) r) f.
  Proof.
    intros S. unfold udp_set_destination, redirected. cbn [u_socket u_dest u_port].
    assert (A : follow (fun q f' => udp_leaves (aimed j r g) (snd q) f' /\ match snd q with Ok _ => u_socket (fst q) = s | Err _ => True end)
      (try a <- set_destination_ip s (a_ip r) else (fun e => (mkUdp s dst prt, Err (UOther e))) ;;
       try b <- set_destination_port s (a_port r) else (fun e => (mkUdp s dst prt, Err (UOther e))) ;; Ret (mkUdp s (Some r) prt, Ok tt)) f).
    { apply follow_try, fo_dip; [|intros; split; exact I]. apply follow_try, fo_dport; [|intros; split; exact I]. cbn [follow fst snd udp_leaves u_socket].
      split; [now apply same_set, same_set|reflexivity]. }
    destruct dst as [d|]; [|exact A]. destruct (same_addr d r) as [->|Hn].
    - assert (E : addr4_eqb r r = true) by now apply addr4_eqb_eq. rewrite E. cbn [negb follow fst snd udp_leaves u_socket]. auto.
    - destruct (addr4_eqb d r) eqn:E; cbn [negb]; [apply addr4_eqb_eq in E; contradiction|exact A].
  Qed.
  Lemma fo_udp_connect dst prt r f :
    follow (fun q f' => udp_leaves (redirected dst r (opened j prt 2 f)) (snd q) f') (udp_connect (mkUdp s dst prt) (V4 r)) f.
  Proof.
    unfold udp_connect. apply follow_try. eapply follow_mono; [|apply fo_udp_open]. intros [[]|er] f' L; [|exact I].
    eapply follow_mono; [|apply (fo_udp_dest dst prt r f' _ L)]. intros q f2 [H _]. exact H.
  Qed.
  Lemma fo_udp_set_port dst prt p f : follow (fun q f' => udp_leaves (setr j Sn_PORT (to_be p) f) (snd q) f') (udp_set_port (mkUdp s dst prt) p) f.
  Proof. unfold udp_set_port. cbn [u_socket u_dest u_port]. cbv zeta. f1. cbn [follow snd udp_leaves]. apply same_refl. Qed.
  Lemma fo_udp_bind dst prt p f : follow (fun q f' => udp_leaves (opened j p 2 f) (snd q) f') (udp_bind (mkUdp s dst prt) p) f.
  Proof.
    assert (T : same (opened j p 2 (setr j Sn_PORT (to_be p) f)) (opened j p 2 f)).
    { apply same_set, same_set. intros i x. unfold setr, to_be. destruct ((i =? j) && (Sn_PORT <=? x) && (x <? Sn_PORT + len [u8 (p / 256); u8 p])); reflexivity. }
    unfold udp_bind, udp_set_port. cbn [u_socket u_dest u_port]. cbv zeta. apply follow_bind. apply follow_try, fo_port; [|intros; exact I]. cbn [follow fst snd].
    apply follow_try. eapply follow_mono; [|apply fo_udp_open]. intros [[]|er] f' L; [|exact I]. cbn [follow snd udp_leaves]. intros i x. rewrite L. apply T.
  Qed.
  Lemma fo_udp_send_to fuel dst prt r d f : follow (fun q f' => match snd q with Err (NbOther (UOther _)) => True | _ => same f' (redirected dst r f) end)
    (udp_send_to fuel (mkUdp s dst prt) (V4 r) d) f.
  Proof.
    unfold udp_send_to, udp_send_to_v4. apply follow_bind. eapply follow_mono; [|apply (fo_udp_dest dst prt r f f (same_refl f))].
    intros [u' [[]|e]] f' [L Hs]; cbn [fst snd udp_leaves] in *; [|destruct e; try contradiction; exact I].
    destruct u' as [us ud up]. cbn [u_socket] in Hs. subst us. apply follow_bind. eapply (follow_none j); [now apply fw_udp_send_all|].
    intros q. cbn [follow snd]. destruct q as [?|[|[]]]; try exact I; exact L.
  Qed.
  Lemma fo_tcp_shut d f : follow (fun q f' => tcp_leaves (setr j Sn_MR [x00] f) (snd q) f') (tcp_close d (mkTcp s)) f.
  Proof.
    unfold tcp_close. apply follow_try. eapply follow_mono; [|apply (fo_tcp_close f f (same_refl f))]. intros [[]|e] f' L; [|exact L].
    destruct (release_socket d (t_socket (mkTcp s))); [exact L|exact I].
  Qed.
  Lemma fo_udp_shut d dst prt f : follow (fun q f' => udp_leaves (setr j Sn_MR [x00] f) (snd q) f') (udp_close d (mkUdp s dst prt)) f.
  Proof.
    unfold udp_close, udp_socket_close. cbn [u_socket]. cbv zeta. apply follow_try. apply follow_try, fo_mode; [|intros; exact I].
    apply follow_try, fo_command. intros [?|?]; [|exact I]. cbn [follow]. destruct (release_socket d s); cbn [follow snd udp_leaves]; [apply same_refl|exact I].
  Qed.
End Table.

(** the table: what the settings of all sockets are after the call [o] made in the state [a] of
    the program answered [r], if they were [f] before; not said where a bus error cut the call
    short.  A UDP socket does not write a destination again that it wrote last. *)
Definition after_call (a : History.app) (o : op) (r : out) (f : rfile) : option rfile :=
  match o, r with
  | OpTcpConnect h (V4 q), RTcpConnect x =>
      let i := op_socket a o in
      match x with
      | Ok _ => Some (aimed i q (opened i (49849 + i) 1 f))
      | Err (NbOther TUnsupportedMode) => Some (opened i (49849 + i) 1 f)
      | Err _ => None
      end
  | OpUdpConnect h (V4 q), RUdpUnit x =>
      match x, lookup h (handles a) with
      | Ok _, Some (HUdp u) => let i := op_socket a o in Some (redirected i (u_dest u) q (opened i (u_port u) 2 f))
      | _, _ => None
      end
  | OpUdpBind h p, RUdpUnit x => match x with Ok _ => Some (opened (op_socket a o) p 2 f) | Err _ => None end
  | OpUdpSetPort h p, RUdpUnit x => match x with Ok _ => Some (setr (op_socket a o) Sn_PORT [u8 (p / 256); u8 p] f) | Err _ => None end
  | OpUdpSendTo h (V4 q) _, RUdpSend x =>
      match x, lookup h (handles a) with
      | Err (NbOther (UOther _)), _ => None
      | _, Some (HUdp u) => Some (redirected (op_socket a o) (u_dest u) q f)
      | _, _ => None
      end
  | OpTcpClose h, RTcpClose x => match x with Ok _ => Some (setr (op_socket a o) Sn_MR [x00] f) | Err _ => None end
  | OpUdpClose h, RUdpUnit x => match x with Ok _ => Some (setr (op_socket a o) Sn_MR [x00] f) | Err _ => None end
  | OpSocket h (KSetMode m), RSockop (KUnit x) => match x with Ok _ => Some (setr (op_socket a o) Sn_MR [u8 (protocol_u8 m)] f) | Err _ => None end
  | OpSocket h (KSetSourcePort p), RSockop (KUnit x) => match x with Ok _ => Some (setr (op_socket a o) Sn_PORT [u8 (p / 256); u8 p] f) | Err _ => None end
  | OpSocket h (KSetDestinationIp q), RSockop (KUnit x) => match x with Ok _ => Some (setr (op_socket a o) Sn_DIPR [ip0 q; ip1 q; ip2 q; ip3 q] f) | Err _ => None end
  | OpSocket h (KSetDestinationPort p), RSockop (KUnit x) => match x with Ok _ => Some (setr (op_socket a o) Sn_DPORT [u8 (p / 256); u8 p] f) | Err _ => None end
  | OpSocket h (KSetMask m), RSockop (KUnit x) => match x with Ok _ => Some (setr (op_socket a o) Sn_IMR [u8 m] f) | Err _ => None end
  | OpDevice QResetDevice, RDevice (DUnit x) => match x with Ok _ => Some (fun _ => regs_reset) | Err _ => None end
  | _, _ => Some f
  end.
(** the call was cut short by a bus error *)
Definition cut_short (r : out) : Prop :=
  exists k, r = RTcpConnect (Err (NbOther (TOther k))) \/ r = RUdpUnit (Err (UOther k)) \/ r = RUdpSend (Err (NbOther (UOther k))) \/
    r = RTcpClose (Err (TOther k)) \/ r = RSockop (KUnit (Err k)) \/ r = RDevice (DUnit (Err k)).
Definition told (r : out) (f : option rfile) (f' : rfile) : Prop := match f with Some g => same f' g | None => cut_short r end.
Ltac cut := eexists; cbn [snd]; tauto.
Lemma follow_step fuel a o f : good (handles a) -> follow (fun p f' => told (snd p) (after_call a o (snd p) f) f') (step fuel a o) f.
Proof.
  intros G.
  assert (Fr : (forall x, changes o x = false) -> o <> OpDevice QResetDevice -> (forall r, after_call a o r f = Some f) ->
    follow (fun p f' => told (snd p) (after_call a o (snd p) f) f') (step fuel a o) f).
  { intros H1 H2 H3. eapply (follow_none (op_socket a o)); [|intros p; rewrite H3; apply same_refl].
    eapply writes_mono; [|apply (fw_step fuel a o G H2)]. intros b ad d [H|(-> & L & H)]; [now left|right]. split; [reflexivity|]. split; [exact L|].
    intros x A1 A2 A3. rewrite <- (H1 x). now apply H. }
  destruct o; try (apply Fr; [reflexivity|discriminate|intros []; reflexivity]).
  - destruct remote as [q|]; [|cbn [step]; destruct (lookup h (handles a)) as [[]|]; cbn [tcp_connect bind follow snd after_call told]; apply same_refl].
    cbn [step]. destruct (lookup h (handles a)) as [y|] eqn:L; [|apply same_refl]. destruct (good_lookup _ _ _ G L) as (j & Hj & Ej).
    destruct y as [s|[t]|u]; try apply same_refl. cbn [handle_socket t_socket] in Ej. subst t. apply follow_bind.
    eapply follow_mono; [|apply (fo_tcp_connect j Hj fuel q f)]. intros r f' H. cbn [follow snd after_call]. unfold op_socket. cbn [op_handle]. rewrite L. cbn [handle_socket t_socket index socket_new].
    destruct r as [?|[|[]]]; try contradiction; first [exact H|cut].
  - cbn [step]. destruct (lookup h (handles a)) as [y|] eqn:L; [|apply same_refl]. destruct (good_lookup _ _ _ G L) as (j & Hj & Ej).
    destruct y as [s|[t]|u]; try apply same_refl. cbn [handle_socket t_socket] in Ej. subst t. apply follow_bind.
    eapply follow_mono; [|apply (fo_tcp_shut j Hj (dev a) f)]. intros [d' r] f' H. cbn [follow fst snd after_call] in *. unfold op_socket. cbn [op_handle]. rewrite L. cbn [handle_socket t_socket index socket_new].
    destruct r as [?|[]]; try contradiction; first [exact H|cut].
  - cbn [step]. destruct (lookup h (handles a)) as [y|] eqn:L; [|destruct remote; apply same_refl]. destruct (good_lookup _ _ _ G L) as (j & Hj & Ej).
    destruct y as [s|t|[us ud up]]; try (destruct remote; apply same_refl). cbn [handle_socket u_socket] in Ej. subst us. apply follow_bind.
    destruct remote as [q|]; [|apply same_refl].
    eapply follow_mono; [|apply (fo_udp_connect j Hj ud up q f)]. intros [u' r] f' H. cbn [follow fst snd after_call] in *. unfold op_socket. cbn [op_handle]. rewrite L. cbn [handle_socket u_socket u_dest u_port index socket_new].
    destruct r as [?|[]]; try contradiction; first [exact H|cut].
  - cbn [step]. destruct (lookup h (handles a)) as [y|] eqn:L; [|apply same_refl]. destruct (good_lookup _ _ _ G L) as (j & Hj & Ej).
    destruct y as [s|t|[us ud up]]; try apply same_refl. cbn [handle_socket u_socket] in Ej. subst us. apply follow_bind.
    eapply follow_mono; [|apply (fo_udp_bind j Hj ud up port f)]. intros [u' r] f' H. cbn [follow fst snd after_call] in *. unfold op_socket. cbn [op_handle]. rewrite L. cbn [handle_socket u_socket index socket_new].
    destruct r as [?|[]]; try contradiction; first [exact H|cut].
  - cbn [step]. destruct (lookup h (handles a)) as [y|] eqn:L; [|destruct remote; apply same_refl]. destruct (good_lookup _ _ _ G L) as (j & Hj & Ej).
    destruct y as [s|t|[us ud up]]; try (destruct remote; apply same_refl). cbn [handle_socket u_socket] in Ej. subst us. apply follow_bind.
    destruct remote as [q|]; [|apply same_refl].
    eapply follow_mono; [|apply (fo_udp_send_to j Hj fuel ud up q d f)]. intros [u' r] f' H. cbn [follow fst snd after_call] in *. unfold op_socket. cbn [op_handle]. rewrite L. cbn [handle_socket u_socket u_dest index socket_new].
    destruct r as [?|[|[]]]; first [exact H|cut].
  - cbn [step]. destruct (lookup h (handles a)) as [y|] eqn:L; [|apply same_refl]. destruct (good_lookup _ _ _ G L) as (j & Hj & Ej).
    destruct y as [s|t|[us ud up]]; try apply same_refl. cbn [handle_socket u_socket] in Ej. subst us. apply follow_bind.
    eapply follow_mono; [|apply (fo_udp_shut j Hj (dev a) ud up f)]. intros [u' r] f' H. cbn [follow fst snd after_call] in *. unfold op_socket. cbn [op_handle]. rewrite L. cbn [handle_socket u_socket index socket_new].
    destruct r as [?|[]]; try contradiction; first [exact H|cut].
  - destruct (match q with QResetDevice => true | _ => false end) eqn:E.
    2: { apply Fr; [reflexivity|intros [= ->]; discriminate E|intros []; destruct q; try discriminate E; reflexivity]. }
    destruct q; try discriminate E. cbn [step run_devop]. unfold reset_device. cbn [write_frame bind follow]. right. right.
    split; [reflexivity|]. split; [reflexivity|]. split; [reflexivity|]. split; [apply same_refl|]. intros. cut.
  - cbn [step]. destruct (lookup h (handles a)) as [y|] eqn:L; [|apply same_refl]. destruct (good_lookup _ _ _ G L) as (j & Hj & Ej).
    destruct y as [s|t|[us ud up]]; try apply same_refl. cbn [handle_socket u_socket] in Ej. subst us. apply follow_bind.
    eapply follow_mono; [|apply (fo_udp_set_port j Hj ud up port f)]. intros [u' r] f' H. cbn [follow fst snd after_call] in *. unfold op_socket. cbn [op_handle]. rewrite L. cbn [handle_socket u_socket index socket_new].
    destruct r as [?|[]]; try contradiction; first [exact H|cut].
  - assert (Nl : lookup h (handles a) = None \/ (forall s, lookup h (handles a) <> Some (HSock s)) -> follow (fun p f' => told (snd p) (after_call a (OpSocket h q) (snd p) f) f') (step fuel a (OpSocket h q)) f).
    { intros H. cbn [step]. destruct (lookup h (handles a)) as [[s|t|u]|]; [|destruct q; apply same_refl..]. destruct H as [H|H]; [discriminate H|now destruct (H s)]. }
    destruct (lookup h (handles a)) as [y|] eqn:L; [|apply Nl; now left]. destruct y as [s|t|u]; try (apply Nl; right; discriminate). clear Nl.
    destruct (good_lookup _ _ _ G L) as (j & Hj & Ej). cbn [handle_socket] in Ej. subst s.
    assert (Os : op_socket a (OpSocket h q) = j) by (unfold op_socket; cbn [op_handle]; rewrite L; reflexivity).
    destruct q; try (apply Fr; [reflexivity|discriminate|intros []; reflexivity]); cbn [step]; rewrite L; apply follow_bind; cbn [run_sockop]; apply follow_bind.
    + apply fo_mode; [exact Hj| |intros; cut]. cbn [follow snd after_call]. rewrite Os. apply same_refl.
    + apply fo_port; [exact Hj| |intros; cut]. cbn [follow snd after_call]. rewrite Os. apply same_refl.
    + apply fo_dip; [exact Hj| |intros; cut]. cbn [follow snd after_call]. rewrite Os. apply same_refl.
    + apply fo_dport; [exact Hj| |intros; cut]. cbn [follow snd after_call]. rewrite Os. apply same_refl.
    + apply fo_mask; [exact Hj| |intros; cut]. cbn [follow snd after_call]. rewrite Os. apply same_refl.
Qed.

(** ** Initialisation and programs *)
Lemma aside_common x d : 0 < x -> x + len d <= 65536 -> aside COMMON x d.
Proof. intros H1 H2. left. split; [reflexivity|]. left. auto. Qed.
Lemma aside_refresh h : writes aside (refresh h).
Proof.
  assert (W : forall b x d c c' k, 0 < x -> x + len d <= 65536 -> (forall c, writes aside (k c)) -> writes aside (write_if b x d c c' k)).
  { intros b x d c c' k H1 H2 Hk. unfold write_if. destruct b; [|apply Hk]. apply writes_try; [|intros; apply Hk]. cbn [write_frame writes].
    split; [now apply aside_common|intros []; exact I]. }
  assert (S : forall c t, writes aside (write_settings c t)).
  { intros c [[m0 m1 m2 m3 m4 m5] [i0 i1 i2 i3] [g0 g1 g2 g3] [s0 s1 s2 s3]]. unfold write_settings. repeat (apply W; [reflexivity|vm_compute; discriminate|intros ?]). exact I. }
  destruct h; cbn [refresh].
  all: repeat match goal with |- writes _ (if ?b then _ else _) => destruct b end; try exact I; try (apply writes_bind; [apply S|intros; exact I]).
Qed.
Lemma follow_init chk h m f : follow (fun r f' => match r with Ok _ => same f' (fun _ => regs_reset) | Err _ => True end) (initialize_with_host chk h m) f.
Proof.
  assert (F : forall f, follow (fun r f' => match r with Ok _ => same f' (fun _ => regs_reset) | Err _ => True end)
    (try a <- uninit_reset else (fun e => Err (SpiError e)) ;; try b <- dev_set_mode m else (fun e => Err (SpiError e)) ;;
     do r <- refresh h ;; match snd r with Err e => Ret (Err (SpiError e)) | Ok _ => Ret (Ok (ds_new (fst r))) end) f).
  { intros f0. apply follow_try. unfold uninit_reset. cbn [write_frame follow]. right. right. split; [reflexivity|]. split; [reflexivity|]. split; [reflexivity|].
    split; [|intros; exact I]. apply follow_try. apply follow_aside.
    { unfold dev_set_mode. cbn [write_frame writes]. split; [|intros []; exact I]. left. split; [reflexivity|]. right. split; [reflexivity|]. eexists. split; [reflexivity|apply mode_no_reset]. }
    intros [u|er]; [|exact I]. apply follow_bind. apply follow_aside; [apply aside_refresh|]. intros [h' [u'|er]]; cbn [fst snd follow]; [apply same_refl|exact I]. }
  unfold initialize_with_host. cbv zeta. destruct chk; [|apply F]. apply follow_try. apply follow_aside.
  { unfold assert_chip_version. repeat (first [apply writes_try; [|intros ?]|apply writes_bind; [|intros ?]
      |match goal with |- writes _ (if ?b then _ else _) => destruct b | |- writes _ (match ?b with _ => _ end) => destruct b end]); try exact I; cbn; intros got [] _; exact I. }
  intros [u|er]; [apply F|exact I].
Qed.
Lemma init_settings e chk k m s d s' : run e (run_setup chk k m) s = (Done (Ok d), s') ->
  forall i x, setting x = true -> regs (socks (s_chip s') i) x = regs_reset x.
Proof.
  intros R i x Hx. assert (F : exists h, run_setup chk k m = initialize_with_host chk h m) by (destruct k; eexists; reflexivity).
  destruct F as (h & F). rewrite F in R. destruct (follow_run e _ _ (now_in s) s _ _ (follow_init chk h m _) (fun _ _ _ => eq_refl) R) as (f' & A & S).
  rewrite (A i x Hx). apply S.
Qed.
Lemma good_ops e fuel : forall ops a s a' outs s', good (handles a) -> run e (run_ops fuel a ops) s = (Done (a', outs), s') -> good (handles a').
Proof.
  induction ops as [|o ops IH]; intros a s a' outs s' G R; cbn [run_ops] in R.
  - injection R as <- <- <-. exact G.
  - apply run_bind_done in R as ([a1 r1] & s1 & R1 & R). cbn [fst snd] in R. apply run_bind_done in R as ([a2 r2] & s2 & R2 & R). injection R as <- <- <-.
    eapply IH; [|exact R2]. eapply run_good; eauto.
Qed.
(** a property of the chip that every call keeps holds at every moment of a program *)
Lemma ops_keep (J : sys -> Prop) e fuel ops : (forall a o s, good (handles a) -> In o ops -> J s -> J (snd (run e (step fuel a o) s))) ->
  forall a s, good (handles a) -> J s -> J (snd (run e (run_ops fuel a ops) s)).
Proof.
  induction ops as [|o ops IH]; intros H a s G Js; cbn [run_ops]; [exact Js|]. rewrite run_bind. pose proof (H a o s G (or_introl eq_refl) Js) as J1.
  destruct (run e (step fuel a o) s) as [[[a1 r1]|w| |] s1] eqn:R; cbn [fst snd] in *; try exact J1.
  rewrite run_bind. pose proof (IH (fun a o s G Hin => H a o s G (or_intror Hin)) a1 s1 (run_good _ _ _ _ _ _ _ _ G R) J1) as J2.
  destruct (run e (run_ops fuel a1 ops) s1) as [[[a2 r2]|w| |] s2]; cbn [fst snd] in *; exact J2.
Qed.
Lemma kept_step e fuel a o s : good (handles a) -> o <> OpDevice QResetDevice -> kept (op_socket a o) (changes o) s (snd (run e (step fuel a o) s)).
Proof. intros G H. apply kept_run. now apply fw_step. Qed.
Lemma reset_step e fuel a s x : setting x = true -> (forall i, regs (socks (s_chip s) i) x = regs_reset x) ->
  forall i, regs (socks (s_chip (snd (run e (step fuel a (OpDevice QResetDevice)) s))) i) x = regs_reset x.
Proof.
  intros Hx J i. cbn [step run_devop]. unfold reset_device. cbn [write_frame bind run]. unfold bus_write.
  assert (W : regs (socks (s_chip (write_bytes e COMMON c_MODE [u8 128] s)) i) x = regs_reset x).
  { cbn [write_bytes s_chip on_chip]. rewrite wbyte_regs by exact Hx. reflexivity. }
  destruct (fails e (s_call s)) as [[[|q] er]|]; cbn [firstn run bind snd s_chip end_call]; [apply J| |exact W].
  rewrite firstn_nil. exact W.
Qed.
