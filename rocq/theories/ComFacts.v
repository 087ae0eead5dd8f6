(** The common register block: what writes to it do, what keeps its contents. *)
From Verif Require Export FrameFacts RawHistory.
From Verif Require Import Datasheet.

(** ** The network changes nothing there but the link bits *)
Lemma com_nsteps x l : x <> PHYCFGR -> forall c, com (nsteps c l) x = com c x.
Proof.
  intros Hx. unfold nsteps. induction l as [|ev l IH]; intros c; cbn [fold_left]; [reflexivity|]. rewrite IH.
  unfold nstep. destruct (ev_sock ev); [reflexivity|]. destruct ev; try reflexivity.
  cbn [com set_com]. unfold upd. destruct (N.eqb_spec x PHYCFGR); [contradiction|reflexivity].
Qed.
Lemma com_alone x e : x <> PHYCFGR -> forall n c t, com (alone e c t n) x = com c x.
Proof. intros Hx. induction n as [|n IH]; intros c t; cbn [alone]; [reflexivity|]. rewrite IH. now apply com_nsteps. Qed.

Lemma alone_sevs e i : forall n c t, sevs i (socks c i) (socks (alone e c t n) i).
Proof.
  induction n as [|n IH]; intros c t; cbn [alone]; [apply sevs_refl|]. eapply sevs_trans; [apply (nsteps_sevs i c)|apply IH].
Qed.

(** [c] is [c'] with the bytes [d] at common address [a] *)
Definition com_over (a : N) (d : list byte) (c c' : chip) : Prop :=
  (forall x, com c x = if (a <=? x) && (x <? a + len d) then nth (N.to_nat (x - a)) d x00 else com c' x) /\
  (forall i, socks c i = socks c' i).
Lemma com_over_nil a c c' : com c = com c' -> (forall i, socks c i = socks c' i) -> com_over a [] c c'.
Proof.
  intros H1 H2. split; [|exact H2]. intros x. change (len []) with 0. rewrite H1.
  destruct (N.leb_spec a x), (N.ltb_spec x (a + 0)); try reflexivity. lia.
Qed.
Lemma com_over_nsteps a d l : (PHYCFGR < a \/ a + len d <= PHYCFGR) -> forall c c',
  com_over a d c c' -> com_over a d (nsteps c l) (nsteps c' l).
Proof.
  intros Hp. unfold nsteps. induction l as [|ev l IH]; intros c c' H; cbn [fold_left]; [exact H|]. apply IH.
  destruct H as [H1 H2]. unfold nstep. destruct (ev_sock ev) as [n|].
  - split; [exact H1|]. intros i. unfold set_sock. cbn [socks]. destruct (i =? n); [now rewrite H2|apply H2].
  - destruct ev; try (split; assumption). split; [|exact H2]. intros x. cbn [com set_com]. unfold upd.
    rewrite (H1 PHYCFGR). destruct (N.leb_spec a PHYCFGR), (N.ltb_spec PHYCFGR (a + len d)); cbn [andb]; try lia;
      (destruct (N.eqb_spec x PHYCFGR) as [->|_];
       [destruct (N.leb_spec a PHYCFGR), (N.ltb_spec PHYCFGR (a + len d)); cbn [andb]; try lia; reflexivity|apply H1]).
Qed.

Lemma len_snoc {A} (l : list A) x : len (l ++ [x]) = len l + 1.
Proof. rewrite len_app. reflexivity. Qed.
Lemma wbyte_com c a v : a <> MR -> a <> VERSIONR -> wbyte c 0 a v = set_com c (upd (com c) a v).
Proof.
  intros H1 H2. unfold wbyte. rewrite N.eqb_refl. destruct (N.eqb_spec a MR); [contradiction|].
  destruct (N.eqb_spec a VERSIONR); [contradiction|]. reflexivity.
Qed.
Lemma write_com_aux e a0 : forall d pre s c0,
  0 < a0 -> a0 + len pre + len d <= 65536 ->
  (PHYCFGR < a0 \/ a0 + len pre + len d <= PHYCFGR) -> (VERSIONR < a0 \/ a0 + len pre + len d <= VERSIONR) ->
  com_over a0 pre (s_chip s) c0 ->
  com_over a0 (pre ++ d) (s_chip (write_bytes e 0 (a0 + len pre) d s)) (alone e c0 (s_tick s) (length d)) /\
  s_tick (write_bytes e 0 (a0 + len pre) d s) = (s_tick s + length d)%nat.
Proof.
  induction d as [|b d IH]; intros pre s c0 H0 H1 H2 H3 H; cbn [write_bytes length alone].
  { rewrite List.app_nil_r. split; [exact H|lia]. }
  rewrite len_cons in *.
  assert (T : com_over a0 pre (s_chip (tick e s)) (nsteps c0 (happens e (s_tick s)))).
  { cbn [s_chip tick]. apply com_over_nsteps; [lia|exact H]. }
  set (s2 := on_chip (fun c => wbyte c 0 (a0 + len pre) b) (tick e s)).
  assert (E : com_over a0 (pre ++ [b]) (s_chip s2) (nsteps c0 (happens e (s_tick s)))).
  { unfold s2. cbn [s_chip on_chip]. rewrite wbyte_com by (unfold MR, VERSIONR in *; lia). destruct T as [T1 T2]. split; [|exact T2].
    intros x. cbn [com set_com]. unfold upd. rewrite T1, len_snoc.
    destruct (N.eqb_spec x (a0 + len pre)) as [->|Hx].
    - destruct (N.leb_spec a0 (a0 + len pre)); [|lia]. destruct (N.ltb_spec (a0 + len pre) (a0 + (len pre + 1))); [|lia]. cbn [andb].
      rewrite app_nth2; replace (N.to_nat (a0 + len pre - a0)) with (length pre) by (unfold len; lia); [|lia].
      now rewrite Nat.sub_diag.
    - destruct (N.leb_spec a0 x); cbn [andb]; [|reflexivity].
      destruct (N.ltb_spec x (a0 + len pre)), (N.ltb_spec x (a0 + (len pre + 1))); try lia; [|reflexivity].
      rewrite app_nth1; [reflexivity|]. unfold len in *. lia. }
  assert (Nx : next_addr (a0 + len pre) = a0 + len (pre ++ [b]) \/ d = []).
  { destruct d as [|b' d]; [right; reflexivity|left]. rewrite len_snoc, len_cons in *. unfold next_addr.
    rewrite N.mod_small by lia. lia. }
  fold s2. destruct Nx as [Nx| ->].
  - rewrite Nx. destruct (IH (pre ++ [b]) s2 (nsteps c0 (happens e (s_tick s)))) as [I1 I2]; auto; try (rewrite len_snoc; lia).
    rewrite <- List.app_assoc in I1. cbn [List.app] in I1. split; [exact I1|]. rewrite I2. cbn [s_tick s2 on_chip tick]. lia.
  - cbn [write_bytes length alone]. split; [exact E|]. cbn [s_tick s2 on_chip tick]. lia.
Qed.
Lemma write_com e a d s : 0 < a -> a + len d <= 65536 ->
  (PHYCFGR < a \/ a + len d <= PHYCFGR) -> (VERSIONR < a \/ a + len d <= VERSIONR) ->
  com_over a d (s_chip (write_bytes e 0 a d s)) (alone e (s_chip s) (s_tick s) (length d)) /\
  s_tick (write_bytes e 0 a d s) = (s_tick s + length d)%nat.
Proof.
  intros H0 H1 H2 H3. pose proof (write_com_aux e a d [] s (s_chip s) H0) as H. change (len []) with 0 in H.
  rewrite N.add_0_r in H. apply H; auto. now apply com_over_nil.
Qed.

(** ** Reads *)
Fixpoint com_list (m : N -> byte) (a : N) (n : nat) : list byte :=
  match n with O => [] | S n' => m a :: com_list m (a + 1) n' end.
Lemma com_list_ext m m' : forall n a, (forall x, a <= x < a + N.of_nat n -> m x = m' x) -> com_list m a n = com_list m' a n.
Proof.
  induction n as [|n IH]; intros a H; cbn [com_list]; [reflexivity|]. f_equal; [apply H; lia|]. apply IH. intros x Hx. apply H. lia.
Qed.
Lemma read_com e : forall n a s, a + N.of_nat n <= 65536 -> (PHYCFGR < a \/ a + N.of_nat n <= PHYCFGR) ->
  fst (read_bytes e 0 a n s) = com_list (com (s_chip s)) a n /\
  s_chip (snd (read_bytes e 0 a n s)) = alone e (s_chip s) (s_tick s) n /\
  s_tick (snd (read_bytes e 0 a n s)) = (s_tick s + n)%nat.
Proof.
  induction n as [|n IH]; intros a s H1 H2; cbn [read_bytes com_list]; [split; [reflexivity|split; [reflexivity|cbn; lia]]|].
  assert (N1 : forall b (m : list byte * sys), fst (let (l, s2) := m in (b :: l, s2)) = b :: fst m
     /\ snd (let (l, s2) := m in (b :: l, s2)) = snd m) by (intros b []; auto).
  destruct (N1 (rbyte (s_chip (tick e s)) 0 a) (read_bytes e 0 (next_addr a) n (tick e s))) as [-> ->].
  assert (Hb : rbyte (s_chip (tick e s)) 0 a = com (s_chip s) a).
  { unfold rbyte. rewrite N.eqb_refl. cbn [s_chip tick]. apply com_nsteps. lia. }
  rewrite Hb. destruct n as [|n].
  { cbn [read_bytes fst snd com_list alone s_chip s_tick tick]. split; [reflexivity|split; [reflexivity|lia]]. }
  unfold next_addr. rewrite N.mod_small by lia. destruct (IH (a + 1) (tick e s)) as (I1 & I2 & I3); [lia|lia|].
  rewrite I1, I2, I3. split; [|split; [reflexivity|cbn [s_tick tick]; lia]]. f_equal.
  apply com_list_ext. intros x Hx. cbn [s_chip tick]. apply com_nsteps. lia.
Qed.
Lemma wp_com_read {A} e a n (k : list byte * res unit berr -> prog A) Q s : no_faults e ->
  a + N.of_nat n <= 65536 -> (PHYCFGR < a \/ a + N.of_nat n <= PHYCFGR) ->
  (forall s', s_chip s' = alone e (s_chip s) (s_tick s) n -> s_tick s' = (s_tick s + n)%nat ->
     wp e (k (com_list (com (s_chip s)) a n, Ok tt)) Q s') ->
  wp e (BusRead 0 a (zeros n) k) Q s.
Proof.
  intros NF H1 H2 H. unfold wp. cbn [run]. unfold bus_read. rewrite NF. unfold zeros. rewrite repeat_length.
  destruct (read_com e n a s H1 H2) as (R1 & R2 & R3). destruct (read_bytes e 0 a n s) as [g s1]. cbn [fst snd] in *. subst g.
  apply (H (end_call s1)); assumption.
Qed.
Lemma wp_com_write {A} e a d (k : res unit berr -> prog A) Q s : no_faults e ->
  0 < a -> a + len d <= 65536 -> (PHYCFGR < a \/ a + len d <= PHYCFGR) -> (VERSIONR < a \/ a + len d <= VERSIONR) ->
  (forall s', com_over a d (s_chip s') (alone e (s_chip s) (s_tick s) (length d)) -> s_tick s' = (s_tick s + length d)%nat ->
     wp e (k (Ok tt)) Q s') ->
  wp e (BusWrite 0 a d k) Q s.
Proof.
  intros NF H0 H1 H2 H3 H. unfold wp. cbn [run]. unfold bus_write. rewrite NF. destruct (write_com e a d s H0 H1 H2 H3) as [W1 W2].
  apply (H (end_call (write_bytes e 0 a d s))); assumption.
Qed.
(** MR: one byte *)
Lemma wp_mr_write {A} e v (k : res unit berr -> prog A) Q s : no_faults e ->
  (forall s', s_chip s' = wbyte (alone e (s_chip s) (s_tick s) 1) 0 MR v -> s_tick s' = (s_tick s + 1)%nat -> wp e (k (Ok tt)) Q s') ->
  wp e (BusWrite 0 MR [v] k) Q s.
Proof.
  intros NF H. unfold wp. cbn [run]. unfold bus_write. rewrite NF. cbn [write_bytes].
  apply H; [reflexivity|cbn [s_tick end_call on_chip tick]; lia].
Qed.

(** ** Computations that leave a common register alone *)
Definition keeps_write (x blk a : N) (d : list byte) : Prop :=
  blk <> 0 \/
  (a + len d <= 65536 /\ (x < a \/ a + len d <= x) /\ (a = MR -> exists v, d = [v] /\ N.testbit (b2n v) 7 = false)).
Fixpoint keeps_com {A} (x : N) (p : prog A) : Prop :=
  match p with
  | BusRead b a d k => forall got r, length got = length d -> keeps_com x (k (got, r))
  | BusWrite b a d k => keeps_write x b a d /\ forall r, keeps_com x (k r)
  | _ => True
  end.
Lemma keeps_bind {A B} x (p : prog A) (f : A -> prog B) :
  keeps_com x p -> (forall a, keeps_com x (f a)) -> keeps_com x (bind p f).
Proof.
  induction p as [a|w| |b a d k IH|b a d k IH]; cbn; intros H Hf; auto.
  destruct H as [H1 H2]. split; auto.
Qed.
Lemma keeps_ptree {A} x j (B : N -> N -> Prop) W G (p : prog A) : (forall blk a, B blk a -> own_block j blk) ->
  ptree B W G p -> keeps_com x p.
Proof.
  intros HB. induction p as [a|w| |b a d k IH|b a d k IH]; cbn; intros H; auto.
  - destruct H as [Hb H]. auto.
  - destruct H as [Hb H]. split; [|auto]. left. destruct (own_block_div j b (HB _ _ Hb)) as [E1 _]. now apply N.eqb_neq.
Qed.
Lemma keeps_write_byte x blk a v c : (blk <> 0 \/ (a <> x /\ (a = MR -> N.testbit (b2n v) 7 = false))) ->
  com (wbyte c blk a v) x = com c x.
Proof.
  intros H. unfold wbyte. destruct (N.eqb_spec blk 0) as [->|Hb].
  - destruct H as [H|(H1 & H2)]; [contradiction|]. destruct (N.eqb_spec a MR) as [->|Hm].
    + rewrite H2 by reflexivity. cbn [com set_com]. unfold upd. destruct (N.eqb_spec x MR); congruence.
    + destruct (a =? VERSIONR); [reflexivity|]. cbn [com set_com]. unfold upd. destruct (N.eqb_spec x a); congruence.
  - cbv zeta. destruct (blk mod 4) as [|[[[]|[]|]|[[]|[]|]|]]; try reflexivity;
      match goal with |- context [if ?b then _ else _] => destruct b end; reflexivity.
Qed.
Lemma keeps_write_bytes e x blk : x <> PHYCFGR -> forall d a s,
  (blk <> 0 \/ (a + len d <= 65536 /\ (x < a \/ a + len d <= x) /\ (a = MR -> d = [] \/ exists v, d = [v] /\ N.testbit (b2n v) 7 = false))) ->
  com (s_chip (write_bytes e blk a d s)) x = com (s_chip s) x.
Proof.
  intros Hx. induction d as [|b d IH]; intros a s H; cbn [write_bytes]; [reflexivity|]. rewrite len_cons in H.
  rewrite IH.
  - cbn [s_chip on_chip]. rewrite keeps_write_byte; [cbn [s_chip tick]; now apply com_nsteps|].
    destruct H as [H|(H1 & H2 & H3)]; [now left|right]. split; [lia|]. intros E. destruct (H3 E) as [H4|(v & [= -> ->] & H4)]; [discriminate|exact H4].
  - destruct H as [H|(H1 & H2 & H3)]; [now left|]. destruct d as [|b' d].
    + destruct (N.eq_dec blk 0) as [->|Hb]; [|now left]. right. change (len []) with 0. unfold next_addr.
      assert ((a + 1) mod 65536 < 65536) by (apply N.mod_lt; discriminate). rewrite N.add_0_r. split; [lia|]. split; [lia|]. intros _. now left.
    + right. rewrite len_cons in *. unfold next_addr. rewrite N.mod_small by lia. split; [lia|]. split; [lia|]. unfold MR. lia.
Qed.
Lemma len_firstn {A} n (l : list A) : len (firstn n l) <= len l.
Proof. unfold len. rewrite firstn_length. lia. Qed.
Lemma run_keeps {A} e x (p : prog A) : x <> PHYCFGR -> keeps_com x p -> forall s, com (s_chip (snd (run e p s))) x = com (s_chip s) x.
Proof.
  intros Hx. assert (R : forall blk n a s, com (s_chip (snd (read_bytes e blk a n s))) x = com (s_chip s) x).
  { intros blk. induction n as [|n IH]; intros a s; cbn [read_bytes]; [reflexivity|]. specialize (IH (next_addr a) (tick e s)).
    destruct (read_bytes e blk (next_addr a) n (tick e s)) as [l s2]. cbn [snd] in *. rewrite IH. cbn [s_chip tick]. now apply com_nsteps. }
  induction p as [a|w| |b a d k IH|b a d k IH]; cbn [keeps_com run]; intros H s; try reflexivity.
  - pose proof (bus_read_length e b a d s) as L.
    assert (E : com (s_chip (snd (bus_read e b a d s))) x = com (s_chip s) x).
    { unfold bus_read. destruct (fails e (s_call s)) as [[q err]|].
      - specialize (R b (Nat.min q (length d)) a s). destruct (read_bytes _ _ _ _ _). exact R.
      - specialize (R b (length d) a s). destruct (read_bytes _ _ _ _ _). exact R. }
    destruct (bus_read e b a d s) as [[g r] s1]. cbn [fst snd] in *. rewrite IH by (now apply H). exact E.
  - destruct H as [Hw H].
    assert (W : forall d', d' = d \/ (exists n, d' = firstn n d) -> com (s_chip (write_bytes e b a d' s)) x = com (s_chip s) x).
    { intros d' Hd. apply keeps_write_bytes; [exact Hx|]. destruct Hw as [Hw|(W1 & W2 & W3)]; [now left|right].
      assert (L : len d' <= len d) by (destruct Hd as [->|(n & ->)]; [lia|apply len_firstn]).
      split; [lia|]. split; [lia|]. intros E. destruct (W3 E) as (v & -> & Hv). destruct Hd as [->|([|n] & ->)].
      - right. eauto.
      - left. reflexivity.
      - right. exists v. split; [destruct n; reflexivity|exact Hv]. }
    assert (E : com (s_chip (snd (bus_write e b a d s))) x = com (s_chip s) x).
    { unfold bus_write. destruct (fails e (s_call s)) as [[q err]|]; cbn [snd end_call s_chip]; apply W; eauto. }
    destruct (bus_write e b a d s) as [r s1]. cbn [fst snd] in *. rewrite IH by apply H. exact E.
Qed.

(** the common addresses an API call writes *)
Definition op_writes (o : op) (x : N) : bool :=
  match o with
  | OpDevice (QSetMode _) => x =? MR
  | OpDevice (QSetRetryTimeout _) => (RTR <=? x) && (x <? RTR + 2)
  | OpDevice (QSetRetryCount _) => x =? RCR
  | OpDevice QResetDevice => true
  | _ => false
  end.
Lemma keeps_devop x q : op_writes (OpDevice q) x = false -> keeps_com x (run_devop q).
Proof.
  intros H. destruct q; cbn [op_writes] in H; try discriminate H; cbn [run_devop]; (apply keeps_bind; [|intros; exact I]).
  all: try (cbn; intros got r _; destruct r; exact I).
  - cbn. split; [|intros; exact I]. right. split; [now vm_compute|]. apply N.eqb_neq in H. unfold MR in H. change (len (mode_to_register m)) with 1.
    change c_MODE with 0. split; [lia|]. intros _. eexists. split; [reflexivity|apply mode_no_reset].
  - cbn. split; [|intros []; exact I]. right. split; [now vm_compute|]. change (len _) with 2. change c_RETRY_TIME with RTR. unfold RTR, MR in *.
    split; [|discriminate]. destruct (N.leb_spec 25 x), (N.ltb_spec x (25 + 2)); try discriminate H; lia.
  - cbn. split; [|intros []; exact I]. right. split; [now vm_compute|]. change (len _) with 1. change c_RETRY_COUNT with RCR. unfold RCR, MR in *.
    apply N.eqb_neq in H. split; [lia|discriminate].
Qed.
Lemma keeps_step x fuel a o : pool_inv a -> op_writes o x = false -> keeps_com x (step fuel a o).
Proof.
  intros I Ho. pose proof (pt_step fuel a o I) as T.
  destruct (op_handle o) as [h|] eqn:E.
  - destruct (lookup h (handles a)) as [y|] eqn:L.
    + destruct (pi_lookup _ _ _ I L) as (j & Hj & Ej & _). apply (keeps_ptree x j _ _ _ _) in T; [exact T|].
      intros blk ad. unfold step_blk. rewrite E. intros (x' & L' & Hb). rewrite L in L'. injection L' as <-. rewrite Ej in Hb. now apply (sblk_own j _ ad).
    + destruct o; cbn [op_handle] in E; try discriminate E; injection E as ->; cbn [step]; try rewrite L; exact Logic.I.
  - destruct o; cbn [op_handle] in E; try discriminate E; cbn [step]; try exact Logic.I.
    + destruct (take_socket (dev a)) as [? []]; exact Logic.I.
    + destruct (tcp_socket (dev a)) as [? []]; exact Logic.I.
    + destruct (udp_socket (dev a)) as [? []]; exact Logic.I.
    + apply keeps_bind; [|intros; exact Logic.I]. now apply keeps_devop.
Qed.
Lemma run_ops_keeps e x fuel : x <> PHYCFGR -> forall ops a s a' outs s', pool_inv a -> Forall (fun o => op_writes o x = false) ops ->
  run e (run_ops fuel a ops) s = (Done (a', outs), s') -> com (s_chip s') x = com (s_chip s) x.
Proof.
  intros Hx. induction ops as [|o ops IH]; intros a s a' outs s' I F R; cbn [run_ops] in R.
  - injection R as <- <- <-. reflexivity.
  - apply run_bind_done in R as ([a1 o1] & s1 & R1 & R). apply run_bind_done in R as ([a2 o2] & s2 & R2 & R).
    cbn [fst snd] in *. injection R as <- <- <-. inversion F as [|? ? F1 F2]; subst.
    rewrite (IH a1 s1 a2 o2 s2 (run_step_inv e fuel a o s a1 o1 s1 I R1) F2 R2).
    pose proof (run_keeps e x (step fuel a o) Hx (keeps_step x fuel a o I F1) s) as K. rewrite R1 in K. exact K.
Qed.
