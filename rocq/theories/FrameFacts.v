(** What a computation leaves alone: sockets it does not address. *)
From Verif Require Export ChipLogic HistoryFacts ErrorFacts.
From Verif Require Import Datasheet.

(** the chip if only the network had acted, from byte [t] on, for [n] bytes of bus time *)
Fixpoint alone (e : env) (c : chip) (t n : nat) : chip :=
  match n with O => c | S n' => alone e (nsteps c (happens e t)) (S t) n' end.
Lemma alone_add e : forall n m c t, alone e c t (n + m) = alone e (alone e c t n) (t + n) m.
Proof.
  induction n as [|n IH]; intros m c t; cbn [alone plus]; [now rewrite Nat.add_0_r|].
  rewrite IH. now replace (S t + n)%nat with (t + S n)%nat by lia.
Qed.

(** equal except for socket [j] *)
Definition agree (j : N) (c c' : chip) : Prop :=
  com c = com c' /\ forall i, i <> j -> socks c i = socks c' i.
Lemma agree_refl j c : agree j c c.
Proof. split; auto. Qed.
Lemma agree_trans j a b c : agree j a b -> agree j b c -> agree j a c.
Proof. intros (A1 & A2) (B1 & B2). split; [congruence|]. intros i Hi. rewrite A2 by exact Hi. auto. Qed.
Lemma agree_nstep j c c' ev : agree j c c' -> agree j (nstep c ev) (nstep c' ev).
Proof.
  intros (A & B). unfold nstep. destruct (ev_sock ev) as [n|] eqn:E.
  - split; [exact A|]. intros i Hi. unfold set_sock. cbn [socks]. destruct (N.eqb_spec i n) as [->|Hn]; [|auto].
    now rewrite (B n Hi).
  - destruct ev; try (split; assumption). split; [cbn [com set_com]; now rewrite A|exact B].
Qed.
Lemma agree_nsteps j l : forall c c', agree j c c' -> agree j (nsteps c l) (nsteps c' l).
Proof.
  unfold nsteps. induction l as [|ev l IH]; intros c c' H; cbn [fold_left]; [exact H|].
  apply IH. now apply agree_nstep.
Qed.
Lemma agree_alone j e : forall n c c' t, agree j c c' -> agree j (alone e c t n) (alone e c' t n).
Proof.
  induction n as [|n IH]; intros c c' t H; cbn [alone]; [exact H|]. apply IH. now apply agree_nsteps.
Qed.
Definition own_block (j blk : N) : Prop := blk = BSB_REG j \/ blk = BSB_TX j \/ blk = BSB_RX j.
Lemma own_block_div j blk : own_block j blk -> blk =? 0 = false /\ blk / 4 = j.
Proof. intros [->|[-> | ->]]; [destruct (blk_reg j)|destruct (blk_tx j)|destruct (blk_rx j)]; tauto. Qed.
Lemma agree_set_sock j c s : agree j (set_sock c j s) c.
Proof. split; [reflexivity|]. intros i Hi. unfold set_sock. cbn [socks]. now destruct (N.eqb_spec i j). Qed.
Lemma agree_wbyte j c blk a v : own_block j blk -> agree j (wbyte c blk a v) c.
Proof.
  intros H. destruct (own_block_div j blk H) as [E1 E2]. unfold wbyte. rewrite E1, E2.
  destruct H as [->|[-> | ->]]; [destruct (blk_reg j) as (_ & _ & ->)|destruct (blk_tx j) as (_ & _ & ->)|destruct (blk_rx j) as (_ & _ & ->)];
    cbv iota zeta; try (match goal with |- context [if ?b then _ else _] => destruct b end); try apply agree_refl; apply agree_set_sock.
Qed.

(** [s'] is [s] some bytes later, with nothing but socket [j] touched by the driver *)
Definition elapsed (e : env) (j : N) (s s' : sys) : Prop :=
  exists n, s_tick s' = (s_tick s + n)%nat /\ agree j (s_chip s') (alone e (s_chip s) (s_tick s) n).
Lemma elapsed_refl e j s : elapsed e j s s.
Proof. exists 0%nat. split; [lia|apply agree_refl]. Qed.
Lemma elapsed_trans e j a b c : elapsed e j a b -> elapsed e j b c -> elapsed e j a c.
Proof.
  intros (n & T1 & A1) (m & T2 & A2). exists (n + m)%nat. split; [lia|]. rewrite alone_add.
  eapply agree_trans; [exact A2|]. rewrite T1. now apply agree_alone.
Qed.
Lemma elapsed_tick e j s : elapsed e j s (tick e s).
Proof. exists 1%nat. split; [cbn [s_tick tick]; lia|]. apply agree_refl. Qed.
Lemma elapsed_same e j s s' : s_tick s' = s_tick s -> agree j (s_chip s') (s_chip s) -> elapsed e j s s'.
Proof. intros H1 H2. exists 0%nat. split; [lia|exact H2]. Qed.
Lemma elapsed_read e j blk : forall n a s, elapsed e j s (snd (read_bytes e blk a n s)).
Proof.
  induction n as [|n IH]; intros a s; cbn [read_bytes]; [apply elapsed_refl|].
  specialize (IH (next_addr a) (tick e s)). destruct (read_bytes e blk (next_addr a) n (tick e s)) as [l s2]. cbn [snd] in *.
  eapply elapsed_trans; [apply elapsed_tick|exact IH].
Qed.
Lemma elapsed_write e j blk : own_block j blk -> forall d a s, elapsed e j s (write_bytes e blk a d s).
Proof.
  intros H. induction d as [|b d IH]; intros a s; cbn [write_bytes]; [apply elapsed_refl|].
  eapply elapsed_trans; [apply elapsed_tick|]. eapply elapsed_trans; [|apply IH].
  apply elapsed_same; [reflexivity|]. cbn [s_chip on_chip]. now apply agree_wbyte.
Qed.

Lemma read_bytes_length e blk : forall n a s, length (fst (read_bytes e blk a n s)) = n.
Proof.
  induction n as [|n IH]; intros a s; cbn [read_bytes]; [reflexivity|].
  specialize (IH (next_addr a) (tick e s)). destruct (read_bytes e blk (next_addr a) n (tick e s)) as [l s2]. cbn in *. now f_equal.
Qed.
Lemma bus_read_length e blk a buf s : length (fst (fst (bus_read e blk a buf s))) = length buf.
Proof.
  unfold bus_read. destruct (fails e (s_call s)) as [[k err]|].
  - pose proof (read_bytes_length e blk (Nat.min k (length buf)) a s) as L. destruct (read_bytes _ _ _ _ _) as [g s1]. cbn in *.
    rewrite app_length, skipn_length. lia.
  - pose proof (read_bytes_length e blk (length buf) a s) as L. destruct (read_bytes _ _ _ _ _) as [g s1]. exact L.
Qed.

(** a computation that addresses only socket [j]'s blocks *)
Lemma run_frame {A} e j (B : N -> N -> Prop) W G (p : prog A) : (forall blk a, B blk a -> own_block j blk) ->
  ptree B W G p -> forall s, elapsed e j s (snd (run e p s)) /\
    match fst (run e p s) with Done a => G a | Panicked w => W w | _ => True end.
Proof.
  intros HB. induction p as [a|w| |b a d k IH|b a d k IH]; cbn [ptree run]; intros H s; try (split; [apply elapsed_refl|assumption || exact I]).
  - destruct H as [Hb H].
    assert (E : elapsed e j s (snd (bus_read e b a d s))).
    { unfold bus_read. destruct (fails e (s_call s)) as [[q err]|].
      - pose proof (elapsed_read e j b (Nat.min q (length d)) a s) as E. destruct (read_bytes _ _ _ _ _) as [g s1]. cbn in *.
        eapply elapsed_trans; [exact E|]. apply elapsed_same; [reflexivity|apply agree_refl].
      - pose proof (elapsed_read e j b (length d) a s) as E. destruct (read_bytes _ _ _ _ _) as [g s1]. cbn in *.
        eapply elapsed_trans; [exact E|]. apply elapsed_same; [reflexivity|apply agree_refl]. }
    pose proof (bus_read_length e b a d s) as L.
    destruct (bus_read e b a d s) as [[g r] s1]. cbn [fst snd] in *.
    destruct (IH (g, r) (H g r L) s1) as [I1 I2]. split; [eapply elapsed_trans; eauto|exact I2].
  - destruct H as [Hb H]. apply HB in Hb.
    assert (E : elapsed e j s (snd (bus_write e b a d s))).
    { unfold bus_write. destruct (fails e (s_call s)) as [[q err]|]; cbn [snd];
        (eapply elapsed_trans; [apply (elapsed_write e j b Hb)|]; apply elapsed_same; [reflexivity|apply agree_refl]). }
    destruct (bus_write e b a d s) as [r s1]. cbn [fst snd] in *.
    destruct (IH r (H r) s1) as [I1 I2]. split; [eapply elapsed_trans; eauto|exact I2].
Qed.

(** for any single computation, whatever blocks it addresses *)
Lemma run_ptree {A} e B W G (p : prog A) : ptree B W G p -> forall s,
  match fst (run e p s) with Done a => G a | Panicked w => W w | _ => True end.
Proof.
  induction p as [a|w| |b a d k IH|b a d k IH]; cbn [ptree run]; intros H s; try assumption; try exact I.
  - destruct H as [Hb H]. pose proof (bus_read_length e b a d s) as L.
    destruct (bus_read e b a d s) as [[g r] s1]. cbn [fst snd] in *. apply IH. now apply H.
  - destruct H as [Hb H]. destruct (bus_write e b a d s) as [r s1]. apply IH. apply H.
Qed.

(** ** From one socket's point of view *)
(** [p] never writes to socket [i] and never resets the chip *)
Definition spares_write (i blk a : N) (d : list byte) : Prop :=
  (blk <> 0 /\ blk / 4 <> i) \/
  (blk = 0 /\ (a = MR /\ (exists v, d = [v] /\ N.testbit (b2n v) 7 = false) \/ (0 < a /\ a + len d <= 65536))).
Fixpoint spares {A} (i : N) (p : prog A) : Prop :=
  match p with
  | BusRead b a d k => forall got r, length got = length d -> spares i (k (got, r))
  | BusWrite b a d k => spares_write i b a d /\ forall r, spares i (k r)
  | _ => True
  end.
Lemma spares_bind {A B} i (p : prog A) (f : A -> prog B) :
  spares i p -> (forall a, spares i (f a)) -> spares i (bind p f).
Proof.
  induction p as [a|w| |b a d k IH|b a d k IH]; cbn; intros H Hf; auto.
  destruct H as [H1 H2]. split; auto.
Qed.
Lemma spares_ptree {A} i j (B : N -> N -> Prop) W G (p : prog A) : i <> j -> (forall blk a, B blk a -> own_block j blk) ->
  ptree B W G p -> spares i p.
Proof.
  intros Hne HB. induction p as [a|w| |b a d k IH|b a d k IH]; cbn; intros H; auto.
  - destruct H as [Hb H]. auto.
  - destruct H as [Hb H]. split; [|auto]. left. destruct (own_block_div j b (HB _ _ Hb)) as [E1 E2].
    apply N.eqb_neq in E1. split; [exact E1|congruence].
Qed.
Lemma spares_wbyte i c blk a d v : spares_write i blk a d -> In v d -> forall a', (a' = a \/ a < a') -> a' < a + len d ->
  socks (wbyte c blk a' v) i = socks c i.
Proof.
  intros H Hv a' Ha Hb. unfold wbyte. destruct H as [(H1 & H2)|(-> & H)].
  - destruct (N.eqb_spec blk 0); [contradiction|]. cbv zeta.
    assert (S : forall x, socks (set_sock c (blk / 4) x) i = socks c i).
    { intros x. unfold set_sock. cbn [socks]. destruct (N.eqb_spec i (blk / 4)); [congruence|reflexivity]. }
    destruct (blk mod 4) as [|[[[]|[]|]|[[]|[]|]|]]; auto; match goal with |- context [if ?b then _ else _] => destruct b end; auto.
  - rewrite N.eqb_refl. destruct H as [(-> & v' & -> & H)|(H1 & H2)].
    + destruct Hv as [->|[]]. change (len [v]) with 1 in Hb. assert (a' = MR) as -> by (unfold MR in *; lia).
      rewrite N.eqb_refl, H. reflexivity.
    + destruct (N.eqb_spec a' MR); [unfold MR in *; lia|]. destruct (a' =? VERSIONR); reflexivity.
Qed.
Lemma spares_write_bytes e i blk : forall d a s,
  (forall c v a', In v d -> (a' = a \/ a < a') -> a' < a + len d -> socks (wbyte c blk a' v) i = socks c i) ->
  blk = 0 \/ ((forall c v a', socks (wbyte c blk a' v) i = socks c i)) -> (blk = 0 -> a + len d <= 65536) ->
  sevs i (sk i s) (sk i (write_bytes e blk a d s)).
Proof.
  induction d as [|b d IH]; intros a s H Hb Hl; cbn [write_bytes]; [apply sevs_refl|].
  eapply sevs_trans; [apply (tick_sevs i e s)|]. rewrite len_cons in *.
  set (s2 := on_chip (fun c => wbyte c blk a b) (tick e s)).
  assert (E : sk i s2 = sk i (tick e s)).
  { unfold s2, sk, on_chip. cbn [s_chip]. apply H; [now left|now left|lia]. }
  rewrite <- E. destruct d as [|b' d]; [apply sevs_refl|]. rewrite len_cons in *. apply IH; [|exact Hb|].
  - intros c v a' Hv Ha Hl'. destruct Hb as [->|Hb]; [|apply Hb].
    unfold next_addr in *. rewrite N.mod_small in Ha, Hl' by (rewrite ?len_cons in *; lia).
    apply H; [now right|lia|lia].
  - intros ->. unfold next_addr. rewrite N.mod_small by (rewrite ?len_cons in *; lia). lia.
Qed.
Lemma read_bytes_sevs e i blk : forall n a s, sevs i (sk i s) (sk i (snd (read_bytes e blk a n s))).
Proof.
  induction n as [|n IH]; intros a s; cbn [read_bytes]; [apply sevs_refl|].
  specialize (IH (next_addr a) (tick e s)). destruct (read_bytes e blk (next_addr a) n (tick e s)) as [l s2]. cbn [snd] in *.
  eapply sevs_trans; [apply (tick_sevs i e s)|exact IH].
Qed.
Lemma spares_write_prefix i blk a d n : spares_write i blk a d -> firstn n d = [] \/ spares_write i blk a (firstn n d).
Proof.
  intros [H|(-> & [(-> & v & -> & H)|(H1 & H2)])]; [right; now left| |].
  - destruct n as [|n]; [left; reflexivity|right]. cbn [firstn]. rewrite firstn_nil. right. split; [reflexivity|]. left. split; [reflexivity|]. eauto.
  - right. right. split; [reflexivity|]. right. split; [exact H1|].
    assert (len (firstn n d) <= len d) by (unfold len; rewrite firstn_length; lia). lia.
Qed.
Lemma spares_write_sevs e i blk a d s : spares_write i blk a d -> sevs i (sk i s) (sk i (write_bytes e blk a d s)).
Proof.
  intros H. apply spares_write_bytes.
  - intros c v a' Hv Ha Hl. eapply spares_wbyte; eauto.
  - destruct H as [(H1 & H2)|(-> & _)]; [right|now left]. intros c v a'.
    apply (spares_wbyte i c blk a' [v]); [now left|now left|now left|]. change (len [v]) with 1. lia.
  - intros ->. destruct H as [(H1 & _)|(_ & [(-> & v & -> & _)|(_ & H)])]; [congruence| |exact H]. now vm_compute.
Qed.
Lemma run_spares {A} e i (p : prog A) : spares i p -> forall s, sevs i (sk i s) (sk i (snd (run e p s))).
Proof.
  induction p as [a|w| |b a d k IH|b a d k IH]; cbn [spares run]; intros H s; try apply sevs_refl.
  - pose proof (bus_read_length e b a d s) as L.
    assert (E : sevs i (sk i s) (sk i (snd (bus_read e b a d s)))).
    { unfold bus_read. destruct (fails e (s_call s)) as [[q err]|].
      - pose proof (read_bytes_sevs e i b (Nat.min q (length d)) a s) as E. destruct (read_bytes _ _ _ _ _) as [g s1]. exact E.
      - pose proof (read_bytes_sevs e i b (length d) a s) as E. destruct (read_bytes _ _ _ _ _) as [g s1]. exact E. }
    destruct (bus_read e b a d s) as [[g r] s1]. cbn [fst snd] in *. eapply sevs_trans; [exact E|]. apply IH. now apply H.
  - destruct H as [Hw H].
    assert (E : sevs i (sk i s) (sk i (snd (bus_write e b a d s)))).
    { unfold bus_write. destruct (fails e (s_call s)) as [[q err]|]; cbn [snd].
      - change (sk i (end_call ?x)) with (sk i x). destruct (spares_write_prefix i b a d q Hw) as [-> |Hp]; [apply sevs_refl|now apply spares_write_sevs].
      - change (sk i (end_call ?x)) with (sk i x). now apply spares_write_sevs. }
    destruct (bus_write e b a d s) as [r s1]. cbn [fst snd] in *. eapply sevs_trans; [exact E|]. apply IH, H.
Qed.

Lemma mode_no_reset m : N.testbit (b2n (u8 (mode_to_u8 m))) 7 = false.
Proof. destruct m as [w p c a]. destruct w, p, c, a; reflexivity. Qed.
Lemma spares_devop i q : q <> QResetDevice -> spares i (run_devop q).
Proof.
  intros H. destruct q; try contradiction; cbn [run_devop]; (apply spares_bind; [|intros; exact I]).
  all: try (cbn; intros got r _; destruct r; exact I).
  - cbn. split; [|intros; exact I]. right. split; [reflexivity|]. left. split; [reflexivity|]. eexists. split; [reflexivity|apply mode_no_reset].
  - cbn. split; [|intros []; exact I]. right. split; [reflexivity|]. right. split; [reflexivity|]. now vm_compute.
  - cbn. split; [|intros []; exact I]. right. split; [reflexivity|]. right. split; [reflexivity|]. now vm_compute.
Qed.

(** ** API calls on other handles *)
Lemma run_bind_done {A B} e (p : prog A) (f : A -> prog B) s b s' :
  run e (bind p f) s = (Done b, s') -> exists a s1, run e p s = (Done a, s1) /\ run e (f a) s1 = (Done b, s').
Proof.
  rewrite run_bind. destruct (run e p s) as [[a|w| |] s1]; cbn [fst snd cast]; intros H; try discriminate. eauto.
Qed.
Lemma lookup_snoc h l x p : lookup h l = Some x -> lookup h (l ++ [p]) = Some x.
Proof.
  induction l as [|[j y] l IH]; cbn; [discriminate|]. destruct (Nat.eqb j h); auto.
Qed.
Lemma lookup_remove_other h h' l : h' <> h -> lookup h (History.remove h' l) = lookup h l.
Proof.
  intros Hne. induction l as [|[j y] l IH]; cbn; [reflexivity|]. destruct (Nat.eqb_spec j h') as [->|Hj].
  - rewrite IH. destruct (Nat.eqb_spec h' h); [contradiction|reflexivity].
  - cbn. now rewrite IH.
Qed.
Lemma lookup_update_other h h' v l : h' <> h -> lookup h (update h' v l) = lookup h l.
Proof.
  intros Hne. induction l as [|[j y] l IH]; cbn; [reflexivity|]. destruct (Nat.eqb_spec j h') as [->|Hj]; cbn.
  - destruct (Nat.eqb_spec h' h); [contradiction|reflexivity].
  - now rewrite IH.
Qed.
Lemma lookup_update_same h v l x : lookup h l = Some x -> lookup h (update h v l) = Some v.
Proof.
  induction l as [|[j y] l IH]; cbn; [discriminate|]. destruct (Nat.eqb_spec j h) as [->|Hj]; cbn.
  - now rewrite Nat.eqb_refl.
  - destruct (Nat.eqb_spec j h); [contradiction|exact IH].
Qed.

Lemma step_lookup e fuel a o s a' out s' h x :
  run e (step fuel a o) s = (Done (a', out), s') -> lookup h (handles a) = Some x -> op_handle o <> Some h ->
  lookup h (handles a') = Some x.
Proof.
  intros R L Ho.
  assert (Hput : forall h' v, Some h' <> Some h -> lookup h (handles (put a h' v)) = Some x).
  { intros h' v Hne. cbn [handles put]. rewrite lookup_update_other; [exact L|congruence]. }
  assert (Hcon : forall h' d, Some h' <> Some h -> lookup h (handles (consume a d h')) = Some x).
  { intros h' d Hne. cbn [handles consume]. rewrite lookup_remove_other; [exact L|congruence]. }
  assert (Hgr : forall d y, lookup h (handles (grant a d y)) = Some x) by (intros d y; cbn [handles grant]; now apply lookup_snoc).
  destruct o as [|h'| |h' r|h' d|h' b|h'| |h' r|h' pt|h' d|h' r d|h' b|h'|h'| |q|h' pt|h' q]; cbn [step op_handle] in *;
    repeat match type of R with
    | run _ (match ?q with _ => _ end) _ = _ => destruct q
    | run _ (bind _ _) _ = _ => apply run_bind_done in R as (? & ? & _ & R)
    end; cbn [run] in R; try discriminate R; injection R as <- <- <-; auto.
Qed.

Lemma handle_index a h h' x y : pool_inv a -> lookup h (handles a) = Some x -> lookup h' (handles a) = Some y -> h <> h' ->
  index (handle_socket x) <> index (handle_socket y).
Proof.
  intros I L L' Hne E. pose proof (pi_idx _ I) as ND. apply lookup_in in L, L'. unfold idxs in ND.
  assert (G : forall l, NoDup (map (fun p : nat * handle => index (handle_socket (snd p))) l) ->
    In (h, x) l -> In (h', y) l -> False).
  { induction l as [|[j z] l IH]; [intros _ []|]. cbn [map snd]. inversion 1 as [|? ? Hn ND']; subst. intros [[= -> ->]|H1] [[= -> ->]|H2].
    - now apply Hne.
    - apply Hn. rewrite E. apply in_map_iff. exists (h', y). auto.
    - apply Hn. rewrite <- E. apply in_map_iff. exists (h, x). auto.
    - now apply IH. }
  now apply (G (handles a)).
Qed.

Lemma sblk_own i blk ad : i < 8 -> sblk (socket_new i) blk ad -> own_block i blk.
Proof.
  intros Hi (H & _). destruct (socket_blocks i Hi) as (E1 & E2 & E3 & _). rewrite E1, E2, E3 in H. exact H.
Qed.
Lemma spares_step fuel a o h x i : pool_inv a -> lookup h (handles a) = Some x -> handle_socket x = socket_new i ->
  op_handle o <> Some h -> o <> OpDevice QResetDevice -> spares i (step fuel a o).
Proof.
  intros I L Hx Ho Hr. pose proof (pt_step fuel a o I) as T.
  destruct (op_handle o) as [h'|] eqn:E.
  - destruct (lookup h' (handles a)) as [y|] eqn:L'.
    + destruct (pi_lookup _ _ _ I L') as (j & Hj & Ej & _).
      destruct (pi_lookup _ _ _ I L) as (i' & Hi' & Ei' & _).
      assert (Hij : i <> j).
      { assert (Hne : h <> h') by congruence. pose proof (handle_index a h h' x y I L L' Hne) as D. rewrite Hx, Ej in D.
        intros ->. now apply D. }
      eapply spares_ptree; [exact Hij| |exact T].
      intros blk ad. unfold step_blk. rewrite E. intros (z & Lz & S). rewrite L' in Lz. injection Lz as <-.
      rewrite Ej in S. now apply (sblk_own j blk ad).
    + destruct o; cbn [op_handle] in E; try discriminate E; injection E as ->; cbn [step]; rewrite ?L'; exact Logic.I.
  - destruct o; cbn [op_handle] in E; try discriminate E; cbn [step];
      repeat match goal with |- spares _ (match ?q with _ => _ end) => destruct q end; try exact Logic.I.
    apply spares_bind; [|intros; exact Logic.I]. apply spares_devop. congruence.
Qed.
Lemma run_step_inv e fuel a o s a' out s' : pool_inv a -> run e (step fuel a o) s = (Done (a', out), s') -> pool_inv a'.
Proof.
  intros I R. pose proof (run_ptree e _ _ _ _ (pt_step fuel a o I) s) as H. rewrite R in H. cbn [fst] in H. apply H.
Qed.
Lemma run_ops_inv e fuel : forall ops a s a' outs s', pool_inv a -> run e (run_ops fuel a ops) s = (Done (a', outs), s') -> pool_inv a'.
Proof.
  induction ops as [|o ops IH]; intros a s a' outs s' I R; cbn [run_ops] in R.
  - injection R as <- <- <-. exact I.
  - apply run_bind_done in R as ([a1 o1] & s1 & R1 & R). apply run_bind_done in R as ([a2 o2] & s2 & R2 & R).
    cbn [fst snd] in *. injection R as <- <- <-. apply (IH a1 s1 a2 o2 s2); [|exact R2]. now apply (run_step_inv e fuel a o s a1 o1 s1).
Qed.

(** ** A call that reports no bus error met none *)
Definition nofail (e : env) : env := mkEnv (happens e) (fun _ => None).
Lemma nofail_no_faults e : no_faults (nofail e).
Proof. intros j. reflexivity. Qed.
Lemma read_bytes_nofail e blk : forall n a s, read_bytes (nofail e) blk a n s = read_bytes e blk a n s.
Proof. induction n as [|n IH]; intros a s; cbn [read_bytes]; [reflexivity|]. now rewrite IH. Qed.
Lemma write_bytes_nofail e blk : forall d a s, write_bytes (nofail e) blk a d s = write_bytes e blk a d s.
Proof. induction d as [|b d IH]; intros a s; cbn [write_bytes]; [reflexivity|]. now rewrite IH. Qed.
Lemma run_nofail {A} (E : A -> option berr) e (p : prog A) : estop E p -> forall s o s',
  run e p s = (o, s') -> (forall r, o = Done r -> E r = None) -> run (nofail e) p s = (o, s').
Proof.
  induction p as [a|w| |b a d k IH|b a d k IH]; cbn [estop run]; intros H s o s' R N; try exact R.
  - destruct H as [H1 H2]. unfold bus_read in *. cbn [fails nofail]. rewrite read_bytes_nofail.
    pose proof (bus_read_length e b a d s) as L. unfold bus_read in L.
    destruct (fails e (s_call s)) as [[q err]|].
    + destruct (read_bytes e b a (Nat.min q (length d)) s) as [g s1]. cbn [fst] in L.
      destruct (H2 (g ++ skipn q d) err L) as (r & Ek & Er). rewrite Ek in R. cbn [run] in R.
      injection R as <- _. rewrite (N r eq_refl) in Er. discriminate.
    + destruct (read_bytes e b a (length d) s) as [g s1]. cbn [fst] in L. apply IH; auto.
  - destruct H as [H1 H2]. unfold bus_write in *. cbn [fails nofail]. rewrite write_bytes_nofail.
    destruct (fails e (s_call s)) as [[q err]|].
    + destruct (H2 err) as (r & Ek & Er). rewrite Ek in R. cbn [run] in R.
      injection R as <- _. rewrite (N r eq_refl) in Er. discriminate.
    + apply IH; auto.
Qed.
Lemma run_step_nofail e fuel a o s a' out s' : run e (step fuel a o) s = (Done (a', out), s') -> out_berr out = None ->
  run (nofail e) (step fuel a o) s = (Done (a', out), s').
Proof.
  intros R N. apply (run_nofail _ e _ (es_step fuel a o) s _ s' R). intros r [= <-]. exact N.
Qed.

(** ** A run against the chip is one of the executions of Exec.v *)
Lemma run_exec {A} e (p : prog A) : forall s o s', run e p s = (o, s') -> exists tr, exec p tr o.
Proof.
  induction p as [a|w| |b a d k IH|b a d k IH]; cbn [run]; intros s o s' R.
  - injection R as <- _. eexists. constructor.
  - injection R as <- _. eexists. constructor.
  - injection R as <- _. eexists. constructor.
  - pose proof (bus_read_length e b a d s) as L. destruct (bus_read e b a d s) as [[g r] s1]. cbn [fst] in L.
    destruct (IH _ _ _ _ R) as (tr & X). eexists. econstructor; eauto.
  - destruct (bus_write e b a d s) as [r s1]. destruct (IH _ _ _ _ R) as (tr & X). eexists. econstructor; eauto.
Qed.
