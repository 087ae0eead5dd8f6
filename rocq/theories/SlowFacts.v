(** As long as every command is taken before its socket is touched again, a chip that takes its
    time is the chip of Chip.v.  And whatever it does, a run against it is an execution of Exec.v. *)
From Verif Require Import Datasheet Slow Chip Exec FrameFacts.

Definition like (c c' : chip) : Prop := com c = com c' /\ forall n, socks c n = socks c' n.
Definition obey_all (l : list (N * byte)) (c : chip) : chip := fold_left obey l c.
Definition obeyed (m : N) (l : list (N * byte)) (x : sock) : sock :=
  fold_left (fun s p => if fst p =? m then do_command m s (b2n (snd p)) else s) l x.

Lemma obey_com c p : com (obey c p) = com c.
Proof. reflexivity. Qed.
Lemma obey_sock c p m : socks (obey c p) m = if fst p =? m then do_command m (socks c m) (b2n (snd p)) else socks c m.
Proof.
  unfold obey, set_sock. cbn [socks]. rewrite (N.eqb_sym m). destruct (N.eqb_spec (fst p) m) as [->|]; reflexivity.
Qed.
Lemma obey_all_com l : forall c, com (obey_all l c) = com c.
Proof. induction l as [|p l IH]; intros c; [reflexivity|]. cbn [obey_all fold_left]. exact (IH _). Qed.
Lemma obey_all_sock l : forall c m, socks (obey_all l c) m = obeyed m l (socks c m).
Proof.
  induction l as [|p l IH]; intros c m; [reflexivity|]. cbn [obey_all obeyed fold_left]. fold (obey_all l (obey c p)).
  rewrite IH, obey_sock. reflexivity.
Qed.
Lemma obeyed_none m l : waits_for l m = false -> forall x, obeyed m l x = x.
Proof.
  induction l as [|p l IH]; intros W x; [reflexivity|]. cbn [waits_for existsb] in W. apply orb_false_elim in W as [W1 W2].
  cbn [obeyed fold_left]. rewrite W1. exact (IH W2 x).
Qed.

Lemma take_com f l : forall c, com (fst (obeying f l c)) = com c.
Proof.
  induction l as [|p l IH]; intros c; cbn [obeying]; [reflexivity|]. destruct (f (fst p)).
  - rewrite IH. reflexivity.
  - specialize (IH c). destruct (obeying f l c). exact IH.
Qed.
Lemma take_sock f l : forall c m, obeyed m (snd (obeying f l c)) (socks (fst (obeying f l c)) m) = obeyed m l (socks c m).
Proof.
  assert (K : forall l c m, f m = false -> socks (fst (obeying f l c)) m = socks c m).
  { induction l0 as [|p l0 IH]; intros c m F; cbn [obeying]; [reflexivity|]. destruct (f (fst p)) eqn:E.
    - rewrite IH by exact F. rewrite obey_sock. destruct (N.eqb_spec (fst p) m); congruence.
    - specialize (IH c m F). destruct (obeying f l0 c). exact IH. }
  induction l as [|p l IH]; intros c m; cbn [obeying]; [reflexivity|]. destruct (f (fst p)) eqn:E.
  - rewrite IH, obey_sock. reflexivity.
  - specialize (IH c m). destruct (obeying f l c) as [c' r] eqn:T. cbn [fst snd] in *.
    cbn [obeyed fold_left]. destruct (N.eqb_spec (fst p) m) as [Em|Em]; [|exact IH].
    assert (F : f m = false) by congruence. pose proof (K l c m F) as K1. rewrite T in K1. cbn [fst] in K1. rewrite K1 in *.
    assert (J : forall l c y, obeyed m (snd (obeying f l c)) y = obeyed m l y).
    { clear -F. induction l as [|q l IH]; intros c y; cbn [obeying]; [reflexivity|]. destruct (f (fst q)) eqn:E.
      - rewrite IH. cbn [obeyed fold_left]. destruct (N.eqb_spec (fst q) m); [congruence|reflexivity].
      - specialize (IH c). destruct (obeying f l c) as [c' r]. cbn [snd] in *. cbn [obeyed fold_left]. apply IH. }
    specialize (J l c). rewrite T in J. cbn [snd] in J. apply J.
Qed.

(** ** the chip of Chip.v, socket by socket *)
Lemma nstep_com_like c c' e : like c c' -> com (nstep c e) = com (nstep c' e).
Proof. intros [H _]. unfold nstep. destruct (ev_sock e); [exact H|]. destruct e; try exact H. cbn [set_com com]. now rewrite H. Qed.
Lemma nstep_sock c e m : socks (nstep c e) m = match ev_sock e with Some n => if m =? n then sock_step (socks c m) e else socks c m | None => socks c m end.
Proof.
  unfold nstep. destruct (ev_sock e) as [n|].
  - cbn [set_sock socks]. destruct (N.eqb_spec m n) as [->|]; reflexivity.
  - destruct e; reflexivity.
Qed.
Lemma nstep_like c c' e l : like c (obey_all l c') -> ev_late l e = false -> like (nstep c e) (obey_all l (nstep c' e)).
Proof.
  intros [H1 H2] L. split.
  - rewrite obey_all_com in *. unfold nstep. destruct (ev_sock e); [exact H1|]. destruct e; try exact H1. cbn [set_com com]. now rewrite H1.
  - intros m. specialize (H2 m). rewrite obey_all_sock in *. rewrite !nstep_sock. unfold ev_late in L.
    destruct (ev_sock e) as [n|]; [|exact H2]. destruct (N.eqb_spec m n) as [->|]; [|exact H2].
    rewrite (obeyed_none n l L) in *. now rewrite H2.
Qed.
Lemma nsteps_like evs : forall c c' l, like c (obey_all l c') -> existsb (ev_late l) evs = false -> like (nsteps c evs) (obey_all l (nsteps c' evs)).
Proof.
  induction evs as [|e evs IH]; intros c c' l H L; [exact H|]. cbn [existsb] in L. apply orb_false_elim in L as [L1 L2].
  unfold nsteps. cbn [fold_left]. apply IH; [|exact L2]. now apply nstep_like.
Qed.

Definition sim (s : sys) (w : slow) : Prop :=
  like (s_chip s) (obey_all (w_wait w) (s_chip (w_sys w))) /\ s_tick s = s_tick (w_sys w) /\ s_call s = s_call (w_sys w).

Lemma tick_late e w : w_late (slow_tick e w) = false -> w_late w = false.
Proof. unfold slow_tick. destruct obeying. cbn [w_late]. intros H. now apply orb_false_elim in H. Qed.
Lemma tick_sim e s w : sim s w -> w_late (slow_tick e w) = false -> sim (tick (at_once e) s) (slow_tick e w).
Proof.
  intros (H & Ht & Hc) L. unfold slow_tick in *. pose proof (take_com (takes e (s_tick (w_sys w))) (w_wait w) (s_chip (w_sys w))) as T1.
  pose proof (take_sock (takes e (s_tick (w_sys w))) (w_wait w) (s_chip (w_sys w))) as T2.
  destruct (obeying (takes e (s_tick (w_sys w))) (w_wait w) (s_chip (w_sys w))) as [c l]. cbn [fst snd w_late] in *.
  apply orb_false_elim in L as [_ L]. unfold sim, tick. cbn [w_sys w_wait s_chip s_tick s_call]. rewrite Ht. split; [|split; [reflexivity|exact Hc]].
  apply nsteps_like; [|exact L]. destruct H as [H1 H2]. split.
  - rewrite obey_all_com in *. congruence.
  - intros m. specialize (H2 m). rewrite obey_all_sock in *. now rewrite T2.
Qed.

Lemma touched_none w blk : w_late w || (negb (blk =? 0) && waits_for (w_wait w) (blk / 4)) = false ->
  w_late w = false /\ (blk <> 0 -> waits_for (w_wait w) (blk / 4) = false).
Proof.
  intros H. apply orb_false_elim in H as [H1 H2]. split; [exact H1|]. intros N. destruct (N.eqb_spec blk 0); [contradiction|]. exact H2.
Qed.
Lemma newest_none l n : waits_for l n = false -> newest l n = x00.
Proof.
  induction l as [|p l IH]; intros W; [reflexivity|]. cbn [waits_for existsb] in W. apply orb_false_elim in W as [W1 W2].
  cbn [newest]. unfold waits_for. rewrite W2, W1. reflexivity.
Qed.
Lemma rbyte_sim s w blk a : sim s w -> (blk <> 0 -> waits_for (w_wait w) (blk / 4) = false) -> slow_rbyte w blk a = rbyte (s_chip s) blk a.
Proof.
  intros ((H1 & H2) & _) W. rewrite obey_all_com in H1. unfold slow_rbyte, rbyte. destruct (N.eqb_spec blk 0) as [->|N0].
  - change (0 mod 4 =? 1) with false. cbn [andb]. cbn. now rewrite H1.
  - specialize (H2 (blk / 4)). rewrite obey_all_sock, (obeyed_none _ _ (W N0)) in H2. rewrite H2.
    destruct (N.eqb_spec (blk mod 4) 1) as [E|E]; cbn [andb]; [|reflexivity].
    rewrite E. destruct (N.eqb_spec a Sn_CR) as [->|]; [|reflexivity]. now rewrite newest_none by exact (W N0).
Qed.
Lemma wbyte_late w blk a v : w_late (slow_wbyte w blk a v) = false -> w_late w = false.
Proof.
  unfold slow_wbyte. destruct (_ && _); [cbn [w_late]; intros H; now apply orb_false_elim in H|]. destruct is_reset; cbn [w_late]; intros H; now apply orb_false_elim in H.
Qed.
Lemma wbyte_sock c blk a v m : blk <> 0 -> socks (wbyte c blk a v) m =
  if m =? blk / 4 then
    match blk mod 4 with
    | 1 => sock_wr m (socks c m) a v
    | 2 => if tx_size (socks c m) =? 0 then socks c m else set_txm (socks c m) (upd (txm (socks c m)) (a mod tx_size (socks c m)) v)
    | 3 => if rx_size (socks c m) =? 0 then socks c m else set_rxm (socks c m) (upd (rxm (socks c m)) (a mod rx_size (socks c m)) v)
    | _ => socks c m
    end
  else socks c m.
Proof.
  intros N0. unfold wbyte. destruct (N.eqb_spec blk 0); [contradiction|]. cbv zeta.
  destruct (N.eqb_spec m (blk / 4)) as [->|Em].
  - destruct (blk mod 4) as [|[[]|[]|]]; try reflexivity; cbn [set_sock socks]; rewrite ?N.eqb_refl; try reflexivity;
      try (destruct (tx_size _ =? 0); [reflexivity|]); try (destruct (rx_size _ =? 0); [reflexivity|]); cbn [set_sock socks]; now rewrite ?N.eqb_refl.
  - assert (E : (m =? blk / 4) = false) by now apply N.eqb_neq.
    destruct (blk mod 4) as [|[[]|[]|]]; try reflexivity;
      try (destruct (tx_size _ =? 0); [reflexivity|]); try (destruct (rx_size _ =? 0); [reflexivity|]); cbn [set_sock socks]; now rewrite ?E.
Qed.
Lemma wbyte_com c blk a v : blk <> 0 -> com (wbyte c blk a v) = com c.
Proof.
  intros N0. unfold wbyte. destruct (N.eqb_spec blk 0); [contradiction|]. cbv zeta.
  destruct (blk mod 4) as [|[[]|[]|]]; try reflexivity; try (destruct (tx_size _ =? 0); reflexivity); destruct (rx_size _ =? 0); reflexivity.
Qed.
Lemma wbyte_sim s w blk a v : sim s w -> w_late (slow_wbyte w blk a v) = false -> sim (on_chip (fun c => wbyte c blk a v) s) (slow_wbyte w blk a v).
Proof.
  intros ((H1 & H2) & Ht & Hc) L. rewrite obey_all_com in H1. unfold slow_wbyte in *. cbv zeta in *.
  destruct ((blk mod 4 =? 1) && (a =? Sn_CR)) eqn:Ecr.
  - apply andb_prop in Ecr as [E1 E2]. apply N.eqb_eq in E1, E2. subst a. cbn [w_late] in L. apply touched_none in L as [_ W].
    assert (N0 : blk <> 0) by (intros ->; discriminate E1). specialize (W N0).
    split; [|split; [exact Ht|exact Hc]]. cbn [w_wait w_sys on_chip s_chip]. split.
    + rewrite obey_all_com, wbyte_com by exact N0. exact H1.
    + intros m. specialize (H2 m). rewrite obey_all_sock in *. rewrite wbyte_sock by exact N0. rewrite E1.
      unfold obeyed. rewrite fold_left_app. cbn [fold_left fst snd]. fold (obeyed m (w_wait w) (socks (s_chip (w_sys w)) m)). rewrite <- H2.
      rewrite (N.eqb_sym m). destruct (N.eqb_spec (blk / 4) m) as [<-|]; reflexivity.
  - destruct (is_reset blk a v) eqn:Er.
    + cbn [w_late] in L. apply orb_false_elim in L as [_ L]. destruct (w_wait w) as [|p l]; [|discriminate].
      split; [|split; [exact Ht|exact Hc]]. cbn [w_wait w_sys on_chip s_chip]. unfold is_reset in Er.
      apply andb_prop in Er as [Er E3]. apply andb_prop in Er as [E1 E2]. unfold wbyte. rewrite E1, E2, E3. split; [reflexivity|].
      intros m. cbn [obey_all fold_left chip_reset socks]. f_equal. exact (H2 m).
    + cbn [w_late] in L. apply touched_none in L as [_ W]. split; [|split; [exact Ht|exact Hc]]. cbn [w_wait w_sys on_chip s_chip].
      destruct (N.eq_dec blk 0) as [->|N0].
      * unfold wbyte. cbn [N.eqb]. unfold is_reset in Er. cbn [N.eqb andb] in Er. split.
        -- rewrite obey_all_com. destruct (a =? MR); [destruct (N.testbit (b2n v) 7); [discriminate|]|destruct (a =? VERSIONR)]; cbn [set_com com]; now rewrite ?H1.
        -- intros m. specialize (H2 m). rewrite obey_all_sock in *.
           destruct (a =? MR); [destruct (N.testbit (b2n v) 7); [discriminate|]|destruct (a =? VERSIONR)]; exact H2.
      * specialize (W N0). split.
        -- rewrite obey_all_com, !wbyte_com by exact N0. exact H1.
        -- intros m. specialize (H2 m). rewrite obey_all_sock in *. rewrite !wbyte_sock by exact N0.
           destruct (N.eqb_spec m (blk / 4)) as [->|]; [|exact H2]. rewrite (obeyed_none _ _ W) in *. now rewrite H2.
Qed.

Lemma read_late e blk : forall n a w, w_late (snd (slow_read_bytes e blk a n w)) = false -> w_late w = false.
Proof.
  induction n as [|n IH]; intros a w; cbn [slow_read_bytes]; [exact (fun H => H)|].
  specialize (IH (next_addr a) (touch (slow_tick e w) blk a)). destruct slow_read_bytes as [l w2]. cbn [snd] in *.
  intros H. specialize (IH H). unfold touch in IH. cbn [w_late] in IH. apply orb_false_elim in IH as [IH _]. exact (tick_late e w IH).
Qed.
Lemma read_sim e blk : forall n a s w, sim s w -> w_late (snd (slow_read_bytes e blk a n w)) = false ->
  fst (slow_read_bytes e blk a n w) = fst (read_bytes (at_once e) blk a n s) /\
  sim (snd (read_bytes (at_once e) blk a n s)) (snd (slow_read_bytes e blk a n w)).
Proof.
  induction n as [|n IH]; intros a s w H L; cbn [slow_read_bytes read_bytes] in *; [split; [reflexivity|exact H]|].
  specialize (IH (next_addr a) (tick (at_once e) s) (touch (slow_tick e w) blk a)).
  pose proof (read_late e blk n (next_addr a) (touch (slow_tick e w) blk a)) as L1.
  destruct (slow_read_bytes e blk (next_addr a) n (touch (slow_tick e w) blk a)) as [l w2]. cbn [fst snd] in *. specialize (L1 L).
  unfold touch in L1. cbn [w_late] in L1. apply touched_none in L1 as [L1 W]. pose proof (tick_sim e s w H L1) as T.
  destruct (read_bytes (at_once e) blk (next_addr a) n (tick (at_once e) s)) as [l' s2]. cbn [fst snd] in *.
  destruct (IH T L) as [-> S2]. split; [|exact S2]. f_equal. exact (rbyte_sim _ _ blk a T W).
Qed.
Lemma write_late e blk : forall d a w, w_late (slow_write_bytes e blk a d w) = false -> w_late w = false.
Proof.
  induction d as [|b d IH]; intros a w; cbn [slow_write_bytes]; [exact (fun H => H)|]. intros H. exact (tick_late e w (wbyte_late _ _ _ _ (IH _ _ H))).
Qed.
Lemma write_sim e blk : forall d a s w, sim s w -> w_late (slow_write_bytes e blk a d w) = false ->
  sim (write_bytes (at_once e) blk a d s) (slow_write_bytes e blk a d w).
Proof.
  induction d as [|b d IH]; intros a s w H L; cbn [slow_write_bytes write_bytes] in *; [exact H|].
  pose proof (write_late _ _ _ _ _ L) as L1. apply IH; [|exact L]. apply wbyte_sim; [|exact L1]. apply tick_sim; [exact H|exact (wbyte_late _ _ _ _ L1)].
Qed.
Lemma end_sim s w : sim s w -> sim (end_call s) (slow_end w).
Proof. intros (H & Ht & Hc). split; [exact H|]. split; [exact Ht|]. cbn. now rewrite Hc. Qed.

Lemma slow_run_late {A} e (p : prog A) : forall w o w', slow_run e p w = (o, w') -> w_late w' = false -> w_late w = false.
Proof.
  induction p as [x|x| |b a d k IH|b a d k IH]; cbn [slow_run]; intros w o w' R L; try (injection R as _ <-; exact L).
  - destruct (slow_bus_read e b a d w) as [r w1] eqn:B. specialize (IH _ _ _ _ R L). unfold slow_bus_read in B.
    destruct (fails _ _) as [[q err]|].
    + pose proof (read_late e b (Nat.min q (length d)) a w) as RL. destruct slow_read_bytes. injection B as _ <-. exact (RL IH).
    + pose proof (read_late e b (length d) a w) as RL. destruct slow_read_bytes. injection B as _ <-. exact (RL IH).
  - destruct (slow_bus_write e b a d w) as [r w1] eqn:B. specialize (IH _ _ _ _ R L). unfold slow_bus_write in B.
    destruct (fails _ _) as [[q err]|]; injection B as _ <-; exact (write_late _ _ _ _ _ IH).
Qed.
Theorem in_time {A} e (p : prog A) : forall s w o w', sim s w -> slow_run e p w = (o, w') -> w_late w' = false ->
  exists s', run (at_once e) p s = (o, s') /\ sim s' w'.
Proof.
  induction p as [x|x| |b a d k IH|b a d k IH]; cbn [slow_run run]; intros s w o w' S R L; try (injection R as <- <-; eexists; split; [reflexivity|exact S]).
  - destruct (slow_bus_read e b a d w) as [r w1] eqn:B. pose proof (slow_run_late _ _ _ _ _ R L) as L1. unfold slow_bus_read, bus_read in *.
    destruct S as (S1 & S2 & S3). rewrite S3. destruct (fails _ _) as [[q err]|].
    + pose proof (read_sim e b (Nat.min q (length d)) a s w (conj S1 (conj S2 S3))) as RS.
      destruct (slow_read_bytes e b a (Nat.min q (length d)) w) as [g w2]. injection B as <- <-. cbn [snd fst] in RS. destruct (RS L1) as [-> RS2].
      destruct (read_bytes (at_once e) b a (Nat.min q (length d)) s) as [g' s2]. cbn [snd fst] in *. exact (IH _ _ _ _ _ (end_sim _ _ RS2) R L).
    + pose proof (read_sim e b (length d) a s w (conj S1 (conj S2 S3))) as RS.
      destruct (slow_read_bytes e b a (length d) w) as [g w2]. injection B as <- <-. cbn [snd fst] in RS. destruct (RS L1) as [-> RS2].
      destruct (read_bytes (at_once e) b a (length d) s) as [g' s2]. cbn [snd fst] in *. exact (IH _ _ _ _ _ (end_sim _ _ RS2) R L).
  - destruct (slow_bus_write e b a d w) as [r w1] eqn:B. pose proof (slow_run_late _ _ _ _ _ R L) as L1. unfold slow_bus_write, bus_write in *.
    destruct S as (S1 & S2 & S3). rewrite S3. destruct (fails _ _) as [[q err]|]; injection B as <- <-; cbn [slow_end w_late] in L1;
      exact (IH _ _ _ _ _ (end_sim _ _ (write_sim e b _ a s w (conj S1 (conj S2 S3)) L1)) R L).
Qed.

(** ** an execution of Exec.v *)
Lemma slow_read_length e blk : forall n a w, length (fst (slow_read_bytes e blk a n w)) = n.
Proof.
  induction n as [|n IH]; intros a w; [reflexivity|]. cbn [slow_read_bytes]. specialize (IH (next_addr a) (touch (slow_tick e w) blk a)).
  destruct slow_read_bytes. cbn [fst length] in *. now rewrite IH.
Qed.
Lemma slow_exec {A} e (p : prog A) : forall w o w', slow_run e p w = (o, w') -> exists tr, exec p tr o.
Proof.
  induction p as [x|x| |b a d k IH|b a d k IH]; cbn [slow_run]; intros w o w' R; try (injection R as <- _; eexists; constructor).
  - assert (Len : length (fst (fst (slow_bus_read e b a d w))) = length d).
    { unfold slow_bus_read. destruct (fails _ _) as [[q err]|].
      - pose proof (slow_read_length e b (Nat.min q (length d)) a w) as E. destruct slow_read_bytes as [g w1]. cbn [fst] in *.
        rewrite app_length, skipn_length, E. lia.
      - pose proof (slow_read_length e b (length d) a w) as E. destruct slow_read_bytes as [g w1]. exact E. }
    destruct (slow_bus_read e b a d w) as [[g r] w1]. cbn [fst] in Len. destruct (IH _ _ _ _ R) as (tr & X). eexists. econstructor; eauto.
  - destruct (slow_bus_write e b a d w) as [r w1]. destruct (IH _ _ _ _ R) as (tr & X). eexists. econstructor; eauto.
Qed.

(** ** taken before the next byte *)
Section Prompt.
  Context (e : senv) (All : forall t i, takes e t i = true).
  Lemma obeying_all l : forall c t, snd (obeying (takes e t) l c) = [].
  Proof. induction l as [|p l IH]; intros c t; [reflexivity|]. cbn [obeying]. rewrite All. apply IH. Qed.
  Lemma tick_prompt w : w_late w = false -> w_late (slow_tick e w) = false /\ w_wait (slow_tick e w) = [].
  Proof.
    intros L. unfold slow_tick. pose proof (obeying_all (w_wait w) (s_chip (w_sys w)) (s_tick (w_sys w))) as E.
    destruct obeying as [c l]. cbn [snd] in E. subst l. cbn [w_late w_wait]. rewrite L. split; [|reflexivity].
    induction (happens (at_once e) (s_tick (w_sys w))) as [|x evs IH]; [reflexivity|]. cbn [existsb orb] in *.
    unfold ev_late at 1. destruct (ev_sock x); exact IH.
  Qed.
  Lemma wbyte_prompt w blk a v : w_late w = false -> w_wait w = [] -> w_late (slow_wbyte w blk a v) = false.
  Proof. intros L E. unfold slow_wbyte. rewrite E, L. cbn [waits_for existsb]. rewrite andb_false_r. destruct (_ && _); [reflexivity|]. destruct is_reset; reflexivity. Qed.
  Lemma write_prompt blk : forall d a w, w_late w = false -> w_late (slow_write_bytes e blk a d w) = false.
  Proof. induction d as [|b d IH]; intros a w L; [exact L|]. cbn [slow_write_bytes]. apply IH. destruct (tick_prompt w L). now apply wbyte_prompt. Qed.
  Lemma read_prompt blk : forall n a w, w_late w = false -> w_late (snd (slow_read_bytes e blk a n w)) = false.
  Proof.
    induction n as [|n IH]; intros a w L; [exact L|]. cbn [slow_read_bytes]. destruct (tick_prompt w L) as [L1 E1].
    specialize (IH (next_addr a) (touch (slow_tick e w) blk a)). destruct slow_read_bytes as [l w2]. cbn [snd] in *. apply IH.
    unfold touch. cbn [w_late]. rewrite L1, E1. cbn [waits_for existsb]. now rewrite andb_false_r.
  Qed.
  Lemma prompt_late {A} (p : prog A) : forall w o w', slow_run e p w = (o, w') -> w_late w = false -> w_late w' = false.
  Proof.
    induction p as [x|x| |b a d k IH|b a d k IH]; cbn [slow_run]; intros w o w' R L; try (injection R as _ <-; exact L).
    - destruct (slow_bus_read e b a d w) as [r w1] eqn:B. apply (IH _ _ _ _ R). unfold slow_bus_read in B. destruct (fails _ _) as [[q err]|].
      + pose proof (read_prompt b (Nat.min q (length d)) a w L) as E. destruct slow_read_bytes. injection B as _ <-. exact E.
      + pose proof (read_prompt b (length d) a w L) as E. destruct slow_read_bytes. injection B as _ <-. exact E.
    - destruct (slow_bus_write e b a d w) as [r w1] eqn:B. apply (IH _ _ _ _ R). unfold slow_bus_write in B.
      destruct (fails _ _) as [[q err]|]; injection B as _ <-; now apply write_prompt.
  Qed.
End Prompt.
