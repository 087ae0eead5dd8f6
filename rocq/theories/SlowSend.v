(** A chip that takes its time over a SEND is one whose network takes its time over it. *)
From Verif Require Import Datasheet Slow SlowFacts Chip Exec FrameFacts.

(** ** Two sockets that differ only in where the last SEND, now over, ended *)
Definition eqv (u v : sock) : Prop := exists t, v = set_tx_end u t /\ (tx_busy u = true -> t = tx_end u).
Lemma eqv_refl u : eqv u u.
Proof. exists (tx_end u). split; [now destruct u|auto]. Qed.
Lemma eqv_busy u v : eqv u v -> tx_busy u = true -> v = u.
Proof. intros (t & -> & H) B. rewrite (H B). now destruct u. Qed.

Lemma eqv_trans u v x : eqv u v -> eqv v x -> eqv u x.
Proof.
  intros (t1 & -> & H1) (t2 & -> & H2). exists t2. split; [reflexivity|]. intros B. rewrite H2 by exact B. cbn [set_tx_end tx_end]. now apply H1.
Qed.

Ltac same := intros (t & -> & H); exists t; split; [reflexivity|exact H].
Lemma eqv_regs u v x : eqv u v -> eqv (set_regs u x) (set_regs v x). Proof. same. Qed.
Lemma eqv_sr u v x : eqv u v -> eqv (set_sr u x) (set_sr v x). Proof. same. Qed.
Lemma eqv_ir u v x : eqv u v -> eqv (set_ir u x) (set_ir v x). Proof. same. Qed.
Lemma eqv_tx_rd u v x : eqv u v -> eqv (set_tx_rd u x) (set_tx_rd v x). Proof. same. Qed.
Lemma eqv_tx_ack u v x : eqv u v -> eqv (set_tx_ack u x) (set_tx_ack v x). Proof. same. Qed.
Lemma eqv_okdue u v x : eqv u v -> eqv (set_tx_okdue u x) (set_tx_okdue v x). Proof. same. Qed.
Lemma eqv_rx_wr u v x : eqv u v -> eqv (set_rx_wr u x) (set_rx_wr v x). Proof. same. Qed.
Lemma eqv_rx_base u v x : eqv u v -> eqv (set_rx_base u x) (set_rx_base v x). Proof. same. Qed.
Lemma eqv_txm u v x : eqv u v -> eqv (set_txm u x) (set_txm v x). Proof. same. Qed.
Lemma eqv_rxm u v x : eqv u v -> eqv (set_rxm u x) (set_rxm v x). Proof. same. Qed.
Lemma eqv_sent u v x : eqv u v -> eqv (set_sent u x) (set_sent v x). Proof. same. Qed.
Lemma eqv_rxlog u v x : eqv u v -> eqv (set_rxlog u x) (set_rxlog v x). Proof. same. Qed.
Lemma eqv_dialled u v x : eqv u v -> eqv (set_dialled u x) (set_dialled v x). Proof. same. Qed.
Lemma eqv_idle u v : eqv u v -> eqv (set_tx_busy u false) (set_tx_busy v false).
Proof. intros (t & -> & H). exists t. split; [reflexivity|]. discriminate. Qed.
Lemma eqv_end u v x : eqv u v -> set_tx_end u x = set_tx_end v x.
Proof. now intros (t & -> & H). Qed.
Create HintDb eqv discriminated.
#[export] Hint Resolve eqv_refl eqv_regs eqv_sr eqv_ir eqv_tx_rd eqv_tx_ack eqv_okdue eqv_rx_wr eqv_rx_base eqv_txm eqv_rxm eqv_sent eqv_rxlog eqv_dialled eqv_idle : eqv.

(** everything but [tx_end] is the same *)
Lemma eqv_same u v : eqv u v ->
  (regs v = regs u /\ sr v = sr u /\ ir v = ir u /\ tx_rd v = tx_rd u /\ tx_ack v = tx_ack u /\ tx_busy v = tx_busy u /\ tx_okdue v = tx_okdue u) /\
  (rx_wr v = rx_wr u /\ rx_base v = rx_base u /\ txm v = txm u /\ rxm v = rxm u /\ seed_tx v = seed_tx u /\ seed_rx v = seed_rx u) /\
  sent v = sent u /\ rxlog v = rxlog u /\ dialled v = dialled u.
Proof. intros (t & -> & _). repeat split. Qed.
Lemma eqv_init u v : eqv u v -> init_pointers u = init_pointers v.
Proof. now intros (t & -> & _). Qed.
Lemma eqv_cmd n u v c : eqv u v -> eqv (do_command n u c) (do_command n v c).
Proof.
  intros E. pose proof (eqv_same u v E) as ((R & S & _) & _ & _ & _ & D). unfold do_command, tx_wr, rx_rd. rewrite <- (eqv_init u v E), R, S, D.
  repeat match goal with |- eqv (if ?b then _ else _) _ => destruct b end; auto 6 with eqv.
  rewrite (eqv_end u v _ E). apply eqv_refl.
Qed.
Lemma eqv_append u v d : eqv u v -> eqv (rx_append u d) (rx_append v d).
Proof.
  intros E. pose proof (eqv_same u v E) as ((R & S & I & _) & (W & B & _ & M & _) & _ & L & _).
  unfold rx_append, rx_rsr, rx_size. rewrite R, I, W, B, M, L. destruct (_ <=? _); auto 8 with eqv.
Qed.
Lemma eqv_step u v e : eqv u v -> eqv (sock_step u e) (sock_step v e).
Proof.
  intros E. destruct (tx_busy u) eqn:By; [rewrite (eqv_busy u v E By); apply eqv_refl|].
  pose proof (eqv_same u v E) as ((R & S & I & T & A & B & O) & _).
  destruct e; cbn [sock_step]; unfold transmit; rewrite ?R, ?S, ?I, ?T, ?A, ?B, ?O, ?By;
    repeat match goal with |- eqv (if ?b then _ else _) _ => destruct b end; auto 6 using eqv_append with eqv.
Qed.
Lemma eqv_rd u v a : eqv u v -> sock_rd u a = sock_rd v a.
Proof. now intros (t & -> & _). Qed.
Lemma eqv_wr n u v a b : eqv u v -> eqv (sock_wr n u a b) (sock_wr n v a b).
Proof.
  intros E. pose proof (eqv_same u v E) as ((R & S & I & _) & _). unfold sock_wr. rewrite R, I.
  destruct (a =? Sn_CR); [now apply eqv_cmd|]. destruct (a =? Sn_IR); [auto with eqv|]. destruct (read_only a); auto with eqv.
Qed.
Lemma eqv_reset u v : eqv u v -> sock_reset u = sock_reset v.
Proof. now intros (t & -> & _). Qed.

(** ** A SEND, now or later *)
Definition sending (n : N) (x : sock) : sock := do_command n x CR_SEND.
Lemma sending_eq n x : sending n x = if is_sending_state (sr x) then set_tx_okdue (set_tx_busy (set_tx_end x (tx_wr x)) true) false else x.
Proof. reflexivity. Qed.
Lemma sending_twice n x : sending n (sending n x) = sending n x.
Proof.
  rewrite (sending_eq n x). destruct (is_sending_state (sr x)) eqn:E; [|now rewrite sending_eq, E].
  rewrite sending_eq. cbn [set_tx_okdue set_tx_busy set_tx_end sr]. rewrite E. reflexivity.
Qed.
Lemma sends_obeyed n l x : only_sends l n = true -> waits_for l n = true -> obeyed n l x = sending n x.
Proof.
  assert (K : forall l x, only_sends l n = true -> obeyed n l (sending n x) = sending n x).
  { induction l0 as [|p l0 IH]; intros y O; [reflexivity|]. cbn [only_sends forallb] in O. apply andb_prop in O as [O1 O2].
    cbn [obeyed fold_left]. destruct (fst p =? n) eqn:E; [|now apply IH]. cbn [negb orb] in O1. apply N.eqb_eq in O1. rewrite O1.
    fold (sending n (sending n y)). rewrite sending_twice. now apply IH. }
  revert x. induction l as [|p l IH]; intros x O W; [discriminate W|]. cbn [only_sends forallb] in O. apply andb_prop in O as [O1 O2].
  cbn [waits_for existsb] in W. cbn [obeyed fold_left]. destruct (fst p =? n) eqn:E.
  - cbn [negb orb] in O1. apply N.eqb_eq in O1. rewrite O1. fold (sending n x). now apply K.
  - now apply IH.
Qed.
Lemma sending_rd n x a : sock_rd (sending n x) a = sock_rd x a.
Proof. rewrite sending_eq. now destruct (is_sending_state (sr x)). Qed.
Lemma upd_other m a v b : b <> a -> upd m a v b = m b.
Proof. intros H. unfold upd. now destruct (N.eqb_spec b a). Qed.
Lemma sending_wr n x a v : a <> Sn_CR -> a <> Sn_TX_WR -> a <> Sn_TX_WR + 1 -> sock_wr n (sending n x) a v = sending n (sock_wr n x a v).
Proof.
  intros H1 H2 H3. apply N.eqb_neq in H1. unfold sock_wr. rewrite H1.
  destruct (a =? Sn_IR); [rewrite !sending_eq; cbn [set_ir sr]; destruct (is_sending_state (sr x)); reflexivity|].
  destruct (read_only a); [reflexivity|]. rewrite !sending_eq. cbn [set_regs sr]. destruct (is_sending_state (sr x)); [|reflexivity].
  replace (tx_wr (set_regs x (upd (regs x) a v))) with (tx_wr x); [reflexivity|].
  unfold tx_wr, get16. cbn [set_regs regs]. rewrite !upd_other by auto. reflexivity.
Qed.
Lemma sending_txm n x m : set_txm (sending n x) m = sending n (set_txm x m).
Proof. rewrite !sending_eq. cbn [set_txm sr]. now destruct (is_sending_state (sr x)). Qed.
Lemma sending_rxm n x m : set_rxm (sending n x) m = sending n (set_rxm x m).
Proof. rewrite !sending_eq. cbn [set_rxm sr]. now destruct (is_sending_state (sr x)). Qed.
Lemma sending_sr n x : sr (sending n x) = sr x.
Proof. rewrite sending_eq. now destruct (is_sending_state (sr x)). Qed.
Lemma sending_mem n x : regs (sending n x) = regs x /\ txm (sending n x) = txm x /\ rxm (sending n x) = rxm x.
Proof. rewrite sending_eq. destruct (is_sending_state (sr x)); repeat split. Qed.
Lemma sending_reset n x : sock_reset (sending n x) = sock_reset x.
Proof. rewrite sending_eq. now destruct (is_sending_state (sr x)). Qed.

(** what the network does to a socket while a SEND waits *)
Definition transmits (e : nevent) : bool := match e with EvTransmit _ _ | EvSendTimeout _ _ => true | _ => false end.
Definition harmless (x : sock) (e : nevent) : bool := calm x && match e with EvSendOk _ => negb (tx_okdue x) | _ => true end.
Lemma sending_append n x d : rx_append (sending n x) d = sending n (rx_append x d).
Proof.
  rewrite sending_eq. destruct (is_sending_state (sr x)) eqn:E; unfold rx_append.
  - change (rx_size (set_tx_okdue (set_tx_busy (set_tx_end x (tx_wr x)) true) false)) with (rx_size x).
    change (rx_rsr (set_tx_okdue (set_tx_busy (set_tx_end x (tx_wr x)) true) false)) with (rx_rsr x).
    destruct (_ <=? _); rewrite sending_eq; cbn [set_rxlog set_ir set_rx_wr set_rxm sr]; rewrite E; reflexivity.
  - destruct (_ <=? _); rewrite sending_eq; cbn [set_rxlog set_ir set_rx_wr set_rxm sr]; rewrite E; reflexivity.
Qed.
Lemma sending_step n x e : harmless x e = true ->
  if transmits e then sock_step x e = x else eqv (sending n (sock_step x e)) (sock_step (sending n x) e).
Proof.
  intros H. unfold harmless, calm in H. apply andb_prop in H as [H O]. apply andb_prop in H as [H L]. apply andb_prop in H as [B Y].
  apply negb_true_iff in B, Y, L.
  destruct e; cbn [transmits sock_step]; unfold transmit; rewrite ?B, ?sending_sr, ?Y, ?L; cbn [orb]; try reflexivity; try apply eqv_refl.
  - destruct (N.eqb_spec (sr x) SOCK_ESTABLISHED) as [Ex|Ex]; [|apply eqv_refl].
    rewrite !sending_eq. cbn [set_ir set_sr sr]. rewrite Ex. apply eqv_refl.
  - destruct ((sr x =? SOCK_ESTABLISHED) || (sr x =? SOCK_CLOSE_WAIT) || (sr x =? SOCK_FIN_WAIT) || (sr x =? SOCK_LAST_ACK)) eqn:D; [|apply eqv_refl].
    rewrite !sending_eq. destruct (is_sending_state (sr x)) eqn:E; [|apply eqv_refl].
    eexists. split; [reflexivity|discriminate].
  - destruct (sr x =? SOCK_ESTABLISHED); [rewrite sending_append|]; apply eqv_refl.
  - destruct (_ && _); [rewrite sending_append|]; apply eqv_refl.
  - destruct (_ && _); [rewrite sending_append|]; apply eqv_refl.
  - apply negb_true_iff in O. rewrite O. replace (tx_okdue (sending n x)) with false; [apply eqv_refl|].
    rewrite sending_eq. now destruct (is_sending_state (sr x)).
  - rewrite !sending_eq. cbn [set_tx_ack sr]. destruct (is_sending_state (sr x)); apply eqv_refl.
Qed.
Lemma harmless_step x e e' : harmless x e = true -> harmless x e' = true -> harmless (sock_step x e) e' = true.
Proof.
  intros H H'. unfold harmless, calm in *. apply andb_prop in H as [H O]. apply andb_prop in H as [H L]. apply andb_prop in H as [B Y].
  apply andb_prop in H' as [_ O'].
  assert (K : forall y, tx_busy y = false -> sr y =? SOCK_SYNSENT = false -> sr y =? SOCK_LISTEN = false -> (tx_okdue y = tx_okdue x \/ tx_okdue y = false) ->
    negb (tx_busy y) && negb (sr y =? SOCK_SYNSENT) && negb (sr y =? SOCK_LISTEN) && match e' with EvSendOk _ => negb (tx_okdue y) | _ => true end = true).
  { intros y K1 K2 K3 [K4|K4]; rewrite K1, K2, K3, K4; cbn [negb andb]; destruct e'; auto. }
  apply negb_true_iff in B, Y, L.
  assert (A : forall d, tx_busy (rx_append x d) = tx_busy x /\ sr (rx_append x d) = sr x /\ tx_okdue (rx_append x d) = tx_okdue x).
  { intros d. unfold rx_append. destruct (_ <=? _); repeat split. }
  apply K; destruct e; cbn [sock_step]; unfold transmit; rewrite ?B, ?Y, ?L; cbn [orb]; auto;
    repeat match goal with |- context [if ?b then _ else _] => destruct b eqn:? end; auto;
    rewrite ?(proj1 (A _)), ?(proj1 (proj2 (A _))), ?(proj2 (proj2 (A _))); auto.
Qed.

(** ** The simulation *)
Definition likeS (c c' : chip) : Prop := com c = com c' /\ forall n, eqv (socks c n) (socks c' n).
(** [s]: the chip that obeys at once; [w]: the one that takes its time *)
Definition simS (s : sys) (w : slow) : Prop :=
  likeS (obey_all (w_wait w) (s_chip (w_sys w))) (s_chip s) /\ s_tick s = s_tick (w_sys w) /\ s_call s = s_call (w_sys w).
(** a network that leaves the SENDs of the sockets of [f t] alone before the t-th byte *)
Definition muted (f : nat -> N -> bool) (e : env) : env :=
  mkEnv (fun t => filter (fun ev => negb (transmits ev && match ev_sock ev with Some n => f t n | None => false end)) (happens e t)) (fails e).

Lemma obeyed_eqv m l : forall u v, eqv u v -> eqv (obeyed m l u) (obeyed m l v).
Proof.
  induction l as [|p l IH]; intros u v E; [exact E|]. cbn [obeyed fold_left]. apply IH. destruct (fst p =? m); [now apply eqv_cmd|exact E].
Qed.
Lemma harmless_ev c l e n : ev_sock e = Some n -> ev_upset c l e = false -> waits_for l n = true ->
  only_sends l n = true /\ harmless (socks c n) e = true.
Proof.
  intros En U W. unfold ev_upset in U. rewrite En, W in U. cbn [andb] in U. apply negb_false_iff in U.
  apply andb_prop in U as [U O]. apply andb_prop in U as [O1 C]. split; [exact O1|]. unfold harmless. now rewrite C.
Qed.
Lemma nstep_upset c l e e' : ev_upset c l e = false -> ev_upset c l e' = false -> ev_upset (nstep c e) l e' = false.
Proof.
  intros U U'. unfold ev_upset. destruct (ev_sock e') as [n|] eqn:E'; [|reflexivity]. destruct (waits_for l n) eqn:W; [|reflexivity].
  destruct (harmless_ev c l e' n E' U' W) as [O H']. cbn [andb]. rewrite O. cbn [andb]. apply negb_false_iff.
  change (harmless (socks (nstep c e) n) e' = true). rewrite nstep_sock. destruct (ev_sock e) as [m|] eqn:E; [|exact H'].
  destruct (N.eqb_spec n m) as [->|]; [|exact H']. destruct (harmless_ev c l e m E U W) as [_ H]. now apply harmless_step.
Qed.
Lemma nsteps_likeS l : forall evs c c', likeS (obey_all l c) c' -> existsb (ev_upset c l) evs = false ->
  likeS (obey_all l (nsteps c evs)) (nsteps c' (filter (fun ev => negb (transmits ev && match ev_sock ev with Some n => waits_for l n | None => false end)) evs)).
Proof.
  induction evs as [|e evs IH]; intros c c' H U; [exact H|]. cbn [existsb] in U. apply orb_false_elim in U as [U1 U2].
  assert (U3 : existsb (ev_upset (nstep c e) l) evs = false).
  { clear -U1 U2. induction evs as [|e' evs IH]; [reflexivity|]. cbn [existsb] in *. apply orb_false_elim in U2 as [U2 U3].
    rewrite nstep_upset by assumption. now apply IH. }
  destruct H as [H1 H2]. rewrite obey_all_com in H1. cbn [filter].
  assert (K : forall c'', com (nstep c e) = com c'' -> (forall m, eqv (socks (obey_all l (nstep c e)) m) (socks c'' m)) -> likeS (obey_all l (nstep c e)) c'').
  { intros c'' A B. split; [now rewrite obey_all_com|exact B]. }
  destruct (transmits e && match ev_sock e with Some n => waits_for l n | None => false end) eqn:T; cbn [negb nsteps fold_left].
  - apply IH; [|exact U3]. apply andb_prop in T as [T1 T2]. destruct (ev_sock e) as [n|] eqn:E; [|discriminate].
    destruct (harmless_ev c l e n E U1 T2) as [O Hm].
    pose proof (sending_step n (socks c n) e Hm) as S. rewrite T1 in S. apply K.
    + unfold nstep. rewrite E. exact H1.
    + intros m. specialize (H2 m). rewrite obey_all_sock in *. rewrite nstep_sock, E. destruct (N.eqb_spec m n) as [->|]; [now rewrite S|exact H2].
  - apply IH; [|exact U3]. apply K.
    + unfold nstep. destruct (ev_sock e); [exact H1|]. destruct e; try exact H1. cbn [set_com com]. now rewrite H1.
    + intros m. specialize (H2 m). rewrite obey_all_sock in *. rewrite !nstep_sock.
      destruct (ev_sock e) as [n|] eqn:E; [|exact H2]. destruct (N.eqb_spec m n) as [->|]; [|exact H2].
      destruct (waits_for l n) eqn:W.
      * rewrite andb_true_r in T. destruct (harmless_ev c l e n E U1 W) as [O Hm]. pose proof (sending_step n (socks c n) e Hm) as S. rewrite T in S.
        rewrite (sends_obeyed n l _ O W) in H2. rewrite (sends_obeyed n l _ O W). apply (eqv_step _ _ e) in H2.
        exact (eqv_trans _ _ _ S H2).
      * rewrite (obeyed_none n l W) in H2. rewrite (obeyed_none n l W). now apply eqv_step.
Qed.
Lemma takes_likeS f l c c' : likeS (obey_all l c) c' -> likeS (obey_all (snd (obeying f l c)) (fst (obeying f l c))) c'.
Proof.
  intros [H1 H2]. split.
  - rewrite obey_all_com in *. now rewrite take_com.
  - intros m. specialize (H2 m). rewrite obey_all_sock in *. now rewrite take_sock.
Qed.
Lemma tickS e f s w : simS s w -> w_upset (slow_tick e w) = false -> f (s_tick s) = waits_for (w_wait (slow_tick e w)) ->
  simS (tick (muted f (at_once e)) s) (slow_tick e w).
Proof.
  intros (H & Ht & Hc) U F. unfold slow_tick in *. apply (takes_likeS (takes e (s_tick (w_sys w)))) in H.
  destruct (obeying (takes e (s_tick (w_sys w))) (w_wait w) (s_chip (w_sys w))) as [c l]. cbn [fst snd w_upset w_wait] in *.
  apply orb_false_elim in U as [_ U]. unfold simS, tick. cbn [w_sys w_wait s_chip s_tick s_call muted happens]. split; [|split; [now rewrite Ht|exact Hc]].
  rewrite F, Ht. now apply nsteps_likeS.
Qed.
Lemma upset_wait l blk a : read_upset l blk a = false -> blk <> 0 -> waits_for l (blk / 4) = true ->
  only_sends l (blk / 4) = true /\ (blk mod 4 =? 1) && (a =? Sn_CR) = false.
Proof.
  intros U N0 W. unfold read_upset in U. apply N.eqb_neq in N0. rewrite N0, W in U. cbn [negb andb] in U. apply negb_false_iff in U.
  apply andb_prop in U as [O U]. split; [exact O|]. now apply negb_true_iff in U.
Qed.
Lemma rbyteS s w blk a : simS s w -> read_upset (w_wait w) blk a = false -> slow_rbyte w blk a = rbyte (s_chip s) blk a.
Proof.
  intros ((H1 & H2) & _) U. rewrite obey_all_com in H1. unfold slow_rbyte, rbyte. destruct (N.eqb_spec blk 0) as [->|N0].
  - change (0 mod 4 =? 1) with false. cbn [andb]. cbn. now rewrite H1.
  - cbv zeta. specialize (H2 (blk / 4)). rewrite obey_all_sock in H2. destruct (waits_for (w_wait w) (blk / 4)) eqn:W.
    + destruct (upset_wait _ _ _ U N0 W) as [O NC]. rewrite NC. rewrite (sends_obeyed _ _ _ O W) in H2.
      pose proof (eqv_same _ _ H2) as ((R & _) & (_ & _ & Tm & Rm & _) & _). destruct (sending_mem (blk / 4) (socks (s_chip (w_sys w)) (blk / 4))) as (R' & Tm' & Rm').
      unfold tx_size, rx_size. rewrite R, Tm, Rm, R', Tm', Rm'. rewrite <- (eqv_rd _ _ a H2), sending_rd. reflexivity.
    + rewrite (obeyed_none _ _ W) in H2. pose proof (eqv_same _ _ H2) as ((R & _) & (_ & _ & Tm & Rm & _) & _).
      unfold tx_size, rx_size. rewrite R, Tm, Rm. rewrite <- (eqv_rd _ _ a H2).
      destruct (N.eqb_spec (blk mod 4) 1) as [E|E]; cbn [andb]; [|reflexivity].
      rewrite E. destruct (N.eqb_spec a Sn_CR) as [->|]; [|reflexivity]. now rewrite newest_none by exact W.
Qed.
Lemma all_only l n : all_sends l = true -> only_sends l n = true.
Proof.
  unfold all_sends, only_sends. rewrite !forallb_forall. intros H p Hp. rewrite (H p Hp). apply orb_true_r.
Qed.
(** what is done to a socket by a byte written to one of its blocks, other than a command *)
Lemma wbyteS_other n x blk a v y : blk mod 4 = 1 /\ a <> Sn_CR \/ blk mod 4 <> 1 -> eqv x y -> eqv
    match blk mod 4 with
    | 1 => sock_wr n x a v
    | 2 => if tx_size x =? 0 then x else set_txm x (upd (txm x) (a mod tx_size x) v)
    | 3 => if rx_size x =? 0 then x else set_rxm x (upd (rxm x) (a mod rx_size x) v)
    | _ => x
    end
    match blk mod 4 with
    | 1 => sock_wr n y a v
    | 2 => if tx_size y =? 0 then y else set_txm y (upd (txm y) (a mod tx_size y) v)
    | 3 => if rx_size y =? 0 then y else set_rxm y (upd (rxm y) (a mod rx_size y) v)
    | _ => y
    end.
Proof.
  intros C E. pose proof (eqv_same _ _ E) as ((R & _) & (_ & _ & Tm & Rm & _) & _). unfold tx_size, rx_size. rewrite R, Tm, Rm.
  destruct (blk mod 4) as [|[[]|[]|]]; try exact E; try (now apply eqv_wr); destruct (_ =? 0); auto with eqv.
Qed.
Lemma sending_wbyte n x blk a v : (blk mod 4 = 1 -> a <> Sn_CR /\ a <> Sn_TX_WR /\ a <> Sn_TX_WR + 1) ->
    match blk mod 4 with
    | 1 => sock_wr n (sending n x) a v
    | 2 => if tx_size (sending n x) =? 0 then sending n x else set_txm (sending n x) (upd (txm (sending n x)) (a mod tx_size (sending n x)) v)
    | 3 => if rx_size (sending n x) =? 0 then sending n x else set_rxm (sending n x) (upd (rxm (sending n x)) (a mod rx_size (sending n x)) v)
    | _ => sending n x
    end =
  sending n match blk mod 4 with
    | 1 => sock_wr n x a v
    | 2 => if tx_size x =? 0 then x else set_txm x (upd (txm x) (a mod tx_size x) v)
    | 3 => if rx_size x =? 0 then x else set_rxm x (upd (rxm x) (a mod rx_size x) v)
    | _ => x
    end.
Proof.
  intros C. destruct (sending_mem n x) as (R' & Tm' & Rm'). unfold tx_size, rx_size. rewrite R', Tm', Rm'.
  destruct (blk mod 4) as [|[[]|[]|]]; try reflexivity; try (destruct (_ =? 0); [reflexivity|]); rewrite ?sending_txm, ?sending_rxm; try reflexivity.
  destruct (C eq_refl) as (C1 & C2 & C3). now apply sending_wr.
Qed.
Lemma wbyteS s w blk a v : simS s w -> w_upset (slow_wbyte w blk a v) = false -> simS (on_chip (fun c => wbyte c blk a v) s) (slow_wbyte w blk a v).
Proof.
  intros ((H1 & H2) & Ht & Hc) U. rewrite obey_all_com in H1. unfold slow_wbyte in *. cbv zeta in *.
  destruct ((blk mod 4 =? 1) && (a =? Sn_CR)) eqn:Ecr.
  - apply andb_prop in Ecr as [E1 E2]. apply N.eqb_eq in E1, E2. subst a.
    assert (N0 : blk <> 0) by (intros ->; discriminate E1).
    split; [|split; [exact Ht|exact Hc]]. cbn [w_wait w_sys on_chip s_chip]. split.
    + rewrite obey_all_com, wbyte_com by exact N0. exact H1.
    + intros m. specialize (H2 m). rewrite obey_all_sock in *. rewrite wbyte_sock by exact N0. rewrite E1.
      unfold obeyed. rewrite fold_left_app. cbn [fold_left fst snd]. fold (obeyed m (w_wait w) (socks (s_chip (w_sys w)) m)).
      rewrite (N.eqb_sym m). destruct (N.eqb_spec (blk / 4) m) as [<-|]; [now apply eqv_cmd|exact H2].
  - destruct (is_reset blk a v) eqn:Er.
    + cbn [w_upset] in U. apply orb_false_elim in U as [_ U]. apply negb_false_iff in U.
      split; [|split; [exact Ht|exact Hc]]. cbn [w_wait w_sys on_chip s_chip]. unfold is_reset in Er.
      apply andb_prop in Er as [Er E3]. apply andb_prop in Er as [E1 E2]. unfold wbyte. rewrite E1, E2, E3. split; [reflexivity|].
      intros m. specialize (H2 m). cbn [obey_all fold_left chip_reset socks]. rewrite obey_all_sock in H2. rewrite <- (eqv_reset _ _ H2).
      destruct (waits_for (w_wait w) m) eqn:W; [rewrite (sends_obeyed _ _ _ (all_only _ m U) W), sending_reset|rewrite (obeyed_none _ _ W)]; apply eqv_refl.
    + cbn [w_upset] in U. apply orb_false_elim in U as [_ U]. split; [|split; [exact Ht|exact Hc]]. cbn [w_wait w_sys on_chip s_chip].
      destruct (N.eq_dec blk 0) as [->|N0].
      * unfold wbyte. cbn [N.eqb]. unfold is_reset in Er. cbn [N.eqb andb] in Er. split.
        -- rewrite obey_all_com. destruct (a =? MR); [destruct (N.testbit (b2n v) 7); [discriminate|]|destruct (a =? VERSIONR)]; cbn [set_com com]; now rewrite ?H1.
        -- intros m. specialize (H2 m). rewrite obey_all_sock in *.
           destruct (a =? MR); [destruct (N.testbit (b2n v) 7); [discriminate|]|destruct (a =? VERSIONR)]; exact H2.
      * split.
        -- rewrite obey_all_com, !wbyte_com by exact N0. exact H1.
        -- intros m. specialize (H2 m). rewrite obey_all_sock in *. rewrite !wbyte_sock by exact N0.
           destruct (N.eqb_spec m (blk / 4)) as [->|]; [|exact H2].
           assert (NC : blk mod 4 = 1 /\ a <> Sn_CR \/ blk mod 4 <> 1).
           { destruct (N.eqb_spec (blk mod 4) 1) as [E|E]; [left; split; [exact E|]|right; exact E]. cbn [andb] in Ecr. now apply N.eqb_neq. }
           destruct (waits_for (w_wait w) (blk / 4)) eqn:W.
           ++ unfold write_upset in U. apply N.eqb_neq in N0. rewrite N0, W in U. cbn [negb andb] in U. apply negb_false_iff in U.
              apply andb_prop in U as [O U]. apply negb_true_iff in U. rewrite (sends_obeyed _ _ _ O W) in H2. rewrite (sends_obeyed _ _ _ O W).
              rewrite <- sending_wbyte; [now apply wbyteS_other|]. intros E. destruct NC as [[_ NC]|NC]; [|contradiction].
              rewrite E in U. cbn [N.eqb Pos.eqb andb] in U. apply orb_false_elim in U as [U1 U2]. split; [exact NC|]. split; now apply N.eqb_neq.
           ++ rewrite (obeyed_none _ _ W) in H2. rewrite (obeyed_none _ _ W). now apply wbyteS_other.
Qed.

(** ** Bytes, bus calls, programs *)
Definition splice (n : nat) (f g : nat -> N -> bool) : nat -> N -> bool := fun t => if Nat.ltb t n then f t else g t.
Lemma splice_before n f g e t : (t < n)%nat -> happens (muted (splice n f g) e) t = happens (muted f e) t.
Proof. intros H. cbn [muted happens]. unfold splice. apply Nat.ltb_lt in H. now rewrite H. Qed.
Lemma splice_after n f g e t : (n <= t)%nat -> happens (muted (splice n f g) e) t = happens (muted g e) t.
Proof. intros H. cbn [muted happens]. unfold splice. apply Nat.ltb_ge in H. now rewrite H. Qed.
Lemma tick_agree e1 e2 s : happens e1 (s_tick s) = happens e2 (s_tick s) -> tick e1 s = tick e2 s.
Proof. intros H. unfold tick. now rewrite H. Qed.
Lemma read_agree e1 e2 blk : forall n a s, (forall t, (s_tick s <= t < s_tick s + n)%nat -> happens e1 t = happens e2 t) ->
  read_bytes e1 blk a n s = read_bytes e2 blk a n s.
Proof.
  induction n as [|n IH]; intros a s H; cbn [read_bytes]; [reflexivity|]. rewrite (tick_agree e1 e2) by (apply H; lia).
  rewrite IH; [reflexivity|]. intros t Ht. cbn [tick s_tick] in Ht. apply H. lia.
Qed.
Lemma write_agree e1 e2 blk : forall d a s, (forall t, (s_tick s <= t < s_tick s + length d)%nat -> happens e1 t = happens e2 t) ->
  write_bytes e1 blk a d s = write_bytes e2 blk a d s.
Proof.
  induction d as [|b d IH]; intros a s H; cbn [write_bytes]; [reflexivity|]. cbn [length] in H. rewrite (tick_agree e1 e2) by (apply H; lia).
  apply IH. intros t Ht. cbn [on_chip tick s_tick] in Ht. apply H. lia.
Qed.
Lemma read_tick e blk : forall n a s, s_tick (snd (read_bytes e blk a n s)) = (s_tick s + n)%nat.
Proof.
  induction n as [|n IH]; intros a s; cbn [read_bytes]; [cbn; lia|]. specialize (IH (next_addr a) (tick e s)).
  destruct read_bytes as [l s2]. cbn [snd] in *. rewrite IH. cbn [tick s_tick]. lia.
Qed.
Lemma write_tick e blk : forall d a s, s_tick (write_bytes e blk a d s) = (s_tick s + length d)%nat.
Proof. induction d as [|b d IH]; intros a s; cbn [write_bytes length]; [lia|]. rewrite IH. cbn [on_chip tick s_tick]. lia. Qed.
Lemma run_agree e1 e2 : (forall j, fails e1 j = fails e2 j) -> forall A (p : prog A) s,
  (forall t, (s_tick s <= t)%nat -> happens e1 t = happens e2 t) -> run e1 p s = run e2 p s.
Proof.
  intros F A p. induction p as [x|x| |b a d k IH|b a d k IH]; intros s H; cbn [run]; try reflexivity.
  - unfold bus_read. rewrite F. destruct (fails e2 (s_call s)) as [[q err]|].
    + rewrite (read_agree e1 e2) by (intros t Ht; apply H; lia). pose proof (read_tick e2 b (Nat.min q (length d)) a s) as T.
      destruct read_bytes as [g s2]. cbn [snd] in T. apply IH. intros t Ht. cbn [end_call s_tick] in Ht. apply H. lia.
    + rewrite (read_agree e1 e2) by (intros t Ht; apply H; lia). pose proof (read_tick e2 b (length d) a s) as T.
      destruct read_bytes as [g s2]. cbn [snd] in T. apply IH. intros t Ht. cbn [end_call s_tick] in Ht. apply H. lia.
  - unfold bus_write. rewrite F. destruct (fails e2 (s_call s)) as [[q err]|];
      rewrite (write_agree e1 e2) by (intros t Ht; apply H; lia); apply IH; intros t Ht; cbn [end_call s_tick] in Ht; rewrite write_tick in Ht; apply H; lia.
Qed.

Lemma tick_upset e w : w_upset (slow_tick e w) = false -> w_upset w = false.
Proof. unfold slow_tick. destruct obeying. cbn [w_upset]. intros H. now apply orb_false_elim in H. Qed.
Lemma wbyte_upset w blk a v : w_upset (slow_wbyte w blk a v) = false -> w_upset w = false.
Proof.
  unfold slow_wbyte. destruct (_ && _); [cbn [w_upset]; intros H; now apply orb_false_elim in H|]. destruct is_reset; cbn [w_upset]; intros H; now apply orb_false_elim in H.
Qed.
Lemma read_calm e blk : forall n a w, w_upset (snd (slow_read_bytes e blk a n w)) = false -> w_upset w = false.
Proof.
  induction n as [|n IH]; intros a w; cbn [slow_read_bytes]; [exact (fun H => H)|].
  specialize (IH (next_addr a) (touch (slow_tick e w) blk a)). destruct slow_read_bytes as [l w2]. cbn [snd] in *.
  intros H. specialize (IH H). unfold touch in IH. cbn [w_upset] in IH. apply orb_false_elim in IH as [IH _]. exact (tick_upset e w IH).
Qed.
Lemma write_calm e blk : forall d a w, w_upset (slow_write_bytes e blk a d w) = false -> w_upset w = false.
Proof.
  induction d as [|b d IH]; intros a w; cbn [slow_write_bytes]; [exact (fun H => H)|]. intros H. exact (tick_upset e w (wbyte_upset _ _ _ _ (IH _ _ H))).
Qed.
Lemma readS e blk : forall n a s w, simS s w -> w_upset (snd (slow_read_bytes e blk a n w)) = false -> exists f,
  fst (slow_read_bytes e blk a n w) = fst (read_bytes (muted f (at_once e)) blk a n s) /\
  simS (snd (read_bytes (muted f (at_once e)) blk a n s)) (snd (slow_read_bytes e blk a n w)).
Proof.
  induction n as [|n IH]; intros a s w H U; cbn [slow_read_bytes read_bytes] in *; [exists (fun _ _ => false); split; [reflexivity|exact H]|].
  set (f0 := fun _ : nat => waits_for (w_wait (slow_tick e w))).
  specialize (IH (next_addr a) (tick (muted f0 (at_once e)) s) (touch (slow_tick e w) blk a)).
  pose proof (read_calm e blk n (next_addr a) (touch (slow_tick e w) blk a)) as U1.
  destruct (slow_read_bytes e blk (next_addr a) n (touch (slow_tick e w) blk a)) as [l w2]. cbn [fst snd] in *. specialize (U1 U).
  unfold touch in U1. cbn [w_upset] in U1. apply orb_false_elim in U1 as [U1 V].
  pose proof (tickS e f0 s w H U1 eq_refl) as T. destruct (IH T U) as (f2 & E2 & S2).
  exists (splice (S (s_tick s)) f0 f2).
  rewrite (tick_agree _ (muted f0 (at_once e))) by (apply splice_before; lia).
  rewrite (read_agree _ (muted f2 (at_once e))) by (intros t Ht; cbn [tick s_tick] in Ht; apply splice_after; lia).
  destruct (read_bytes (muted f2 (at_once e)) blk (next_addr a) n (tick (muted f0 (at_once e)) s)) as [l' s2]. cbn [fst snd] in *.
  split; [|exact S2]. rewrite E2. f_equal. exact (rbyteS _ _ blk a T V).
Qed.
Lemma writeS e blk : forall d a s w, simS s w -> w_upset (slow_write_bytes e blk a d w) = false -> exists f,
  simS (write_bytes (muted f (at_once e)) blk a d s) (slow_write_bytes e blk a d w).
Proof.
  induction d as [|b d IH]; intros a s w H U; cbn [slow_write_bytes write_bytes] in *; [exists (fun _ _ => false); exact H|].
  set (f0 := fun _ : nat => waits_for (w_wait (slow_tick e w))).
  pose proof (write_calm _ _ _ _ _ U) as U1. pose proof (tickS e f0 s w H (wbyte_upset _ _ _ _ U1) eq_refl) as T.
  destruct (IH (next_addr a) _ _ (wbyteS _ _ blk a b T U1) U) as (f2 & S2).
  exists (splice (S (s_tick s)) f0 f2).
  rewrite (tick_agree _ (muted f0 (at_once e))) by (apply splice_before; lia).
  rewrite (write_agree _ (muted f2 (at_once e))) by (intros t Ht; cbn [on_chip tick s_tick] in Ht; apply splice_after; lia). exact S2.
Qed.
Lemma end_simS s w : simS s w -> simS (end_call s) (slow_end w).
Proof. intros (H & Ht & Hc). split; [exact H|]. split; [exact Ht|]. cbn. now rewrite Hc. Qed.
Lemma slow_run_upset {A} e (p : prog A) : forall w o w', slow_run e p w = (o, w') -> w_upset w' = false -> w_upset w = false.
Proof.
  induction p as [x|x| |b a d k IH|b a d k IH]; cbn [slow_run]; intros w o w' R L; try (injection R as _ <-; exact L).
  - destruct (slow_bus_read e b a d w) as [r w1] eqn:B. specialize (IH _ _ _ _ R L). unfold slow_bus_read in B.
    destruct (fails _ _) as [[q err]|].
    + pose proof (read_calm e b (Nat.min q (length d)) a w) as RL. destruct slow_read_bytes. injection B as _ <-. exact (RL IH).
    + pose proof (read_calm e b (length d) a w) as RL. destruct slow_read_bytes. injection B as _ <-. exact (RL IH).
  - destruct (slow_bus_write e b a d w) as [r w1] eqn:B. specialize (IH _ _ _ _ R L). unfold slow_bus_write in B.
    destruct (fails _ _) as [[q err]|]; injection B as _ <-; exact (write_calm _ _ _ _ _ IH).
Qed.
Theorem late_sends {A} e (p : prog A) : forall s w o w', simS s w -> slow_run e p w = (o, w') -> w_upset w' = false ->
  exists f s', run (muted f (at_once e)) p s = (o, s') /\ simS s' w'.
Proof.
  induction p as [x|x| |b a d k IH|b a d k IH]; cbn [slow_run run]; intros s w o w' S R U;
    try (injection R as <- <-; exists (fun _ _ => false), s; split; [reflexivity|exact S]).
  - destruct (slow_bus_read e b a d w) as [r w1] eqn:B. pose proof (slow_run_upset _ _ _ _ _ R U) as U1. unfold slow_bus_read in B.
    assert (G : forall n (h : list byte -> list byte * res unit berr),
      (let (got, v) := slow_read_bytes e b a n w in (h got, slow_end v)) = (r, w1) ->
      exists f s', (let (r', s1) := (let (got, v) := read_bytes (muted f (at_once e)) b a n s in (h got, end_call v)) in run (muted f (at_once e)) (k r') s1) = (o, s') /\ simS s' w').
    { intros n h E. pose proof (readS e b n a s w S) as RS.
      destruct (slow_read_bytes e b a n w) as [g w2]. injection E as <- <-. cbn [snd fst slow_end w_upset] in *. destruct (RS U1) as (f1 & E1 & S1).
      pose proof (read_tick (muted f1 (at_once e)) b n a s) as T.
      destruct (IH _ _ _ _ _ (end_simS _ _ S1) R U) as (f2 & s' & R2 & S2).
      exists (splice (s_tick s + n) f1 f2), s'. rewrite (read_agree _ (muted f1 (at_once e))) by (intros t Ht; apply splice_before; lia).
      destruct (read_bytes (muted f1 (at_once e)) b a n s) as [g' s2]. cbn [fst snd] in *. subst g'. split; [|exact S2].
      rewrite <- R2. apply run_agree; [reflexivity|]. intros t Ht. cbn [end_call s_tick] in Ht. apply splice_after. lia. }
    unfold bus_read. destruct S as (S1 & S2 & S3). rewrite S3. cbn [muted fails]. destruct (fails (at_once e) _) as [[q err]|].
    + exact (G (Nat.min q (length d)) (fun got => (got ++ skipn q d, Err err)) B).
    + exact (G (length d) (fun got => (got, Ok tt)) B).
  - destruct (slow_bus_write e b a d w) as [r w1] eqn:B. pose proof (slow_run_upset _ _ _ _ _ R U) as U1. unfold slow_bus_write in B.
    assert (G : forall d' (r' : res unit berr), (r', slow_end (slow_write_bytes e b a d' w)) = (r, w1) ->
      exists f s', run (muted f (at_once e)) (k r') (end_call (write_bytes (muted f (at_once e)) b a d' s)) = (o, s') /\ simS s' w').
    { intros d' r' E. injection E as <- <-. cbn [slow_end w_upset] in U1. destruct (writeS e b d' a s w S U1) as (f1 & S1).
      pose proof (write_tick (muted f1 (at_once e)) b d' a s) as T.
      destruct (IH _ _ _ _ _ (end_simS _ _ S1) R U) as (f2 & s' & R2 & S2).
      exists (splice (s_tick s + length d') f1 f2), s'. rewrite (write_agree _ (muted f1 (at_once e))) by (intros t Ht; apply splice_before; lia).
      split; [|exact S2]. rewrite <- R2. apply run_agree; [reflexivity|]. intros t Ht. cbn [end_call s_tick] in Ht. apply splice_after. lia. }
    unfold bus_write. destruct S as (S1 & S2 & S3). rewrite S3. cbn [muted fails]. destruct (fails (at_once e) _) as [[q err]|].
    + exact (G (firstn q d) (Err err) B).
    + exact (G d (Ok tt) B).
Qed.
