(** C63 over whole lives: the calls that do not wait for the network end. *)
From Verif Require Import LifeFacts Life LifeWire Liveness Datasheet Ends Cases.

(** every call but those that hand something to the network: TCP connect, TCP send, the UDP sends
    and [RawDevice::write_frame] *)
Definition listens (q : lop) : Prop :=
  match q with
  | LCall (OpTcpConnect _ _) | LCall (OpTcpSend _ _) | LCall (OpUdpSend _ _) | LCall (OpUdpSendTo _ _ _) | LRawCall (RwWrite _) => False
  | _ => True
  end.
Lemma raw_listens_ends e fuel o s : sane (s_chip s) -> (forall d, o <> RwWrite d) -> (N.to_nat 16384 < fuel)%nat ->
  fst (run e (raw_step fuel raw0 o) s) <> Looping.
Proof.
  intros Sa No Hz. assert (H0 : 0 < 8) by reflexivity. destruct (Sa 0 H0) as (B & Z & _). fold (sk 0 s) in B, Z.
  apply (ends_anyway raw_berr); [apply es_raw_step|]. destruct o; cbn [raw_step]; (apply wp_ended_bind; [|intros; exact Logic.I]).
  1,2,3: apply spinless_wp; unfold raw_enable_interrupts, raw_clear_interrupts, raw_disable_interrupts; spinless.
  - apply raw_read_ends; [apply nofail_no_faults|exact H0|split; [exact B|lia]|lia].
  - now elim (No frame).
Qed.
Lemma listens_ends e chk fuel l q s : listens q -> (N.to_nat 16384 < fuel)%nat -> wired l -> armed l (s_chip s) ->
  fst (run e (lstep chk fuel l q) s) <> Looping.
Proof.
  intros Li Hz [G RO] (S & Rw).
  assert (Sp : spinless (lstep chk fuel l q) -> fst (run e (lstep chk fuel l q) s) <> Looping) by exact (spinless_wp e _ s).
  assert (Bd : forall A (p : prog A) (f : A -> prog (life * lout)), fst (run e p s) <> Looping -> (forall a, spinless (f a)) -> fst (run e (bind p f) s) <> Looping).
  { intros A p f Hp Hs. apply (wp_ended_bind e p f s Hp Hs). }
  assert (St : forall d o, listens (LCall o) -> sane (s_chip s) -> fst (run e (step fuel (mkApp d (lhandles l) (lfresh l)) o) s) <> Looping).
  { intros d o Lo Sa. apply step_ends_k; auto; [intros h x; apply good_lookup, G|destruct o; auto|]. intros i Hi. destruct (Sa i Hi) as (B & Z & _). auto. }
  unfold lstep in *. destruct q as [u|k m|mc|o|o| | | |k|k], (ph l) as [|d|k'|rd|] eqn:P; try (cbn [run fst]; discriminate);
    try solve [destruct (nth_error (asleep l) k); cbn [run fst]; discriminate].
  - apply Sp. destruct u; cbn; first [intros [got [?|?]]; exact Logic.I|intros [?|?]; exact Logic.I].
  - destruct (System.run_returns e (run_setup chk k m) ltac:(destruct k; apply System.returns_init) s) as (a & s' & R). apply Bd; [rewrite R; discriminate|]. intros [x|x]; exact Logic.I.
  - destruct (System.run_returns e (initialize_macraw mc) (System.returns_macraw mc) s) as (a & s' & R). apply Bd; [rewrite R; discriminate|]. intros [x|x]; exact Logic.I.
  - destruct S as [S|(_ & [S|S])]; try discriminate. apply Bd; [|intros; exact Logic.I]. now apply St.
  - destruct S as [S|(_ & [S|S])]; try discriminate. destruct (nth_error (asleep l) k'); [|cbn [run fst]; discriminate]. apply Bd; [|intros; exact Logic.I]. now apply St.
  - destruct S as [S|(_ & [S|S])]; try discriminate. destruct rd as [so]. cbn [raw_socket] in RO. subst so.
    apply Bd; [|intros; exact Logic.I]. apply (raw_listens_ends e fuel o s S); [|exact Hz]. intros d ->. exact Li.
  - apply Sp. unfold dev_reset. destruct (any_allocated d); cbn; [exact Logic.I|]. intros [?|?]; exact Logic.I.
  - destruct (nth_error (asleep l) k') as [d|]; [|cbn [run fst]; discriminate]. apply Sp. unfold dev_reset. destruct (any_allocated d); cbn; [exact Logic.I|]. intros [?|?]; exact Logic.I.
Qed.
Lemma lstep_wired e chk fuel l q s r s' : wired l -> run e (lstep chk fuel l q) s = (Done r, s') -> wired (fst r).
Proof.
  intros Wl R. destruct (run_exec e (lstep chk fuel l q) s _ _ R) as (tr & X). exact (proj2 (ptree_exec _ _ _ _ _ _ (pt_lstep chk fuel l q Wl) X)).
Qed.
Lemma life_armed e chk fuel : forall ops l s l' outs s', wired l -> armed l (s_chip s) -> run e (run_life chk fuel l ops) s = (Done (l', outs), s') ->
  wired l' /\ armed l' (s_chip s').
Proof.
  induction ops as [|q ops IH]; intros l s l' outs s' Wl A R; cbn [run_life] in R; [cbn [run] in R; injection R as <- _ <-; auto|].
  apply run_bind_done in R as (r & s1 & R1 & R). apply run_bind_done in R as ([l2 rs] & s2 & R2 & R). cbn [run fst] in R. injection R as <- _ <-.
  exact (IH _ _ _ _ _ (lstep_wired _ _ _ _ _ _ _ _ Wl R1) (lstep_armed e chk fuel l q s _ s1 Wl A R1) R2).
Qed.
Lemma listening_ends e chk fuel : (N.to_nat 16384 < fuel)%nat -> forall ops l s, Forall listens ops -> wired l -> armed l (s_chip s) ->
  fst (run e (run_life chk fuel l ops) s) <> Looping.
Proof.
  intros Hz. induction ops as [|q ops IH]; intros l s F Wl A; cbn [run_life]; [discriminate|]. inversion F as [|? ? F1 F2]; subst.
  pose proof (listens_ends e chk fuel l q s F1 Hz Wl A) as E. rewrite run_bind.
  destruct (run e (lstep chk fuel l q) s) as [[r| | |] s1] eqn:R; cbn [fst snd] in *; try discriminate; [|now elim E].
  specialize (IH (fst r) s1 F2 (lstep_wired _ _ _ _ _ _ _ _ Wl R) (lstep_armed e chk fuel l q s _ s1 Wl A R)).
  rewrite run_bind. destruct (run e (run_life chk fuel (fst r) ops) s1) as [[| | |] s2]; cbn [fst snd run] in *; try discriminate. now elim IH.
Qed.

(** ** C63, whole lives.  Whatever state the chip was found in, whatever the program did so far and
    however long its calls polled, whatever the network and the bus do: from now on every call
    that hands nothing to the network ends, and a program of such calls ends (or aborts: C23). *)
Theorem C63_whole_life e chk fuel0 ops0 s00 l outs s fuel ops :
  run e (run_life chk fuel0 life_new ops0) s00 = (Done (l, outs), s) -> Forall listens ops -> (N.to_nat 16384 < fuel)%nat ->
  exists s', (exists r, run e (run_life chk fuel l ops) s = (Done r, s')) \/ (exists w, run e (run_life chk fuel l ops) s = (Panicked w, s')).
Proof.
  intros R0 F Hz. destruct (life_armed e chk fuel0 ops0 life_new s00 l outs s wired_new (armed_new _) R0) as [Wl A].
  pose proof (listening_ends e chk fuel Hz ops l s F Wl A) as E. pose proof (run_never_cut e (run_life chk fuel l ops) s) as C.
  destruct (run e (run_life chk fuel l ops) s) as [[r|w| |] s'] eqn:R; cbn [fst] in *; exists s'; [eauto..|now elim E|now elim C].
Qed.
Print Assumptions C63_whole_life.

(** after a TCP send that still waits in the chip, on a network that never answers anything:
    reading, closing, a new device, raw frames; and the one call that would wait does *)
Definition answers_once : env := script [(26%nat, [EvEstablished 0])].
Definition before_silence : list lop :=
  [LInit (IDhcp (Mac x02 x00 x00 x00 x00 x01)) mode_default; LCall OpTcpSocket; LCall (OpTcpConnect 0 (V4 (Addr4 (Ip4 x0a x00 x00 x02) 80)))].
Definition in_silence : list lop :=
  [LCall (OpTcpReceive 0 [x00]); LCall (OpTcpClose 0); LCall OpUdpSocket; LCall (OpUdpBind 1 53); LCall (OpUdpReceive 1 [x00]); LSleep; LNew;
   LInitRaw (Mac x02 x00 x00 x00 x00 x01); LRawCall (RwRead [x00; x00])].
Example C63_life_case : exists l outs s outs' r s' s'',
  run answers_once (run_life true 20 life_new before_silence) sys0 = (Done (l, outs), s) /\
  outs = [LInited (Ok tt); LOut (RTcpSocket (Ok 0%nat)); LOut (RTcpConnect (Ok tt))] /\
  Forall listens in_silence /\
  run answers_once (run_life true (N.to_nat 16385) l in_silence) s = (Done (r, outs'), s') /\
  run answers_once (lstep true (N.to_nat 16385) l (LCall (OpTcpConnect 0 (V4 (Addr4 (Ip4 x0a x00 x00 x02) 80))))) s = (Looping, s'').
Proof.
  eexists _, _, _, _, _, _, _. split; [apply run_snd; vm_compute; reflexivity|]. split; [reflexivity|]. split; [repeat constructor|].
  split; apply run_snd; vm_compute; reflexivity.
Qed.
