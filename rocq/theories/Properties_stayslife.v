(** C102 for devices that are put away and activated again. *)
From Verif Require Import LifeFacts Stays Origin Life HistoryFacts PipeCalls SizeFacts AccessFacts Datasheet Cases.

(** the program has one device: it calls it, puts it away, activates it by value or by reference *)
Definition one_device (q : lop) : Prop := match q with LCall _ | LSleep | LWake _ | LWakeRef _ => True | _ => False end.
Lemma one_allowed q : one_device q -> allowed true q.
Proof. destruct q; cbn; auto; contradiction. Qed.
Lemma lstep_life_inv e chk fuel l q s r s' : life_inv true l -> one_device q -> run e (lstep chk fuel l q) s = (Done r, s') -> life_inv true (fst r).
Proof. intros I O R. destruct (run_exec e _ s _ _ R) as (tr & X). exact (lstep_inv true chk fuel l q tr r I (one_allowed q O) X). Qed.
(** what one step can do: a call of a device whose pool is in order, or nothing on the bus *)
Lemma lstep_one chk fuel l q : life_inv true l -> one_device q ->
  (exists d o f, q = LCall o /\ pool_inv (mkApp d (lhandles l) (lfresh l)) /\ lstep chk fuel l q = bind (step fuel (mkApp d (lhandles l) (lfresh l)) o) (fun r => Ret (f r)) /\
     forall r, lhandles (fst (f r)) = handles (fst r)) \/
  (exists r, lstep chk fuel l q = Ret r /\ lhandles (fst r) = lhandles l).
Proof.
  intros J O. pose proof J as I. unfold life_inv in I. unfold lstep. destruct q as [u|k m|mc|o|o| | | |k|k]; try contradiction.
  - destruct (ph l) as [|d|k|rd|] eqn:P; try (right; eexists; split; reflexivity).
    + left. destruct I as [_ I]. exists d, o, (fun r => (mkLife (Up (dev (fst r))) (handles (fst r)) (fresh (fst r)) (asleep l), LOut (snd r))). auto.
    + destruct (nth_error (asleep l) k) as [d|] eqn:E; [|right; eexists; split; reflexivity].
      destruct (life_asleep true l k d J E) as (_ & _ & Ip). left.
      exists d, o, (fun r => (mkLife (UpRef k) (handles (fst r)) (fresh (fst r)) (set_nth k (dev (fst r)) (asleep l)), LOut (snd r))). auto.
  - right. destruct (ph l); eexists; split; reflexivity.
  - right. destruct (ph l), (nth_error (asleep l) k); eexists; split; reflexivity.
  - right. destruct (ph l), (nth_error (asleep l) k); eexists; split; reflexivity.
Qed.
Lemma rxw_step e fuel a o s i : i < 8 -> pool_inv a -> rxw (sk i s) -> rxw (sk i (snd (run e (step fuel a o) s))).
Proof.
  intros Hi Ha T. apply (run_mild (size_safe i) e i rxw); auto.
  - intros x ev. apply rxw_ev.
  - intros c blk ad v. now apply rxw_wr.
  - eapply mild_sizes; [exact Hi|]. apply at_step; [exact Ha|]. intros _ b' a' d' H'. exact H'.
Qed.
Lemma bind_snd {A B} e (p : prog A) (f : A -> B) s : snd (run e (bind p (fun r => Ret (f r))) s) = snd (run e p s).
Proof. rewrite run_bind. destruct (run e p s) as [[x| | |] s1]; reflexivity. Qed.
Lemma rxw_life e chk fuel i : i < 8 -> forall ops l s l' outs s', life_inv true l -> Forall one_device ops -> rxw (sk i s) ->
  run e (run_life chk fuel l ops) s = (Done (l', outs), s') -> life_inv true l' /\ rxw (sk i s').
Proof.
  intros Hi. induction ops as [|q ops IH]; intros l s l' outs s' J F W R; cbn [run_life] in R; [cbn [run] in R; injection R as <- _ <-; auto|].
  inversion F as [|? ? F1 F2]; subst. apply run_bind_done in R as (r & s1 & R1 & R). apply run_bind_done in R as ([l2 rs] & s2 & R2 & R). cbn [run fst] in R. injection R as <- _ <-.
  apply (IH _ s1 _ rs _ (lstep_life_inv e chk fuel l q s r s1 J F1 R1) F2); [|exact R2].
  destruct (lstep_one chk fuel l q J F1) as [(d & o & f & _ & P & E & _)|(r' & E & _)]; rewrite E in R1.
  - pose proof (rxw_step e fuel _ o s i Hi P W) as H. pose proof (bind_snd e (step fuel (mkApp d (lhandles l) (lfresh l)) o) f s) as B. rewrite R1 in B. cbn [snd] in B. now rewrite B.
  - cbn [run] in R1. injection R1 as _ <-. exact W.
Qed.
Definition lkeeps (h : nat) (q : lop) : Prop := match q with LCall o => keeps h o | _ => True end.
Lemma life_keeps e chk fuel h i p : i < 8 -> forall ops l y s oc s', life_inv true l -> Forall one_device ops -> Forall (lkeeps h) ops ->
  lookup h (lhandles l) = Some y -> handle_socket y = socket_new i -> run e (run_life chk fuel l ops) s = (oc, s') -> queued p (sk i s) -> queued p (sk i s').
Proof.
  intros Hi. induction ops as [|q ops IH]; intros l y s oc s' J F K L Ey R Q; cbn [run_life] in R; [now injection R as _ <-|].
  inversion F as [|? ? F1 F2]; inversion K as [|? ? K1 K2]; subst. rewrite run_bind in R.
  assert (N : queued p (sk i (snd (run e (lstep chk fuel l q) s))) /\
    forall r s1, run e (lstep chk fuel l q) s = (Done r, s1) -> exists y', lookup h (lhandles (fst r)) = Some y' /\ handle_socket y' = socket_new i).
  { destruct (lstep_one chk fuel l q J F1) as [(d & o & f & -> & P & E & Hf)|(r' & E & Hh)]; rewrite E.
    - split.
      + rewrite bind_snd. exact (run_mild (rx_safe i) e i (queued p) (queued_ev p i) (fun c blk ad v => queued_wr p i c blk ad v Hi) _ (safe_step fuel (mkApp d (lhandles l) (lfresh l)) o h y i Hi P L Ey K1) s Q).
      + intros r s1 R1. apply run_bind_done in R1 as ([a1 o1] & s2 & R1 & R2). cbn [run] in R2. injection R2 as <- _. rewrite Hf.
        exact (keeps_lookup e fuel (mkApp d (lhandles l) (lfresh l)) o s a1 o1 s2 h y i L Ey P K1 R1).
    - cbn [run snd]. split; [exact Q|]. intros r s1 X. injection X as <- _. rewrite Hh. eauto. }
  destruct N as [Q1 N]. destruct (run e (lstep chk fuel l q) s) as [[r|w| |] s1] eqn:R1; cbn [fst snd cast] in *; try (injection R as _ <-; exact Q1).
  destruct (N r s1 eq_refl) as (y' & L' & Ey'). rewrite run_bind in R. destruct (run e (run_life chk fuel (fst r) ops) s1) as [x s2] eqn:R2. cbn [fst snd] in R.
  assert (s' = s2) as -> by (destruct x; cbn [cast run] in R; congruence).
  exact (IH _ _ _ _ _ (lstep_life_inv e chk fuel l q s r s1 J F1 R1) F2 K2 L' Ey' R2 Q1).
Qed.

(** ** C102, devices put away.  What has arrived also waits while the device is put away, is
    activated again by value or by reference, and is used: only a receive, connect, bind or close
    of the socket, giving it up, such a command to it, or reset_device takes it away. *)
Theorem C102_put_away :
  forall e chk k m s00 d s0 fuel ops0 l outs0 s h y ops oc s',
    run e (run_setup chk k m) s00 = (Done (Ok d), s0) ->
    Forall (fun q => match q with LCall _ | LSleep | LWake _ | LWakeRef _ => True | _ => False end) ops0 ->
    run e (run_life chk fuel (mkLife (Up d) [] 0 []) ops0) s0 = (Done (l, outs0), s) ->
    lookup h (lhandles l) = Some y ->
    Forall (fun q => match q with
      | LCall (OpReleaseSocket h') | LCall (OpForget h') | LCall (OpTcpConnect h' _) | LCall (OpTcpReceive h' _) | LCall (OpTcpClose h')
      | LCall (OpUdpConnect h' _) | LCall (OpUdpBind h' _) | LCall (OpUdpReceive h' _) | LCall (OpUdpClose h') => h' <> h
      | LCall (OpSocket h' (KCommand c)) => h' <> h \/ In c [CmListen; CmSend]
      | LCall (OpDevice QResetDevice) => False
      | LCall _ | LSleep | LWake _ | LWakeRef _ => True
      | _ => False
      end) ops ->
    run e (run_life chk fuel l ops) s = (oc, s') ->
    let x := socks (s_chip s) (index (handle_socket y)) in let x' := socks (s_chip s') (index (handle_socket y)) in
    exists more, NetFacts.pending x' = NetFacts.pending x ++ more.
Proof.
  intros e chk k m s00 d s0 fuel ops0 l outs0 s h y ops oc s' R0 F0 R1 L F R2 x x'.
  assert (P0 : life_inv true (mkLife (Up d) [] 0 [])) by (split; [reflexivity|exact (proj1 (setup_rxw e chk k m s00 d s0 0 R0))]).
  destruct (rxw_life e chk fuel 0 eq_refl ops0 _ _ _ _ _ P0 F0 (proj2 (setup_rxw e chk k m s00 d s0 0 R0)) R1) as [J _].
  destruct (life_pool true l J) as (d' & P). destruct (pi_lookup _ _ _ P L) as (i & Hi & Ey & _). unfold x, x'. rewrite Ey. change (index (socket_new i)) with i.
  destruct (rxw_life e chk fuel i Hi ops0 _ _ _ _ _ P0 F0 (proj2 (setup_rxw e chk k m s00 d s0 i R0)) R1) as [_ W].
  assert (F1 : Forall one_device ops) by (refine (Forall_impl _ _ F); intros [] H; cbn; auto).
  assert (F2 : Forall (lkeeps h) ops) by (refine (Forall_impl _ _ F); intros [| | |o| | | | | |] H; cbn [lkeeps]; auto; destruct o; exact H).
  exact (proj2 (life_keeps e chk fuel h i _ Hi ops l y s oc s' J F1 F2 L Ey R2 (conj W (grows_self _)))).
Qed.
Print Assumptions C102_put_away.
(** a datagram waits while the device is put away, used by reference, put away and activated *)
Definition away_net : env := script [(30%nat, [EvDatagram 0 [x0a; x00; x00; x07] 53 [x41; x42; x43]])].
Definition away_setup : setup := IManual (Mac x02 x00 x00 x00 x00 x01) (Ip4 x0a x00 x00 x02).
Definition away_device : DeviceState := match fst (run away_net (run_setup true away_setup mode_default) sys0) with Done (Ok d) => d | _ => dev (app_new Dhcp) end.
Definition arriving : list lop := [LCall OpUdpSocket; LCall (OpUdpBind 0 5000); LCall (OpDevice QVersion)].
Definition away : list lop := [LSleep; LWakeRef 0; LCall OpUdpSocket; LCall (OpUdpBind 1 53); LSleep; LWake 0; LCall (OpDevice QIp)].
Example C102_put_away_case : exists s0 l outs s l' outs' s',
  run away_net (run_setup true away_setup mode_default) sys0 = (Done (Ok away_device), s0) /\
  run away_net (run_life true 30 (mkLife (Up away_device) [] 0 []) arriving) s0 = (Done (l, outs), s) /\
  NetFacts.pending (socks (s_chip s) 0) = [x0a; x00; x00; x07; x00; x35; x00; x03; x41; x42; x43] /\
  run away_net (run_life true 30 l away) s = (Done (l', outs'), s') /\
  outs' = [LMade; LMade; LOut (RUdpSocket (Ok 1%nat)); LOut (RUdpUnit (Ok tt)); LMade; LMade; LOut (RDevice (DIp (Ok (Ip4 x0a x00 x00 x02))))] /\
  NetFacts.pending (socks (s_chip s') 0) = [x0a; x00; x00; x07; x00; x35; x00; x03; x41; x42; x43].
Proof.
  do 7 eexists. split; [apply run_snd; vm_compute; reflexivity|]. split; [apply run_snd; vm_compute; reflexivity|]. split; [vm_compute; reflexivity|].
  split; [apply run_snd; vm_compute; reflexivity|]. split; [reflexivity|vm_compute; reflexivity].
Qed.
