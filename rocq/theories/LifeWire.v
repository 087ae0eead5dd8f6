(** Every access of a program over the whole life of a chip (Life.v) names one of the 32 blocks
    and a 16-bit address: what [FourWire] needs to carry it (SpiFacts.v). *)
From Verif Require Import LifeFacts SpiFacts.

Lemma good_spi a o blk ad : good (handles a) -> step_blk a o blk ad -> spi_blk blk ad.
Proof.
  intros G H. unfold step_blk in H. destruct (op_handle o) as [h|].
  - destruct H as (x & L & H). destruct (good_lookup _ _ _ G L) as (i & Hi & E). rewrite E in H. exact (sblk_spi i blk ad Hi H).
  - destruct o; try contradiction. now apply cblk_spi.
Qed.
Lemma pt_good_step fuel a o : good (handles a) -> ptree spi_blk (fun _ => True) (fun r => good (handles (fst r))) (step fuel a o).
Proof.
  intros G. eapply ptree_mono; [| | |exact (good_step fuel a o G)]; auto. intros b ad. now apply good_spi.
Qed.
Lemma pt_run_uop u : ptree spi_blk (fun _ => True) (fun _ => True) (run_uop u).
Proof.
  eapply ptree_mono with (B := cblk); [exact cblk_spi|intros ? Hx; exact Hx|intros ? Hx; exact Hx|].
  destruct u; [exact (pt_run_devop QResetDevice _)|exact (pt_run_devop (QSetMode m) _)|exact (pt_run_devop QVersion _)
    |exact (pt_run_devop (QSetRetryTimeout r) _)|exact (pt_run_devop QRetryTimeout _)|exact (pt_run_devop (QSetRetryCount n) _)
    |exact (pt_run_devop QRetryCount _)].
Qed.
Lemma pt_raw_step fuel d o : raw_socket d = socket_new 0 -> ptree spi_blk (fun _ => True) (fun _ => True) (raw_step fuel d o).
Proof.
  intros Hd.
  assert (HR : forall b a, sblk (raw_socket d) b a -> spi_blk b a).
  { intros b a H. rewrite Hd in H. now apply (sblk_spi 0). }
  assert (HR' : forall b a, rblk (raw_socket d) b a -> spi_blk b a).
  { intros b a [H|H]; [now apply HR|now apply cblk_spi]. }
  destruct o; cbn [raw_step]; (eapply ptree_bind with (G := fun _ => True); [|intros; exact Logic.I]).
  - eapply ptree_mono; [exact HR'| | |apply (pt_raw_interrupts d (fun _ => True) which)]; auto.
  - eapply ptree_mono; [exact HR| | |apply (pt_raw_interrupts d (fun _ => True) x00)]; auto.
  - eapply ptree_mono; [exact HR'| | |apply (pt_raw_interrupts d (fun _ => True) x00)]; auto.
  - eapply ptree_mono; [exact HR| | |apply (pt_raw_read_frame d (fun _ => True) fuel frame Logic.I)]; auto.
  - eapply ptree_mono; [exact HR| | |apply (pt_raw_write_frame d (fun _ => True) fuel frame)]; auto.
Qed.

Definition wired (l : life) : Prop := good (lhandles l) /\ match ph l with RawUp d => raw_socket d = socket_new 0 | _ => True end.
Lemma pt_lstep chk fuel l q : wired l -> ptree spi_blk (fun _ => True) (fun r => wired (fst r)) (lstep chk fuel l q).
Proof.
  intros W. pose proof W as [G RO].
  assert (I : forall k m, ptree spi_blk (fun _ => True) (fun _ => True) (run_setup chk k m)).
  { intros k m. eapply ptree_mono with (B := cblk); [exact cblk_spi|intros ? Hx; exact Hx| |destruct k; apply (pt_init_state (fun _ => True))]. auto. }
  assert (Z : forall d, ptree spi_blk (fun _ => True) (fun _ => True) (dev_reset d)).
  { intros d. eapply ptree_mono with (B := cblk); [exact cblk_spi|intros ? Hx; exact Hx| |apply (pt_dev_reset d)]. auto. }
  unfold lstep. destruct q as [u|k m|mc|o|o| | | |k|k], (ph l) as [|d|k'|rd|] eqn:P; try exact W;
    try solve [split; [exact G|exact Logic.I]];
    try solve [destruct (nth_error (asleep l) k); [split; [exact G|exact Logic.I]|exact W]].
  - eapply ptree_bind; [apply pt_run_uop|]. intros r _. exact W.
  - eapply ptree_bind; [apply I|]. intros [d|x] _; split; [exact G|exact Logic.I|exact G|exact Logic.I].
  - eapply ptree_bind; [eapply ptree_mono; [exact mblk_spi|intros ? Hx; exact Hx|intros ? Hx; exact Hx|apply (pt_initialize_macraw (fun _ => True))]|].
    intros [d|x] Hd; split; [exact G|exact Hd|exact G|exact Logic.I].
  - eapply ptree_bind; [apply (pt_good_step fuel (mkApp d (lhandles l) (lfresh l)) o G)|]. intros r Hr. split; [exact Hr|exact Logic.I].
  - destruct (nth_error (asleep l) k') as [d|]; [|exact W].
    eapply ptree_bind; [apply (pt_good_step fuel (mkApp d (lhandles l) (lfresh l)) o G)|]. intros r Hr. split; [exact Hr|exact Logic.I].
  - eapply ptree_bind; [apply (pt_raw_step fuel rd o RO)|]. intros r _. exact W.
  - eapply ptree_bind; [apply Z|]. intros [[]|x] _; split; [exact G|exact Logic.I|exact G|exact Logic.I].
  - destruct (nth_error (asleep l) k') as [d|]; [|exact W].
    eapply ptree_bind; [apply Z|]. intros [[]|x] _; split; [exact G|exact Logic.I|exact G|exact Logic.I].
Qed.
Lemma pt_run_life chk fuel : forall ops l, wired l -> ptree spi_blk (fun _ => True) (fun r => wired (fst r)) (run_life chk fuel l ops).
Proof.
  induction ops as [|q ops IH]; intros l W; cbn [run_life]; [exact W|].
  eapply ptree_bind; [exact (pt_lstep chk fuel l q W)|]. intros r Wr.
  eapply ptree_bind; [exact (IH _ Wr)|]. intros rs Ws. exact Ws.
Qed.
Lemma wired_new : wired life_new.
Proof. split; [intros ? ? []|exact Logic.I]. Qed.
(** two environments that agree on what happens and on what fails cannot be told apart *)
Lemma run_env e1 e2 : happens e1 = happens e2 -> (forall j, fails e1 j = fails e2 j) ->
  forall A (p : prog A) s, run e1 p s = run e2 p s.
Proof.
  intros Hh Hf A p. assert (T : forall s, tick e1 s = tick e2 s) by (intros; unfold tick; now rewrite Hh).
  assert (RB : forall blk n a s, read_bytes e1 blk a n s = read_bytes e2 blk a n s).
  { induction n; intros; cbn [read_bytes]; [reflexivity|]. now rewrite T, IHn. }
  assert (WB : forall blk d a s, write_bytes e1 blk a d s = write_bytes e2 blk a d s).
  { induction d; intros; cbn [write_bytes]; [reflexivity|]. now rewrite T, IHd. }
  induction p as [x|w| |b a d k IH|b a d k IH]; intros s; cbn [run]; try reflexivity.
  - replace (bus_read e1 b a d s) with (bus_read e2 b a d s); [destruct (bus_read e2 b a d s); apply IH|].
    unfold bus_read. rewrite Hf. destruct (fails e2 (s_call s)) as [[]|]; now rewrite RB.
  - replace (bus_write e1 b a d s) with (bus_write e2 b a d s); [destruct (bus_write e2 b a d s); apply IH|].
    unfold bus_write. rewrite Hf. destruct (fails e2 (s_call s)) as [[]|]; now rewrite WB.
Qed.
