(** C121: how often a busy-wait may poll is no part of what a program does. *)
From Verif Require Import Life RawHistory BytesFacts Adaptive Spi SpiChip Wire Fuel Cases.
From Coq Require Import Lia.

(** ** C121.  The loops of the code have no bound; those of the model stop after [n] polls, with the
    outcome Looping.  Any program that does not come to that with [n] does with every greater [m]
    exactly what it does with [n]: against any chip and network, and over an arbitrary bus; and what
    it does with [m] it does with [n], or is caught polling on the way.  So the answers, the final
    states and the traffic that the theorems speak of are those of the loops without a bound. *)
Theorem C121_more_polls : forall chk l ops n m, (n <= m)%nat ->
  (forall e s, fst (run e (run_life chk n l ops) s) <> Looping -> run e (run_life chk m l ops) s = run e (run_life chk n l ops) s) /\
  (forall tr oc, exec (run_life chk n l ops) tr oc -> oc <> Looping -> exec (run_life chk m l ops) tr oc) /\
  (forall tr oc, exec (run_life chk m l ops) tr oc ->
     exec (run_life chk n l ops) tr oc \/ exists t1 t2, tr = t1 ++ t2 /\ exec (run_life chk n l ops) t1 Looping).
Proof.
  intros chk l ops n m L. pose proof (ext_life n m L chk ops l) as E. split; [|split].
  - intros e s. exact (ext_run e _ _ E s).
  - intros tr oc X N. exact (ext_exec _ _ _ _ X E N).
  - exact (ext_exec_inv _ _ E).
Qed.
Print Assumptions C121_more_polls.

(** The answer does not depend on the bound: two bounds that let the program come to an end let it
    come to the same end, in the same state; and a program that polls for [n] rounds polls with every
    smaller bound.  (So, for one program, chip and network: either some bound gives the end and all
    greater ones give the same, or no bound is enough, which is a program that polls for ever.) *)
Theorem C121_one_answer : forall e chk l ops s n m,
  (fst (run e (run_life chk n l ops) s) <> Looping -> fst (run e (run_life chk m l ops) s) <> Looping ->
   run e (run_life chk n l ops) s = run e (run_life chk m l ops) s) /\
  ((m <= n)%nat -> fst (run e (run_life chk n l ops) s) = Looping -> fst (run e (run_life chk m l ops) s) = Looping).
Proof.
  intros e chk l ops s n m. split.
  - intros Nn Nm. assert (C : (n <= m)%nat \/ (m <= n)%nat) by lia. destruct C as [L|L].
    + symmetry. exact (proj1 (C121_more_polls chk l ops n m L) e s Nn).
    + exact (proj1 (C121_more_polls chk l ops m n L) e s Nm).
  - intros L H. destruct (fst (run e (run_life chk m l ops) s)) eqn:F; try reflexivity;
      (rewrite (proj1 (C121_more_polls chk l ops m n L) e s) in H by (rewrite F; discriminate); congruence).
Qed.
Print Assumptions C121_one_answer.

(** On the wires: against the chip, and with an SPI device that answers anything. *)
Theorem C121_wires : forall chk l ops n m, (n <= m)%nat ->
  (forall e x, fst (spi_run e (over_four_wire (run_life chk n l ops)) x) <> Looping ->
     spi_run e (over_four_wire (run_life chk m l ops)) x = spi_run e (over_four_wire (run_life chk n l ops)) x) /\
  (forall e c x, fst (spi_run e (over_three_wire c (run_life chk n l ops)) x) <> Looping ->
     spi_run e (over_three_wire c (run_life chk m l ops)) x = spi_run e (over_three_wire c (run_life chk n l ops)) x) /\
  (forall tr oc, oc <> Looping -> sexec (over_four_wire (run_life chk n l ops)) tr oc -> sexec (over_four_wire (run_life chk m l ops)) tr oc) /\
  (forall c tr oc, oc <> Looping -> sexec (over_three_wire c (run_life chk n l ops)) tr oc -> sexec (over_three_wire c (run_life chk m l ops)) tr oc).
Proof.
  intros chk l ops n m L. pose proof (ext_life n m L chk ops l) as E. split; [|split; [|split]].
  - intros e. exact (ext_spi_run _ _ e _ _ E).
  - intros e c. exact (ext_spi_run _ _ e _ _ E).
  - exact (ext_sexec _ _ _ _ E).
  - intros c. exact (ext_sexec _ _ _ _ E).
Qed.
Print Assumptions C121_wires.

(** One call on one device, and a program that chooses its calls by the answers. *)
Theorem C121_calls : forall e s n m, (n <= m)%nat ->
  (forall a o, fst (run e (step n a o) s) <> Looping -> run e (step m a o) s = run e (step n a o) s) /\
  (forall d o, fst (run e (raw_step n d o) s) <> Looping -> run e (raw_step m d o) s = run e (raw_step n d o) s) /\
  (forall chk next k l, fst (run e (play (lstep chk n) next k l []) s) <> Looping ->
     run e (play (lstep chk m) next k l []) s = run e (play (lstep chk n) next k l []) s).
Proof.
  intros e s n m L. split; [|split].
  - intros a o. exact (ext_run e _ _ (ext_step n m L a o) s).
  - intros d o. exact (ext_run e _ _ (ext_raw n m L d o) s).
  - intros chk next k l. exact (ext_run e _ _ (ext_play n m L chk next k l []) s).
Qed.
Print Assumptions C121_calls.

(** A peer that accepts after a while: three polls are not enough, seven are, and then a thousand
    give nothing else. *)
Definition patient_life : list lop :=
  [LInit (IManual (Mac x02 x00 x00 x00 x00 x01) (Ip4 x0a x00 x00 x01)) mode_default; LCall OpTcpSocket;
   LCall (OpTcpConnect 0 (V4 (Addr4 (Ip4 x0a x00 x00 x02) 80)))].
Definition accepts_late : env := script [(40%nat, [EvEstablished 0])].
Example C121_case :
  fst (run accepts_late (run_life true 3 life_new patient_life) sys0) = Looping /\
  (exists l, fst (run accepts_late (run_life true 7 life_new patient_life) sys0) =
     Done (l, [LInited (Ok tt); LOut (RTcpSocket (Ok 0%nat)); LOut (RTcpConnect (Ok tt))])) /\
  run accepts_late (run_life true 1000 life_new patient_life) sys0 = run accepts_late (run_life true 7 life_new patient_life) sys0.
Proof.
  split; [vm_compute; reflexivity|]. split; [eexists; vm_compute; reflexivity|].
  apply C121_more_polls; [lia|]. vm_compute. discriminate.
Qed.
