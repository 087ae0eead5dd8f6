(** FourWire and ThreeWire against the chip's SPI frame decoder. *)
From Verif Require Export SpiChip RawHistory ApiFacts HistoryFacts.
From Verif Require Import Datasheet.

Lemma spi_run_bind {A B} e (p : sprog A) (f : A -> sprog B) : forall x,
  spi_run e (sbind p f) x =
  match spi_run e p x with
  | (Done a, x') => spi_run e (f a) x'
  | (Panicked w, x') => (Panicked w, x')
  | (Looping, x') => (Looping, x')
  | (Cut, x') => (Cut, x')
  end.
Proof.
  induction p as [a|w| |ops k IH|l k IH|l k IH]; intros x; cbn; try reflexivity.
  - destruct (fails e (s_call (snd x))) as [[b er]|];
      match goal with |- context [spi_ops ?a ?b ?c ?d] => destruct (spi_ops a b c d) end; apply IH.
  - destruct (fails e (s_call (snd x))) as [[b er]|];
      match goal with |- context [spi_bytes ?a ?b ?c] => destruct (spi_bytes a b c) end; apply IH.
  - destruct (fails e (s_call (snd x))) as [[b er]|];
      match goal with |- context [spi_bytes ?a ?b ?c] => destruct (spi_bytes a b c) end; apply IH.
Qed.

(** ** Data phases *)
Lemma spi_read_data e blk : forall m a s,
  spi_bytes e m (Data blk false a None, s) =
  let (got, s') := read_bytes e blk a (length m) s in
  (got, (Data blk false (fold_left (fun x _ => next_addr x) m a) None, s')).
Proof.
  induction m as [|b m IH]; intros a s; cbn; [reflexivity|].
  rewrite IH. destruct (read_bytes e blk (next_addr a) (length m) (tick e s)). reflexivity.
Qed.
Lemma spi_write_data e blk : forall m a s,
  spi_bytes e m (Data blk true a None, s) =
  (repeat x00 (length m),
   (Data blk true (fold_left (fun x _ => next_addr x) m a) None, write_bytes e blk a m s)).
Proof.
  induction m as [|b m IH]; intros a s; cbn; [reflexivity|]. now rewrite IH.
Qed.
Lemma read_bytes_length e blk : forall n a s, length (fst (read_bytes e blk a n s)) = n.
Proof.
  induction n as [|n IH]; intros a s; cbn; [reflexivity|].
  specialize (IH (next_addr a) (tick e s)). destruct (read_bytes e blk (next_addr a) n (tick e s)). cbn in *. lia.
Qed.

(** ** The control byte *)
Lemma ctl_four_wire blk :
  blk < 32 ->
  ctl_block (u8 (shl3 blk)) = blk /\ ctl_write (u8 (shl3 blk)) = false /\ ctl_length (u8 (shl3 blk)) = None /\
  ctl_block (u8 (N.lor (shl3 blk) FW_WRITE_MODE_MASK)) = blk /\
  ctl_write (u8 (N.lor (shl3 blk) FW_WRITE_MODE_MASK)) = true /\
  ctl_length (u8 (N.lor (shl3 blk) FW_WRITE_MODE_MASK)) = None.
Proof.
  intros H.
  assert (G : forallb (fun n => let b := N.of_nat n in
    (ctl_block (u8 (shl3 b)) =? b) && negb (ctl_write (u8 (shl3 b))) &&
    match ctl_length (u8 (shl3 b)) with None => true | _ => false end &&
    (ctl_block (u8 (N.lor (shl3 b) FW_WRITE_MODE_MASK)) =? b) &&
    ctl_write (u8 (N.lor (shl3 b) FW_WRITE_MODE_MASK)) &&
    match ctl_length (u8 (N.lor (shl3 b) FW_WRITE_MODE_MASK)) with None => true | _ => false end)
    (seq 0 32) = true) by (vm_compute; reflexivity).
  rewrite forallb_forall in G. specialize (G (N.to_nat blk)). cbv zeta in G. rewrite N2Nat.id in G.
  assert (I : In (N.to_nat blk) (seq 0 32)) by (apply in_seq; lia). specialize (G I).
  repeat rewrite andb_true_iff in G. destruct G as (((((G1 & G2) & G3) & G4) & G5) & G6).
  apply N.eqb_eq in G1, G4. apply negb_true_iff in G2.
  destruct (ctl_length (u8 (shl3 blk))); [discriminate|].
  destruct (ctl_length (u8 (N.lor (shl3 blk) FW_WRITE_MODE_MASK))); [discriminate|]. auto 8.
Qed.

(** the bus calls that fail over SPI after [b] bytes, as failures of register-level calls: the
    first three bytes are the frame's header *)
Definition four_wire_env (e : env) : env :=
  mkEnv (happens e) (fun j => match fails e j with Some (b, err) => Some ((b - 3)%nat, err) | None => None end).

Lemma tick_four_wire e s : tick (four_wire_env e) s = tick e s.
Proof. reflexivity. Qed.
Lemma read_bytes_four_wire e blk : forall n a s, read_bytes (four_wire_env e) blk a n s = read_bytes e blk a n s.
Proof. induction n as [|n IH]; intros; cbn; [reflexivity|]. now rewrite IH. Qed.
Lemma write_bytes_four_wire e blk : forall d a s, write_bytes (four_wire_env e) blk a d s = write_bytes e blk a d s.
Proof. induction d as [|b d IH]; intros; cbn; [reflexivity|]. now rewrite IH. Qed.

Lemma be_addr a : a < 65536 -> b2n (u8 (a / 256)) * 256 + b2n (u8 a) = a.
Proof. intros H. rewrite !b2n_u8. lia. Qed.

Lemma four_wire_read e blk a buf x :
  blk < 32 -> a < 65536 ->
  spi_run e (fw_read_frame blk a buf) x =
  let (r, s') := bus_read (four_wire_env e) blk a buf (snd x) in (Done r, (WaitHi, s')).
Proof.
  intros Hb Ha. destruct x as [st s]. destruct (ctl_four_wire blk Hb) as (C1 & C2 & C3 & _).
  unfold fw_read_frame, bus_read. cbn [spi_run snd]. cbn [four_wire_env fails].
  destruct (fails e (s_call s)) as [[b er]|].
  - destruct b as [|[|[|b]]]; cbn [Nat.sub spi_ops op_bytes firstn to_be length spi_bytes spi_byte].
    1-3: cbn; reflexivity.
    rewrite C1, C2, C3, be_addr by assumption. rewrite firstn_nil.
    cbn [spi_ops op_bytes Nat.sub length spi_bytes]. rewrite ?Nat.sub_0_r.
    rewrite spi_read_data, firstn_length.
    rewrite read_bytes_four_wire.
    pose proof (read_bytes_length e blk (Nat.min b (length buf)) a s) as L.
    destruct (read_bytes e blk a (Nat.min b (length buf)) s) as [got s']. cbn in L.
    cbn [spi_run op_after fst snd nth]. do 4 f_equal.
    rewrite L. destruct (Nat.min_spec b (length buf)) as [[? ->]|[? ->]]; [reflexivity|].
    now rewrite !skipn_all2 by lia.
  - cbn [spi_ops op_bytes to_be spi_bytes spi_byte]. rewrite C1, C2, C3, be_addr by assumption.
    rewrite spi_read_data, read_bytes_four_wire.
    pose proof (read_bytes_length e blk (length buf) a s) as L.
    destruct (read_bytes e blk a (length buf) s) as [got s']. cbn in L.
    cbn [spi_run op_after fst snd nth]. now rewrite L, skipn_all, app_nil_r.
Qed.

Lemma four_wire_write e blk a d x :
  blk < 32 -> a < 65536 ->
  spi_run e (fw_write_frame blk a d) x =
  let (r, s') := bus_write (four_wire_env e) blk a d (snd x) in (Done r, (WaitHi, s')).
Proof.
  intros Hb Ha. destruct x as [st s]. destruct (ctl_four_wire blk Hb) as (_ & _ & _ & C1 & C2 & C3).
  unfold fw_write_frame, bus_write. cbn [spi_run snd]. cbn [four_wire_env fails].
  destruct (fails e (s_call s)) as [[b er]|].
  - destruct b as [|[|[|b]]]; cbn [Nat.sub spi_ops op_bytes firstn to_be length spi_bytes spi_byte].
    1-3: cbn; reflexivity.
    rewrite C1, C2, C3, be_addr by assumption. rewrite firstn_nil.
    cbn [spi_ops op_bytes Nat.sub length spi_bytes]. rewrite ?Nat.sub_0_r.
    rewrite spi_write_data, write_bytes_four_wire. reflexivity.
  - cbn [spi_ops op_bytes to_be spi_bytes spi_byte]. rewrite C1, C2, C3, be_addr by assumption.
    rewrite spi_write_data, write_bytes_four_wire. reflexivity.
Qed.

(** ** Whole computations *)
Definition spi_blk (blk a : N) : Prop := blk < 32 /\ a < 65536.

Lemma bus_read_length e blk a buf s : length (fst (fst (bus_read e blk a buf s))) = length buf.
Proof.
  unfold bus_read. destruct (fails e (s_call s)) as [[k er]|].
  - pose proof (read_bytes_length e blk (Nat.min k (length buf)) a s) as L.
    destruct (read_bytes e blk a (Nat.min k (length buf)) s). cbn in *. rewrite app_length, skipn_length. lia.
  - pose proof (read_bytes_length e blk (length buf) a s) as L.
    destruct (read_bytes e blk a (length buf) s). exact L.
Qed.

Lemma four_wire_sim {A} e W (G : A -> Prop) p : forall s,
  ptree spi_blk W G p ->
  spi_run e (over_four_wire p) (WaitHi, s) =
  let (o, s') := run (four_wire_env e) p s in (o, (WaitHi, s')).
Proof.
  unfold over_four_wire. induction p as [a|w| |b a d k IH|b a d k IH]; intros s H; cbn [plug run]; try reflexivity.
  - destruct H as [[Hb Ha] H]. rewrite spi_run_bind, four_wire_read by assumption. cbn [snd].
    pose proof (bus_read_length (four_wire_env e) b a d s) as L.
    destruct (bus_read (four_wire_env e) b a d s) as [[got r] s']. cbn in L. apply IH. now apply H.
  - destruct H as [[Hb Ha] H]. rewrite spi_run_bind, four_wire_write by assumption. cbn [snd].
    destruct (bus_write (four_wire_env e) b a d s) as [r s']. apply IH, H.
Qed.

(** ** All API calls use 5-bit blocks and 16-bit addresses *)
Lemma step_blk_spi a o blk ad : pool_inv a -> step_blk a o blk ad -> spi_blk blk ad.
Proof.
  intros I H. unfold step_blk in H. destruct (op_handle o) as [h|].
  - destruct H as (x & L & H). destruct (pi_lookup _ _ _ I L) as (i & Hi & E & _). rewrite E in H.
    destruct (socket_blocks i Hi) as (E1 & E2 & E3 & _). destruct H as [H Ha]. split; [|exact Ha].
    rewrite E1, E2, E3 in H. unfold BSB_REG, BSB_TX, BSB_RX in H. lia.
  - destruct o; try contradiction. destruct H as [-> Ha]. split; [reflexivity|exact Ha].
Qed.

Lemma pt_run_ops fuel ops : forall a,
  pool_inv a -> ptree spi_blk (fun _ => True) (fun r => pool_inv (fst r)) (run_ops fuel a ops).
Proof.
  induction ops as [|o ops IH]; intros a I; cbn [run_ops]; [exact I|].
  eapply ptree_bind with (G := fun r => pool_inv (fst r)).
  - eapply ptree_mono; [| | |exact (pt_step fuel a o I)]; auto.
    + intros b ad. now apply step_blk_spi.
    + intros r Hr. apply Hr.
  - intros [a1 o1] I1. cbn [fst snd] in *. eapply ptree_bind; [exact (IH _ I1)|].
    intros [a2 o2] I2. exact I2.
Qed.

(** ** From initialisation on *)
Lemma pt_init_state W a h m :
  ptree cblk W (fun r => match r with Ok d => exists h', d = ds_new h' | Err _ => True end)
    (initialize_with_host a h m).
Proof.
  unfold initialize_with_host. cbv zeta.
  assert (R : ptree cblk W (fun r => match r with Ok d => exists h', d = ds_new h' | Err _ => True end)
    (try a0 <- uninit_reset else (fun e => Err (SpiError e)) ;;
     try b <- dev_set_mode m else (fun e => Err (SpiError e)) ;;
     do r <- refresh h ;;
     match snd r with Err e => Ret (Err (SpiError e)) | Ok _ => Ret (Ok (ds_new (fst r))) end)).
  { eapply ptree_try with (G := fun _ => True);
      [apply ptree_write; [apply cblk_common; reflexivity|intros []; auto]| |cbn; auto]. intros _ _.
    eapply ptree_try with (G := fun _ => True);
      [apply ptree_write; [apply cblk_common; reflexivity|intros []; auto]| |cbn; auto]. intros _ _.
    eapply ptree_bind; [apply pt_refresh|]. intros [x [|]] _; cbn; eauto. }
  destruct a; [|exact R].
  eapply ptree_try with (G := fun _ => True); [|intros _ _; exact R|cbn; auto].
  unfold assert_chip_version.
  eapply ptree_tryw;
    [apply (pt_common_read W c_VERSION 1 byte0); reflexivity| |cbn; auto].
  intros v _. destruct (negb (b2n v =? 4)); exact I.
Qed.

Lemma cblk_spi blk a : cblk blk a -> spi_blk blk a.
Proof. intros [-> H]. split; [reflexivity|exact H]. Qed.
Lemma sblk_spi i blk a : i < 8 -> sblk (socket_new i) blk a -> spi_blk blk a.
Proof.
  intros Hi [H Ha]. split; [|exact Ha].
  destruct (socket_blocks i Hi) as (E1 & E2 & E3 & _). rewrite E1, E2, E3 in H.
  unfold BSB_REG, BSB_TX, BSB_RX in H. lia.
Qed.
Lemma mblk_spi blk a : mblk blk a -> spi_blk blk a.
Proof.
  intros [[->|(i & Hi & ->)] H]; (split; [|exact H]); [reflexivity|]. unfold BSB_REG. lia.
Qed.

Lemma pt_device_program c h m fuel ops :
  ptree spi_blk (fun _ => True) (fun _ => True) (device_program c h m fuel ops).
Proof.
  unfold device_program. eapply ptree_tryw.
  - eapply ptree_mono; [| | |apply (pt_init_state (fun _ => True))].
    + exact cblk_spi.
    + auto.
    + intros r H. exact H.
  - intros d (h' & ->). eapply ptree_bind; [exact (pt_run_ops fuel ops (app_new h') (pool_inv_new h'))|].
    intros; exact I.
  - auto.
Qed.

Lemma pt_run_raw fuel ops : forall d, raw_socket d = socket_new 0 ->
  ptree spi_blk (fun _ => True) (fun _ => True) (run_raw fuel d ops).
Proof.
  induction ops as [|o ops IH]; intros d Hd; cbn [run_raw]; [exact I|].
  assert (HR : forall b a, sblk (raw_socket d) b a -> spi_blk b a).
  { intros b a H. rewrite Hd in H. now apply (sblk_spi 0). }
  assert (HR' : forall b a, rblk (raw_socket d) b a -> spi_blk b a).
  { intros b a [H|H]; [now apply HR|now apply cblk_spi]. }
  eapply ptree_bind with (G := fun _ => True).
  - destruct o; cbn [raw_step].
    + eapply ptree_bind with (G := fun _ => True); [|intros; exact I].
      eapply ptree_mono; [exact HR'| | |apply (pt_raw_interrupts d (fun _ => True) which)]; auto.
    + eapply ptree_bind with (G := fun _ => True); [|intros; exact I].
      eapply ptree_mono; [exact HR| | |apply (pt_raw_interrupts d (fun _ => True) x00)]; auto.
    + eapply ptree_bind with (G := fun _ => True); [|intros; exact I].
      eapply ptree_mono; [exact HR'| | |apply (pt_raw_interrupts d (fun _ => True) x00)]; auto.
    + eapply ptree_bind with (G := fun _ => True); [|intros; exact I].
      eapply ptree_mono; [exact HR| | |apply (pt_raw_read_frame d (fun _ => True) fuel frame I)]; auto.
    + eapply ptree_bind with (G := fun _ => True); [|intros; exact I].
      eapply ptree_mono; [exact HR| | |apply (pt_raw_write_frame d (fun _ => True) fuel frame)]; auto.
  - intros r _. eapply ptree_bind; [exact (IH d Hd)|]. intros; exact I.
Qed.

Lemma pt_macraw_program mc fuel ops :
  ptree spi_blk (fun _ => True) (fun _ => True) (macraw_program mc fuel ops).
Proof.
  unfold macraw_program. eapply ptree_tryw.
  - eapply ptree_mono; [exact mblk_spi| | |apply (pt_initialize_macraw (fun _ => True))].
    + auto.
    + intros r H. exact H.
  - intros d Hd. eapply ptree_bind; [exact (pt_run_raw fuel ops d Hd)|]. intros; exact I.
  - auto.
Qed.

(** ** What the bytes of one frame do *)
Lemma read_bytes_spec e blk : forall n a s, a < 65536 ->
  let r := read_bytes e blk a n s in
  s_tick (snd r) = (s_tick s + n)%nat /\ s_call (snd r) = s_call s /\
  s_chip (snd r) = nsteps (s_chip s) (flat_map (happens e) (seq (s_tick s) n)) /\
  forall i, (i < n)%nat ->
    nth i (fst r) x00 =
    rbyte (nsteps (s_chip s) (flat_map (happens e) (seq (s_tick s) (S i)))) blk
      ((a + N.of_nat i) mod 65536).
Proof.
  induction n as [|n IH]; intros a s Ha; cbn [read_bytes].
  { cbn. split; [lia|]. split; auto. split; auto. intros; lia. }
  specialize (IH (next_addr a) (tick e s) ltac:(unfold next_addr; apply N.mod_lt; discriminate)).
  destruct (read_bytes e blk (next_addr a) n (tick e s)) as [l s2]. cbn [fst snd] in *.
  destruct IH as (H1 & H2 & H3 & H4). cbn [tick s_tick s_chip s_call] in *.
  split; [lia|]. split; [exact H2|]. split.
  { rewrite H3. cbn [seq flat_map]. unfold nsteps. now rewrite fold_left_app. }
  intros [|i] Hi.
  - cbn [nth seq flat_map]. rewrite app_nil_r. change (N.of_nat 0) with 0. rewrite N.add_0_r, N.mod_small by assumption.
    reflexivity.
  - cbn [nth]. rewrite H4 by lia. f_equal.
    + cbn [seq flat_map]. unfold nsteps. now rewrite !fold_left_app.
    + unfold next_addr. rewrite N.add_mod_idemp_l by discriminate. f_equal. lia.
Qed.

Lemma write_bytes_spec e blk : forall d a s, a < 65536 ->
  let s' := write_bytes e blk a d s in
  s_tick s' = (s_tick s + length d)%nat /\ s_call s' = s_call s /\
  s_chip s' = fold_left (fun c ib =>
    wbyte (nsteps c (happens e (s_tick s + fst ib))) blk ((a + N.of_nat (fst ib)) mod 65536) (snd ib))
    (combine (seq 0 (length d)) d) (s_chip s).
Proof.
  induction d as [|b d IH]; intros a s Ha; cbn [write_bytes].
  { cbn. split; [lia|]. auto. }
  specialize (IH (next_addr a) (on_chip (fun c => wbyte c blk a b) (tick e s))
    ltac:(unfold next_addr; apply N.mod_lt; discriminate)).
  cbn zeta in *. destruct IH as (H1 & H2 & H3). cbn [tick on_chip s_tick s_chip s_call length] in *.
  split; [rewrite H1; lia|]. split; [exact H2|]. rewrite H3. cbn [seq combine fold_left fst snd].
  change (N.of_nat 0) with 0. rewrite N.add_0_r, Nat.add_0_r, N.mod_small by assumption.
  rewrite <- seq_shift. clear.
  generalize (wbyte (nsteps (s_chip s) (happens e (s_tick s))) blk a b).
  generalize (seq 0 (length d)) as l. generalize d as d'.
  induction d' as [|b' d' IH]; intros [|i l] c; try reflexivity.
  cbn [map combine fold_left fst snd].
  replace (next_addr a + N.of_nat i) with ((a + 1) mod 65536 + N.of_nat i) by reflexivity.
  rewrite N.add_mod_idemp_l by discriminate.
  replace (a + 1 + N.of_nat i) with (a + N.of_nat (S i)) by lia.
  replace (S (s_tick s) + i)%nat with (s_tick s + S i)%nat by lia. apply IH.
Qed.
