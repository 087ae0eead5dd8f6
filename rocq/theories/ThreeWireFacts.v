(** ThreeWire against the chip's SPI frame decoder. *)
From Verif Require Export SpiFacts.

(** the control byte: block, read, operation mode [om] *)
Definition tw_ctl (blk om : N) : N := blk * 8 + om.
Definition om_len (om : N) : option N := match om with 0 => None | 1 => Some 1 | 2 => Some 2 | _ => Some 4 end.

Lemma tw_ctl_decode blk om : blk < 32 -> om < 4 ->
  ctl_block (u8 (tw_ctl blk om)) = blk /\ ctl_write (u8 (tw_ctl blk om)) = false /\
  ctl_length (u8 (tw_ctl blk om)) = om_len om /\
  (forall m, m < 4 -> N.lor (tw_ctl blk om) m = tw_ctl blk (N.lor om m) /\ N.lor om m < 4) /\
  shl3 blk = tw_ctl blk 0.
Proof.
  intros Hb Ho.
  assert (G : forallb (fun n => forallb (fun k => let b := N.of_nat n in let o := N.of_nat k in
    (ctl_block (u8 (tw_ctl b o)) =? b) && negb (ctl_write (u8 (tw_ctl b o))) &&
    match ctl_length (u8 (tw_ctl b o)), om_len o with None, None => true | Some x, Some y => x =? y | _, _ => false end &&
    forallb (fun m => (N.lor (tw_ctl b o) (N.of_nat m) =? tw_ctl b (N.lor o (N.of_nat m))) &&
                      (N.lor o (N.of_nat m) <? 4)) (seq 0 4) && (shl3 b =? tw_ctl b 0))
    (seq 0 4)) (seq 0 32) = true) by (vm_compute; reflexivity).
  rewrite forallb_forall in G. specialize (G (N.to_nat blk)). 
  assert (I : In (N.to_nat blk) (seq 0 32)) by (apply in_seq; lia). specialize (G I).
  rewrite forallb_forall in G. specialize (G (N.to_nat om)). cbv zeta in G. rewrite !N2Nat.id in G.
  assert (I' : In (N.to_nat om) (seq 0 4)) by (apply in_seq; lia). specialize (G I').
  repeat rewrite andb_true_iff in G. destruct G as ((((G1 & G2) & G3) & G4) & G5).
  apply N.eqb_eq in G1, G5. apply negb_true_iff in G2.
  split; [exact G1|]. split; [exact G2|]. split; [|split; [|exact G5]].
  - destruct (ctl_length (u8 (tw_ctl blk om))), (om_len om); try discriminate; auto. apply N.eqb_eq in G3. congruence.
  - intros m Hm. rewrite forallb_forall in G4. specialize (G4 (N.to_nat m)). rewrite N2Nat.id in G4.
    assert (I2 : In (N.to_nat m) (seq 0 4)) by (apply in_seq; lia). specialize (G4 I2).
    apply andb_true_iff in G4 as [A B]. apply N.eqb_eq in A. apply N.ltb_lt in B. auto.
Qed.

Fixpoint addr_after (n : nat) (a : N) : N := match n with O => a | S n' => addr_after n' (next_addr a) end.
Lemma addr_after_eq n : forall a, a < 65536 -> addr_after n a = (a + N.of_nat n) mod 65536.
Proof.
  induction n as [|n IH]; intros a Ha; cbn [addr_after].
  - rewrite N.add_0_r. symmetry. now apply N.mod_small.
  - unfold next_addr. rewrite IH by (apply N.mod_lt; discriminate). lia.
Qed.
Lemma read_bytes_app e blk : forall n m a s,
  read_bytes e blk a (n + m) s =
  let (g1, s1) := read_bytes e blk a n s in
  let (g2, s2) := read_bytes e blk (addr_after n a) m s1 in (g1 ++ g2, s2).
Proof.
  induction n as [|n IH]; intros m a s; cbn [Nat.add read_bytes addr_after].
  - destruct (read_bytes e blk a m s). reflexivity.
  - rewrite IH. destruct (read_bytes e blk (next_addr a) n (tick e s)) as [g1 s1].
    destruct (read_bytes e blk (addr_after n (next_addr a)) m s1). reflexivity.
Qed.

(** a fixed-length read, possibly left early *)
Lemma spi_fixed_read e blk l : forall m a s,
  m <> [] -> len m <= l ->
  spi_bytes e m (Data blk false a (Some l), s) =
  let (got, s') := read_bytes e blk a (length m) s in
  (got, (if len m =? l then WaitHi else Data blk false (addr_after (length m) a) (Some (l - len m)), s')).
Proof.
  intros m. revert l. induction m as [|b m IH]; intros l a s Hm Hl; [congruence|]. clear Hm.
  rewrite len_cons in Hl. cbn [spi_bytes spi_byte length read_bytes addr_after after_byte].
  destruct m as [|b' m].
  - cbn [spi_bytes read_bytes length addr_after]. rewrite len_cons, len_nil. replace (1 + 0) with 1 by lia.
    destruct (N.eqb_spec 1 l) as [<-|H]; [reflexivity|].
    destruct (N.leb_spec l 1); [|reflexivity]. exfalso. rewrite len_nil in Hl. lia.
  - assert (1 < l) by (rewrite len_cons in Hl; lia).
    destruct (N.leb_spec l 1); [lia|].
    rewrite IH; [|discriminate|lia].
    destruct (read_bytes e blk (next_addr a) (length (b' :: m)) (tick e s)) as [got s'].
    rewrite (len_cons b (b' :: m)).
    destruct (N.eqb_spec (len (b' :: m)) (l - 1)), (N.eqb_spec (1 + len (b' :: m)) l); try lia; try reflexivity.
    do 2 f_equal. f_equal. f_equal. lia.
Qed.

(** the three SpiBus calls of one chunk, without failures *)
Definition calls (n : nat) (s : sys) : sys := mkSys (s_chip s) (s_tick s) (n + s_call s).

Lemma read_bytes_calls e blk k : forall n a s,
  read_bytes e blk a n (calls k s) = let (g, s') := read_bytes e blk a n s in (g, calls k s').
Proof.
  induction n as [|n IH]; intros a s; cbn; [reflexivity|].
  change (tick e (calls k s)) with (calls k (tick e s)). rewrite IH.
  destruct (read_bytes e blk (next_addr a) n (tick e s)). reflexivity.
Qed.
Lemma calls_calls a b s : calls a (calls b s) = calls (a + b) s.
Proof. unfold calls. cbn. f_equal. lia. Qed.
Lemma end_call_calls s : end_call s = calls 1 s. Proof. reflexivity. Qed.

(** one chunk of a read, from an idle link *)
Lemma tw_chunk_read {R} e blk om a d (k : list byte * res unit berr -> sprog R) s :
  no_faults e -> blk < 32 -> 0 < om -> om < 4 -> a < 65536 -> d <> [] ->
  (forall l, om_len om = Some l -> len d <= l) ->
  forall (k1 k2 : berr -> sprog R),
  spi_run e (SWrite (to_be a) (fun r => match r with Err x => k1 x | Ok _ =>
             SWrite [u8 (tw_ctl blk om)] (fun r => match r with Err x => k2 x | Ok _ => STransfer d k end) end))
    (WaitHi, s) =
  let (got, s') := read_bytes e blk a (length d) s in
  spi_run e (k (got, Ok tt))
    (match om_len om with Some l => if len d =? l then WaitHi else Data blk false (addr_after (length d) a) (Some (l - len d))
     | None => WaitHi end, calls 3 s').
Proof.
  intros NF Hb Ho Ho' Ha Hd Hl k1 k2. destruct (tw_ctl_decode blk om Hb Ho') as (C1 & C2 & C3 & _).
  cbn [spi_run]. rewrite !NF. cbn [to_be spi_bytes spi_byte fst snd]. rewrite !NF.
  cbn [spi_run spi_bytes spi_byte fst snd]. rewrite C1, C2, C3, be_addr by assumption. rewrite ?NF.
  change (end_call (end_call s)) with (calls 2 s).
  destruct (om_len om) as [l|] eqn:El.
  2: { exfalso. destruct om as [|[[]|[]|]]; try discriminate; lia. }
  rewrite spi_fixed_read by auto. rewrite read_bytes_calls.
  destruct (read_bytes e blk a (length d) s) as [got s']. cbn [fst snd]. rewrite end_call_calls, calls_calls. reflexivity.
Qed.

(** number of chunks *)
Definition chunks (n : N) : N := n / 4 + (if n mod 4 =? 0 then 0 else if n mod 4 =? 3 then 2 else 1).

Definition tw_good (n : N) : Prop := n = 0 \/ n = 1 \/ n = 2 \/ n mod 4 = 0.

Lemma add_u16_spec checked a n :
  add_u16 checked a n = if checked && (65536 <=? a + n) then None else Some ((a + n) mod 65536).
Proof.
  unfold add_u16. destruct (N.ltb_spec (a + n) 65536), (N.leb_spec 65536 (a + n)); try lia;
    destruct checked; cbn [andb]; auto; now rewrite N.mod_small by lia.
Qed.

Lemma tw_chunk_spec n : 0 < n -> snd (tw_chunk n) = (if 4 <=? n then 4 else if 2 <=? n then 2 else 1) /\
  snd (tw_chunk n) <= n /\ 0 < fst (tw_chunk n) /\ fst (tw_chunk n) < 4.
Proof.
  intros H. unfold tw_chunk, FIXED_DATA_LENGTH_MODE_1, FIXED_DATA_LENGTH_MODE_2, FIXED_DATA_LENGTH_MODE_4.
  destruct (N.leb_spec 4 n); [cbn [fst snd]; lia|]. destruct (N.leb_spec 2 n); cbn [fst snd]; lia.
Qed.

(** the loops, one round *)
Lemma tw_read_loop_S checked fuel c a d :
  d <> [] ->
  tw_read_loop checked (S fuel) c a d =
  (let c' := N.lor c (fst (tw_chunk (len d))) in
   let n := snd (tw_chunk (len d)) in
   SWrite (to_be a) (fun r => match r with Err x => SRet (d, Err x) | Ok _ =>
   SWrite [u8 c'] (fun r => match r with Err x => SRet (d, Err x) | Ok _ =>
   STransfer (take n d) (fun gr => match snd gr with Err x => SRet (fst gr ++ drop n d, Err x) | Ok _ =>
     match add_u16 checked a n with
     | None => SPanic P_add_overflow
     | Some a' => sbind (tw_read_loop checked fuel c' a' (drop n d)) (fun rest => SRet (fst gr ++ fst rest, snd rest))
     end end) end) end)).
Proof. destruct d; [congruence|]. reflexivity. Qed.
Lemma tw_write_loop_S checked fuel c a d :
  d <> [] ->
  tw_write_loop checked (S fuel) c a d =
  (let c' := N.lor c (fst (tw_chunk (len d))) in
   let n := snd (tw_chunk (len d)) in
   SWrite (to_be a) (fun r => match r with Err x => SRet (Err x) | Ok _ =>
   SWrite [u8 c'] (fun r => match r with Err x => SRet (Err x) | Ok _ =>
   SWrite (take n d) (fun r => match r with Err x => SRet (Err x) | Ok _ =>
     match add_u16 checked a n with
     | None => SPanic P_add_overflow
     | Some a' => tw_write_loop checked fuel c' a' (drop n d)
     end end) end) end)).
Proof. destruct d; [congruence|]. reflexivity. Qed.

(** multiples of four, once the mode is 4 bytes; also 4-byte mode from the start *)
Lemma tw_read_quads e checked blk : no_faults e -> blk < 32 -> forall fuel om a d s,
  (length d <= fuel)%nat -> om = 0 \/ om = 3 -> len d mod 4 = 0 -> a < 65536 ->
  (checked = true -> a + len d < 65536 \/ d = []) ->
  exists c,
  spi_run e (tw_read_loop checked fuel (tw_ctl blk om) a d) (WaitHi, s) =
  let (got, s') := read_bytes e blk a (length d) s in (Done (got, Ok tt), (WaitHi, calls c s')).
Proof.
  intros NF Hb. induction fuel as [|fuel IH]; intros om a d s Hf Ho Hm Ha Hc.
  { destruct d; [|cbn in Hf; lia]. exists 0%nat. cbn. now destruct s. }
  destruct d as [|b d']. { exists 0%nat. cbn. now destruct s. }
  assert (Hd : b :: d' <> []) by discriminate. set (d := b :: d') in *.
  rewrite tw_read_loop_S by exact Hd. cbv zeta.
  assert (L4 : 4 <= len d). { assert (0 < len d) by (unfold d; rewrite len_cons; lia). clearbody d. lia. }
  assert (Ec : tw_chunk (len d) = (3, 4)). { unfold tw_chunk. destruct (N.leb_spec 4 (len d)); [reflexivity|lia]. }
  rewrite Ec. cbn [fst snd].
  assert (Hom : om < 4) by lia. destruct (tw_ctl_decode blk om Hb Hom) as (_ & _ & _ & C & _).
  destruct (C 3 ltac:(lia)) as [-> _]. replace (N.lor om 3) with 3 by (destruct Ho; subst; reflexivity).
  assert (Hl4 : len (take 4 d) = 4) by (rewrite len_take; lia).
  assert (Hn : take 4 d <> []) by (intros E; rewrite E in Hl4; discriminate).
  rewrite (tw_chunk_read e blk 3 a (take 4 d)) by (auto; try lia; intros l [= <-]; lia).
  rewrite Hl4. cbn [om_len N.eqb Pos.eqb].
  assert (Ed : d = take 4 d ++ drop 4 d) by (symmetry; apply take_drop).
  assert (El : length d = (length (take 4 d) + length (drop 4 d))%nat) by (rewrite Ed at 1; apply app_length).
  rewrite El, read_bytes_app. destruct (read_bytes e blk a (length (take 4 d)) s) as [g1 s1]. cbn [fst snd].
  rewrite add_u16_spec.
  assert (En : checked && (65536 <=? a + 4) = false).
  { destruct checked; [|reflexivity]. destruct (N.leb_spec 65536 (a + 4)); [|reflexivity].
    destruct (Hc eq_refl) as [?|E]; [lia|]. rewrite E in L4. cbn in L4. lia. }
  rewrite En. rewrite spi_run_bind.
  assert (Ld : len (drop 4 d) = len d - 4) by apply len_drop.
  destruct (IH 3 ((a + 4) mod 65536) (drop 4 d) (calls 3 s1)) as [c E]; auto.
  - unfold len in *. lia.
  - rewrite Ld. lia.
  - apply N.mod_lt. discriminate.
  - intros Ct. destruct (Hc Ct) as [?|E]; [|rewrite E in L4; cbn in L4; lia].
    left. rewrite Ld, N.mod_small by lia. lia.
  - rewrite E. rewrite addr_after_eq by assumption.
    replace (N.of_nat (length (take 4 d))) with 4 by (unfold len in Hl4; lia).
    rewrite read_bytes_calls. destruct (read_bytes e blk ((a + 4) mod 65536) (length (drop 4 d)) s1) as [g2 s2].
    cbn [spi_run fst snd]. exists (c + 3)%nat. now rewrite calls_calls.
Qed.

Theorem tw_read_good e checked blk a d s :
  no_faults e -> blk < 32 -> a < 65536 -> tw_good (len d) ->
  (checked = true -> a + len d < 65536 \/ d = []) ->
  exists c,
  spi_run e (tw_read_frame checked blk a d) (WaitHi, s) =
  let (got, s') := read_bytes e blk a (length d) s in (Done (got, Ok tt), (WaitHi, calls c s')).
Proof.
  intros NF Hb Ha Hg Hc. unfold tw_read_frame.
  destruct (tw_ctl_decode blk 0 Hb ltac:(lia)) as (_ & _ & _ & C & ->).
  destruct Hg as [H0|[H1|[H2|H4]]].
  - apply len_0_nil in H0 as ->. exists 0%nat. cbn. now destruct s.
  - destruct d as [|b [|b2 d]]; [discriminate| |unfold len in H1; cbn in H1; lia].
    cbn [length tw_read_loop]. change (tw_chunk (len [b])) with (1, 1). cbn [fst snd].
    destruct (C 1 ltac:(lia)) as [-> _]. change (N.lor 0 1) with 1. change (take 1 [b]) with [b]. change (drop 1 [b]) with (@nil byte).
    rewrite (tw_chunk_read e blk 1 a [b]); auto; try lia; try discriminate.
    2: { intros l [= <-]. cbn. lia. }
    change (length [b]) with 1%nat. destruct (read_bytes e blk a 1 s) as [g1 s1]. cbn [fst snd om_len]. rewrite add_u16_spec.
    assert (En : checked && (65536 <=? a + 1) = false).
    { destruct checked; [|reflexivity]. destruct (N.leb_spec 65536 (a + 1)); [|reflexivity].
      destruct (Hc eq_refl) as [?|E]; [|discriminate]. cbn in *. lia. }
    rewrite En. cbn. exists 3%nat. now rewrite app_nil_r.
  - destruct d as [|b [|b2 [|b3 d]]]; try discriminate; [|unfold len in H2; cbn in H2; lia].
    cbn [length tw_read_loop]. change (tw_chunk (len [b; b2])) with (2, 2). cbn [fst snd].
    destruct (C 2 ltac:(lia)) as [-> _]. change (N.lor 0 2) with 2. change (take 2 [b; b2]) with [b; b2].
    change (drop 2 [b; b2]) with (@nil byte).
    rewrite (tw_chunk_read e blk 2 a [b; b2]); auto; try lia; try discriminate.
    2: { intros l [= <-]. cbn. lia. }
    change (length [b; b2]) with 2%nat. destruct (read_bytes e blk a 2 s) as [g1 s1]. cbn [fst snd om_len]. rewrite add_u16_spec.
    assert (En : checked && (65536 <=? a + 2) = false).
    { destruct checked; [|reflexivity]. destruct (N.leb_spec 65536 (a + 2)); [|reflexivity].
      destruct (Hc eq_refl) as [?|E]; [|discriminate]. cbn in *. lia. }
    rewrite En. cbn. exists 3%nat. now rewrite app_nil_r.
  - eapply tw_read_quads; eauto.
Qed.

(** ** Panics and termination, whatever the link and the chip do *)
Lemma chunk_split (d : list byte) : d <> [] ->
  0 < len (take (snd (tw_chunk (len d))) d) /\ len (take (snd (tw_chunk (len d))) d) = snd (tw_chunk (len d)) /\
  (length (drop (snd (tw_chunk (len d))) d) < length d)%nat /\
  len d = snd (tw_chunk (len d)) + len (drop (snd (tw_chunk (len d))) d) /\
  (drop (snd (tw_chunk (len d))) d = [] -> len d = snd (tw_chunk (len d))).
Proof.
  intros Hd. assert (0 < len d) by (destruct d; [congruence|rewrite len_cons; lia]).
  destruct (tw_chunk_spec (len d) H) as (E & Hle & _). rewrite len_take, len_drop, length_drop.
  assert (0 < snd (tw_chunk (len d))) by (rewrite E; destruct (4 <=? len d), (2 <=? len d); lia).
  unfold len in *. split; [lia|]. split; [lia|]. split; [lia|]. split; [lia|].
  intros Hn. apply (f_equal (@length byte)) in Hn. rewrite length_drop in Hn. cbn in Hn. lia.
Qed.

Lemma tw_read_outcome e checked : forall fuel c a d x,
  (length d <= fuel)%nat -> a < 65536 ->
  match fst (spi_run e (tw_read_loop checked fuel c a d) x) with
  | Done gr => length (fst gr) = length d /\
      (no_faults e -> snd gr = Ok tt /\ (checked = true -> d <> [] -> a + len d < 65536))
  | Panicked w => w = P_add_overflow /\ checked = true /\ d <> [] /\ 65536 <= a + len d
  | _ => False
  end.
Proof.
  induction fuel as [|fuel IH]; intros c a d x Hf Ha.
  { destruct d; [|cbn in Hf; lia]. cbn. split; auto. intros _. split; auto. congruence. }
  destruct d as [|b d'] eqn:Ed. { cbn. split; auto. intros _. split; auto. congruence. }
  rewrite <- Ed in *. assert (Hd : d <> []) by congruence. clear Ed b d'.
  rewrite tw_read_loop_S by exact Hd. cbv zeta.
  destruct (chunk_split d Hd) as (H1 & H2 & H3 & H4 & H5).
  set (n := snd (tw_chunk (len d))) in *. set (c' := N.lor c (fst (tw_chunk (len d)))).
  cbn [spi_run]. destruct (fails e (s_call (snd x))) as [[k er]|] eqn:F1.
  { destruct (spi_bytes e (firstn k (to_be a)) x). cbn. split; auto. intros NF. rewrite NF in F1. discriminate. }
  destruct (spi_bytes e (to_be a) x) as [l1 x1]. cbn [fst snd spi_run].
  destruct (fails e (s_call (end_call (snd x1)))) as [[k er]|] eqn:F2.
  { destruct (spi_bytes e (firstn k [u8 c']) (fst x1, end_call (snd x1))). cbn. split; auto. intros NF. rewrite NF in F2. discriminate. }
  destruct (spi_bytes e [u8 c'] (fst x1, end_call (snd x1))) as [l2 x2]. cbn [fst snd spi_run].
  assert (LB : forall m y, length (fst (spi_bytes e m y)) = length m).
  { clear. induction m as [|b m IH]; intros y; cbn; [reflexivity|]. destruct (spi_byte e b y) as [b1 y1].
    specialize (IH y1). destruct (spi_bytes e m y1). cbn in *. lia. }
  assert (Ln : length (take n d) = N.to_nat n) by (unfold len in H2; lia).
  assert (Ld : (length d = N.to_nat n + length (drop n d))%nat) by (unfold len in H4; lia).
  destruct (fails e (s_call (end_call (snd x2)))) as [[k er]|] eqn:F3.
  { pose proof (LB (firstn k (take n d)) (fst x2, end_call (snd x2))) as L.
    destruct (spi_bytes e (firstn k (take n d)) (fst x2, end_call (snd x2))). cbn [fst snd spi_run] in *.
    split; [|intros NF; rewrite NF in F3; discriminate].
    rewrite !app_length, L, firstn_length, skipn_length. lia. }
  pose proof (LB (take n d) (fst x2, end_call (snd x2))) as L.
  destruct (spi_bytes e (take n d) (fst x2, end_call (snd x2))) as [l3 x3]. cbn [fst snd] in *.
  rewrite add_u16_spec. destruct checked eqn:Ck; cbn [andb].
  - destruct (N.leb_spec 65536 (a + n)) as [O|O].
    + cbn. split; [auto|]. split; [auto|]. split; [auto|lia].
    + rewrite N.mod_small by lia. rewrite spi_run_bind.
      specialize (IH c' (a + n) (drop n d) (fst x3, end_call (snd x3)) ltac:(lia) O).
      destruct (spi_run e (tw_read_loop true fuel c' (a + n) (drop n d)) (fst x3, end_call (snd x3))) as [[gr|w| |] y];
        cbn [fst snd spi_run] in *; auto.
      * destruct IH as [I1 I2]. split; [rewrite app_length; lia|]. intros NF. destruct (I2 NF) as [I3 I4].
        split; [exact I3|]. intros _ _. destruct (drop n d) eqn:Dn; [rewrite (H5 eq_refl); lia|].
        specialize (I4 eq_refl ltac:(discriminate)). lia.
      * destruct IH as (I1 & I2 & I3 & I4). split; auto. split; auto. split; auto. lia.
  - rewrite spi_run_bind.
    specialize (IH c' ((a + n) mod 65536) (drop n d) (fst x3, end_call (snd x3)) ltac:(lia) ltac:(apply N.mod_lt; discriminate)).
    destruct (spi_run e (tw_read_loop false fuel c' ((a + n) mod 65536) (drop n d)) (fst x3, end_call (snd x3))) as [[gr|w| |] y];
      cbn [fst snd spi_run] in *; auto.
    + destruct IH as [I1 I2]. split; [rewrite app_length; lia|]. intros NF. destruct (I2 NF) as [I3 I4].
      split; [exact I3|]. discriminate.
    + destruct IH as (I1 & I2 & I3 & I4). discriminate.
Qed.

Lemma tw_read_loop_no_spin e checked c a d x : a < 65536 ->
  fst (spi_run e (tw_read_loop checked (length d) c a d) x) <> Looping.
Proof.
  intros Ha E. pose proof (tw_read_outcome e checked (length d) c a d x (le_n _) Ha) as H. rewrite E in H. exact H.
Qed.

Lemma tw_write_outcome e checked : forall fuel c a d x,
  (length d <= fuel)%nat -> a < 65536 ->
  match fst (spi_run e (tw_write_loop checked fuel c a d) x) with
  | Done r => no_faults e -> r = Ok tt /\ (checked = true -> d <> [] -> a + len d < 65536)
  | Panicked w => w = P_add_overflow /\ checked = true /\ d <> [] /\ 65536 <= a + len d
  | _ => False
  end.
Proof.
  induction fuel as [|fuel IH]; intros c a d x Hf Ha.
  { destruct d; [|cbn in Hf; lia]. cbn. intros _. split; auto. congruence. }
  destruct d as [|b d'] eqn:Ed. { cbn. intros _. split; auto. congruence. }
  rewrite <- Ed in *. assert (Hd : d <> []) by congruence. clear Ed b d'.
  rewrite tw_write_loop_S by exact Hd. cbv zeta.
  destruct (chunk_split d Hd) as (H1 & H2 & H3 & H4 & H5).
  set (n := snd (tw_chunk (len d))) in *. set (c' := N.lor c (fst (tw_chunk (len d)))).
  cbn [spi_run]. destruct (fails e (s_call (snd x))) as [[k er]|] eqn:F1.
  { destruct (spi_bytes e (firstn k (to_be a)) x). cbn. intros NF. rewrite NF in F1. discriminate. }
  destruct (spi_bytes e (to_be a) x) as [l1 x1]. cbn [fst snd spi_run].
  destruct (fails e (s_call (end_call (snd x1)))) as [[k er]|] eqn:F2.
  { destruct (spi_bytes e (firstn k [u8 c']) (fst x1, end_call (snd x1))). cbn. intros NF. rewrite NF in F2. discriminate. }
  destruct (spi_bytes e [u8 c'] (fst x1, end_call (snd x1))) as [l2 x2]. cbn [fst snd spi_run].
  destruct (fails e (s_call (end_call (snd x2)))) as [[k er]|] eqn:F3.
  { destruct (spi_bytes e (firstn k (take n d)) (fst x2, end_call (snd x2))). cbn. intros NF. rewrite NF in F3. discriminate. }
  destruct (spi_bytes e (take n d) (fst x2, end_call (snd x2))) as [l3 x3]. cbn [fst snd] in *.
  rewrite add_u16_spec. destruct checked eqn:Ck; cbn [andb].
  - destruct (N.leb_spec 65536 (a + n)) as [O|O].
    + cbn. split; [auto|]. split; [auto|]. split; [auto|lia].
    + rewrite N.mod_small by lia.
      specialize (IH c' (a + n) (drop n d) (fst x3, end_call (snd x3)) ltac:(lia) O).
      destruct (spi_run e (tw_write_loop true fuel c' (a + n) (drop n d)) (fst x3, end_call (snd x3))) as [[gr|w| |] y];
        cbn [fst snd spi_run] in *; auto.
      * intros NF. destruct (IH NF) as [I3 I4].
        split; [exact I3|]. intros _ _. destruct (drop n d) eqn:Dn; [rewrite (H5 eq_refl); lia|].
        specialize (I4 eq_refl ltac:(discriminate)). lia.
      * destruct IH as (I1 & I2 & I3 & I4). split; auto. split; auto. split; auto. lia.
  - specialize (IH c' ((a + n) mod 65536) (drop n d) (fst x3, end_call (snd x3)) ltac:(lia) ltac:(apply N.mod_lt; discriminate)).
    destruct (spi_run e (tw_write_loop false fuel c' ((a + n) mod 65536) (drop n d)) (fst x3, end_call (snd x3))) as [[gr|w| |] y];
      cbn [fst snd spi_run] in *; auto.
    + intros NF. destruct (IH NF) as [I3 I4]. split; [exact I3|]. discriminate.
    + destruct IH as (I1 & I2 & I3 & I4). discriminate.
Qed.

(** ** The decoder alone *)
(** [qrun st m]: the decoder's state after the bytes [m], if none of them is stored *)
Definition dec1 (st : spi_state) (m : byte) : spi_state :=
  match st with
  | WaitHi => WaitLo m
  | WaitLo h => WaitCtl (b2n h * 256 + b2n m)
  | WaitCtl a => Data (ctl_block m) (ctl_write m) a (ctl_length m)
  | Data blk w a more => after_byte more (Data blk w (next_addr a))
  end.
Fixpoint qrun (st : spi_state) (m : list byte) : option spi_state :=
  match m with
  | [] => Some st
  | b :: m' => match st with Data _ true _ _ => None | _ => qrun (dec1 st b) m' end
  end.
(** nothing but the network acted on the chip between [s] and [s'] *)
Definition elapsed (e : env) (s s' : sys) : Prop :=
  (s_tick s <= s_tick s')%nat /\
  s_chip s' = nsteps (s_chip s) (flat_map (happens e) (seq (s_tick s) (s_tick s' - s_tick s))).

Lemma elapsed_refl e s : elapsed e s s.
Proof. split; [lia|]. rewrite Nat.sub_diag. reflexivity. Qed.
Lemma elapsed_trans e a b c : elapsed e a b -> elapsed e b c -> elapsed e a c.
Proof.
  intros [L1 E1] [L2 E2]. split; [lia|]. rewrite E2, E1. unfold nsteps. rewrite <- fold_left_app. f_equal.
  rewrite <- flat_map_app. f_equal.
  replace (s_tick c - s_tick a)%nat with ((s_tick b - s_tick a) + (s_tick c - s_tick b))%nat by lia.
  rewrite seq_app. do 2 f_equal. lia.
Qed.
Lemma elapsed_tick e s : elapsed e s (tick e s).
Proof.
  split; [cbn; lia|]. cbn [tick s_tick s_chip]. replace (S (s_tick s) - s_tick s)%nat with 1%nat by lia.
  cbn. now rewrite app_nil_r.
Qed.
Lemma elapsed_call e s s' : elapsed e s s' -> elapsed e s (end_call s').
Proof. intros H. exact H. Qed.

Lemma qrun_spi e : forall m st s st',
  qrun st m = Some st' ->
  let r := snd (spi_bytes e m (st, s)) in fst r = st' /\ elapsed e s (snd r).
Proof.
  induction m as [|b m IH]; intros st s st' H; cbn in H.
  - injection H as ->. cbn. split; [reflexivity|apply elapsed_refl].
  - destruct st as [|h|a|blk w a more]; cbn [spi_bytes spi_byte].
    1-3: cbn [dec1] in H;
         match goal with HH : forall st s st', qrun st _ = Some st' -> _ |- context [spi_bytes ?e ?m (?t, ?u)] =>
           specialize (HH t u _ H); cbv zeta in HH; destruct (spi_bytes e m (t, u)) as [l x]; exact HH end.
    destruct w; [discriminate|]. cbn [dec1] in H.
    match goal with |- context [spi_bytes e m (?t, ?u)] => specialize (IH t u _ H); cbn zeta in IH;
      destruct (spi_bytes e m (t, u)) as [l x] end.
    cbn [snd] in *. destruct IH as [I1 I2]. split; [exact I1|].
    eapply elapsed_trans; [apply elapsed_tick|exact I2].
Qed.
Lemma qrun_prefix : forall m st st' k, qrun st m = Some st' -> exists st2, qrun st (firstn k m) = Some st2.
Proof.
  induction m as [|b m IH]; intros st st' k H; [rewrite firstn_nil; eauto|].
  destruct k; [cbn; eauto|]. cbn [firstn qrun] in *. destruct st as [|h|a|blk [] a more]; try discriminate; eauto.
Qed.
Lemma qrun_data blk l : forall m a, len m <= l -> m <> [] ->
  qrun (Data blk false a (Some l)) m =
  Some (if len m =? l then WaitHi else Data blk false (addr_after (length m) a) (Some (l - len m))).
Proof.
  intros m. revert l. induction m as [|b m IH]; intros l a Hl Hm; [congruence|].
  rewrite len_cons in *. cbn [qrun dec1 after_byte]. destruct (N.leb_spec l 1) as [H|H].
  - assert (m = []) as -> by (apply len_0_nil; lia). cbn [qrun]. rewrite len_nil in *.
    destruct (N.eqb_spec (1 + 0) l); [reflexivity|lia].
  - destruct m as [|b' m].
    + cbn [qrun len length]. rewrite len_nil. destruct (N.eqb_spec (1 + 0) l); [lia|]. cbn [addr_after].
      do 3 f_equal; try lia.
    + rewrite IH by (try discriminate; lia).
      destruct (N.eqb_spec (len (b' :: m)) (l - 1)), (N.eqb_spec (1 + len (b' :: m)) l); try lia; [reflexivity|].
      cbn [length addr_after]. do 3 f_equal. lia.
Qed.

(** one quiet SpiBus write, failing or not *)
Lemma quiet_write {R} e (m : list byte) (k : res unit berr -> sprog R) st s st' (Q : spi_state * sys -> Prop) :
  qrun st m = Some st' ->
  (forall s1, elapsed e s s1 -> Q (snd (spi_run e (k (Ok tt)) (st', s1)))) ->
  (forall st1 s1 er, elapsed e s s1 -> Q (snd (spi_run e (k (Err er)) (st1, s1)))) ->
  Q (snd (spi_run e (SWrite m k) (st, s))).
Proof.
  intros H H1 H2. cbn [spi_run fst snd]. destruct (fails e (s_call s)) as [[b er]|].
  - destruct (qrun_prefix _ _ _ b H) as [st2 Hp]. pose proof (qrun_spi e _ _ s _ Hp) as X.
    destruct (spi_bytes e (firstn b m) (st, s)) as [l x]. cbn [snd fst] in *. apply H2, X.
  - pose proof (qrun_spi e _ _ s _ H) as X. destruct (spi_bytes e m (st, s)) as [l x]. cbn [snd fst] in *.
    destruct X as [-> X]. apply H1. exact X.
Qed.

Lemma qrun_addr st a : a < 65536 -> st = WaitHi -> qrun st (to_be a) = Some (WaitCtl a).
Proof. intros Ha ->. cbn. now rewrite be_addr. Qed.

Lemma qrun_ctl blk om a : blk < 32 -> om < 4 ->
  qrun (WaitCtl a) [u8 (tw_ctl blk om)] = Some (Data blk false a (om_len om)).
Proof.
  intros Hb Ho. destruct (tw_ctl_decode blk om Hb Ho) as (C1 & C2 & C3 & _). cbn. now rewrite C1, C2, C3.
Qed.

(** a ThreeWire write frame from an idle link stores nothing, ever *)
Lemma tw_write_quiet e checked blk : blk < 32 -> forall fuel om a d s st,
  (length d <= fuel)%nat -> a < 65536 -> (om = 2 \/ om = 3) ->
  (st = WaitHi \/ d = [] \/ (om = 3 /\ len d <= 1 /\ exists a', st = Data blk false a' (Some 2))) ->
  elapsed e s (snd (snd (spi_run e (tw_write_loop checked fuel (tw_ctl blk om) a d) (st, s)))).
Proof.
  intros Hb. induction fuel as [|fuel IH]; intros om a d s st Hf Ha Ho Hst.
  { destruct d; [|cbn in Hf; lia]. cbn. apply elapsed_refl. }
  destruct d as [|b d'] eqn:Ed. { cbn. apply elapsed_refl. }
  rewrite <- Ed in *. assert (Hd : d <> []) by congruence. clear Ed b d'.
  rewrite tw_write_loop_S by exact Hd. cbv zeta.
  destruct (chunk_split d Hd) as (H1 & H2 & H3 & H4 & H5).
  assert (Ln : 0 < len d) by lia.
  destruct (tw_chunk_spec (len d) Ln) as (E & Hle & Hm1 & Hm2).
  set (n := snd (tw_chunk (len d))) in *.
  assert (Ho4 : om < 4) by lia. destruct (tw_ctl_decode blk om Hb Ho4) as (_ & _ & _ & C & _).
  destruct (C _ Hm2) as [-> Hom]. set (om' := N.lor om (fst (tw_chunk (len d)))) in *.
  assert (Hom' : (om' = 3 \/ (om' = 2 /\ n = 2))).
  { subst om' n. unfold tw_chunk. destruct (4 <=? len d); [left; destruct Ho; subst; reflexivity|].
    destruct (2 <=? len d); destruct Ho; subst; cbn; auto. }
  assert (Hnn : take n d <> []) by (intros Z; rewrite Z in H1; cbn in H1; lia).
  destruct Hst as [->|[?|(-> & L1 & a' & ->)]]; [|contradiction|].
  - (* idle *)
    eapply (quiet_write e (to_be a) _ WaitHi s _ (fun y => elapsed e s (snd y))); [now apply qrun_addr| |intros; cbn; assumption].
    intros s1 E1. eapply (quiet_write e _ _ _ s1 _ (fun y => elapsed e s (snd y))); [now apply qrun_ctl| |].
    2: { intros; cbn. eapply elapsed_trans; eauto. }
    intros s2 E2.
    assert (Hl : exists l, om_len om' = Some l /\ n <= l /\ (n = l \/ (n <= 2 /\ l = 4))).
    { destruct Hom' as [->|[-> ->]]; [exists 4|exists 2]; (split; [reflexivity|]); [|lia].
      rewrite E. destruct (4 <=? len d), (2 <=? len d); lia. }
    destruct Hl as (l & El & Hl & Hnl). rewrite El.
    eapply (quiet_write e _ _ _ s2 _ (fun y => elapsed e s (snd y))); [apply qrun_data; [lia|exact Hnn]| |].
    2: { intros; cbn. eapply elapsed_trans; [|eauto]. eapply elapsed_trans; eauto. }
    intros s3 E3. assert (E13 : elapsed e s s3) by (eapply elapsed_trans; [|eauto]; eapply elapsed_trans; eauto).
    rewrite add_u16_spec. destruct (checked && (65536 <=? a + n)); [exact E13|].
    eapply elapsed_trans; [exact E13|]. apply IH; [lia|apply N.mod_lt; discriminate|lia|].
    rewrite H2. destruct (N.eqb_spec n l) as [_|Hne]; [left; reflexivity|right].
    destruct Hnl as [?|[Hn2 ->]]; [lia|].
    assert (L4 : len d < 4). { destruct (N.leb_spec 4 (len d)); [|lia]. rewrite E in Hn2. lia. }
    destruct (N.leb_spec 2 (len d)) as [L2|L2].
    + assert (N2 : n = 2). { rewrite E. destruct (N.leb_spec 4 (len d)); [lia|]. destruct (N.leb_spec 2 (len d)); lia. }
      right. split; [destruct Hom' as [?|[Z _]]; [assumption|rewrite Z in El; discriminate El]|].
      split; [lia|]. eexists. rewrite N2. reflexivity.
    + left. apply len_0_nil. lia.
  - (* two bytes of the previous fixed-length frame are still due *)
    assert (N1 : n = 1). { rewrite E. destruct (N.leb_spec 4 (len d)); [lia|]. destruct (N.leb_spec 2 (len d)); lia. }
    assert (Dn : drop n d = []) by (apply len_0_nil; lia).
    destruct (take n d) as [|b [|]] eqn:Et; try (rewrite ?len_cons, ?len_nil in H2; lia).
    eapply (quiet_write e (to_be a) _ _ s WaitHi (fun y => elapsed e s (snd y))); [reflexivity| |intros; cbn; assumption].
    intros s1 E1. eapply (quiet_write e _ _ _ s1 _ (fun y => elapsed e s (snd y))); [reflexivity| |].
    2: { intros; cbn. eapply elapsed_trans; eauto. }
    intros s2 E2. eapply (quiet_write e _ _ _ s2 _ (fun y => elapsed e s (snd y))); [reflexivity| |].
    2: { intros; cbn. eapply elapsed_trans; [|eauto]. eapply elapsed_trans; eauto. }
    intros s3 E3. assert (E13 : elapsed e s s3) by (eapply elapsed_trans; [|eauto]; eapply elapsed_trans; eauto).
    rewrite add_u16_spec. destruct (checked && (65536 <=? a + n)); [exact E13|]. rewrite Dn.
    eapply elapsed_trans; [exact E13|]. apply IH; [cbn; lia|apply N.mod_lt; discriminate|lia|auto].
Qed.

(** a read frame of any other length leaves the link in the middle of a frame *)
Lemma tw_read_bad e checked blk : no_faults e -> blk < 32 -> forall fuel om a d s,
  (length d <= fuel)%nat -> a < 65536 ->
  (om = 0 /\ ~ tw_good (len d)) \/ (om = 3 /\ len d mod 4 <> 0) ->
  (checked = true -> a + len d < 65536) ->
  fst (snd (spi_run e (tw_read_loop checked fuel (tw_ctl blk om) a d) (WaitHi, s))) <> WaitHi.
Proof.
  intros NF Hb. induction fuel as [|fuel IH]; intros om a d s Hf Ha Ho Hc.
  { destruct d; [|cbn in Hf; lia]. exfalso. destruct Ho as [[_ Z]|[_ Z]]; [apply Z; left; reflexivity|apply Z; reflexivity]. }
  assert (Hd : d <> []).
  { intros ->. destruct Ho as [[_ Z]|[_ Z]]; [apply Z; left; reflexivity|apply Z; reflexivity]. }
  rewrite tw_read_loop_S by exact Hd. cbv zeta.
  destruct (chunk_split d Hd) as (H1 & H2 & H3 & H4 & H5).
  assert (Ln : 0 < len d) by lia.
  destruct (tw_chunk_spec (len d) Ln) as (E & Hle & Hm1 & Hm2).
  set (n := snd (tw_chunk (len d))) in *.
  assert (Hnn : take n d <> []) by (intros Z; rewrite Z in H1; cbn in H1; lia).
  assert (Hov : checked && (65536 <=? a + n) = false).
  { destruct checked; [|reflexivity]. specialize (Hc eq_refl). destruct (N.leb_spec 65536 (a + n)); [lia|reflexivity]. }
  assert (Ho4 : om < 4) by lia. destruct (tw_ctl_decode blk om Hb Ho4) as (_ & _ & _ & C & _).
  destruct (C _ Hm2) as [-> Hom].
  destruct (N.leb_spec 4 (len d)) as [L4|L4].
  - (* four bytes, then more *)
    assert (N4 : n = 4) by exact E.
    assert (Om : N.lor om (fst (tw_chunk (len d))) = 3).
    { unfold tw_chunk. destruct (N.leb_spec 4 (len d)); [|lia]. destruct Ho as [[-> _]|[-> _]]; reflexivity. }
    rewrite Om. rewrite (tw_chunk_read e blk 3 a (take n d)) by (auto; try lia; intros l [= <-]; lia).
    destruct (read_bytes e blk a (length (take n d)) s) as [g s1]. cbn [om_len snd]. rewrite H2, N4. cbn [N.eqb Pos.eqb].
    rewrite add_u16_spec. rewrite N4 in Hov. rewrite Hov. rewrite spi_run_bind.
    specialize (IH 3 ((a + 4) mod 65536) (drop 4 d) (calls 3 s1)). rewrite N4 in *.
    match type of IH with ?A -> ?B -> ?C -> ?D -> _ => assert (IA : A) by lia; assert (IB : B) by (apply N.mod_lt; discriminate);
      assert (IC : C); [right; split; [reflexivity|]|assert (ID : D); [|specialize (IH IA IB IC ID)]] end.
    { destruct Ho as [[_ Z]|[_ Z]]; [|lia]. intros M. apply Z. right. right. right. lia. }
    { intros Ck. specialize (Hc Ck). rewrite N.mod_small; lia. }
    pose proof (tw_read_outcome e checked fuel (tw_ctl blk 3) ((a + 4) mod 65536) (drop 4 d) (WaitHi, calls 3 s1) IA IB) as O.
    destruct (spi_run e (tw_read_loop checked fuel (tw_ctl blk 3) ((a + 4) mod 65536) (drop 4 d)) (WaitHi, calls 3 s1)) as [[gr|w| |] y];
      cbn [fst snd spi_run] in *; try contradiction; exact IH.
  - destruct (N.leb_spec 2 (len d)) as [L2|L2].
    + assert (N2 : n = 2) by exact E.
      assert (Om : N.lor om (fst (tw_chunk (len d))) = (if om =? 0 then 2 else 3)).
      { unfold tw_chunk. destruct (N.leb_spec 4 (len d)); [lia|]. destruct (N.leb_spec 2 (len d)); [|lia].
        destruct Ho as [[-> _]|[-> _]]; reflexivity. }
      rewrite Om.
      destruct Ho as [[-> Z]|[-> Z]]; cbn [N.eqb Pos.eqb].
      * (* three bytes *)
        assert (L3 : len d = 3). { destruct (N.eq_dec (len d) 2); [|lia]. exfalso. apply Z. unfold tw_good. auto. }
        rewrite (tw_chunk_read e blk 2 a (take n d)) by (auto; try lia; intros l [= <-]; lia).
        destruct (read_bytes e blk a (length (take n d)) s) as [g s1]. cbn [om_len snd]. rewrite H2, N2. cbn [N.eqb Pos.eqb].
        rewrite add_u16_spec. rewrite N2 in *. rewrite Hov. rewrite spi_run_bind.
        assert (L1 : len (drop 2 d) = 1) by lia. destruct (drop 2 d) as [|b [|]]; try discriminate; [|rewrite !len_cons in L1; lia].
        destruct fuel as [|fuel']; [unfold len in L3; lia|].
        rewrite tw_read_loop_S by discriminate. cbv zeta. change (tw_chunk (len [b])) with (1, 1). cbn [fst snd].
        change (take 1 [b]) with [b]. change (drop 1 [b]) with (@nil byte).
        destruct (tw_ctl_decode blk 2 Hb ltac:(lia)) as (_ & _ & _ & C2 & _).
        destruct (C2 1 ltac:(lia)) as [-> _]. change (N.lor 2 1) with 3.
        rewrite (tw_chunk_read e blk 3 ((a + 2) mod 65536) [b]); auto; try lia; try discriminate;
          try (intros l [= <-]; cbn; lia); try (apply N.mod_lt; discriminate).
        destruct (read_bytes e blk ((a + 2) mod 65536) (length [b]) (calls 3 s1)) as [g2 s2]. cbn [om_len snd].
        rewrite add_u16_spec.
        assert (Hov2 : checked && (65536 <=? (a + 2) mod 65536 + 1) = false).
        { destruct checked; [|reflexivity]. specialize (Hc eq_refl). rewrite N.mod_small by lia.
          destruct (N.leb_spec 65536 (a + 2 + 1)); [lia|reflexivity]. }
        rewrite Hov2. destruct fuel'; cbn; discriminate.
      * (* two or three left over *)
        rewrite (tw_chunk_read e blk 3 a (take n d)) by (auto; try lia; intros l [= <-]; lia).
        destruct (read_bytes e blk a (length (take n d)) s) as [g s1]. cbn [om_len snd]. rewrite H2, N2. cbn [N.eqb Pos.eqb].
        rewrite add_u16_spec. rewrite N2 in *. rewrite Hov. rewrite spi_run_bind. change (4 - 2) with 2.
        destruct (N.eq_dec (len d) 2) as [L|L].
        -- assert (Dn : drop 2 d = []) by (apply len_0_nil; lia). rewrite Dn. destruct fuel; cbn; discriminate.
        -- assert (L1 : len (drop 2 d) = 1) by lia. destruct (drop 2 d) as [|b [|]]; try discriminate; [|rewrite !len_cons in L1; lia].
           destruct fuel as [|fuel']; [unfold len in L2; lia|].
           rewrite tw_read_loop_S by discriminate. cbv zeta. change (tw_chunk (len [b])) with (1, 1). cbn [fst snd].
           change (take 1 [b]) with [b]. change (drop 1 [b]) with (@nil byte).
           cbn [spi_run fst snd to_be spi_bytes spi_byte after_byte]. rewrite ?NF. cbn.
           rewrite ?NF. cbn. rewrite ?NF. cbn. rewrite add_u16_spec.
           assert (Hov2 : checked && (65536 <=? (a + 2) mod 65536 + 1) = false).
           { destruct checked; [|reflexivity]. specialize (Hc eq_refl). rewrite N.mod_small by lia.
             destruct (N.leb_spec 65536 (a + 2 + 1)); [lia|reflexivity]. }
           rewrite Hov2. destruct fuel'; cbn; discriminate.
    + (* one left over *)
      assert (N1 : n = 1) by exact E. assert (L1 : len d = 1) by lia.
      destruct Ho as [[-> Z]|[-> Z]]; [exfalso; apply Z; unfold tw_good; auto|].
      assert (Om : N.lor 3 (fst (tw_chunk (len d))) = 3) by (rewrite L1; reflexivity). rewrite Om.
      rewrite (tw_chunk_read e blk 3 a (take n d)) by (auto; try lia; intros l [= <-]; lia).
      destruct (read_bytes e blk a (length (take n d)) s) as [g s1]. cbn [om_len snd]. rewrite H2, N1. cbn [N.eqb Pos.eqb].
      rewrite add_u16_spec. rewrite N1 in *. rewrite Hov. rewrite spi_run_bind.
      assert (Dn : drop 1 d = []) by (apply len_0_nil; lia). rewrite Dn. destruct fuel; cbn; discriminate.
Qed.
