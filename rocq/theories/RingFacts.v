(** Ring buffers and 16-bit pointers. *)
From Verif Require Export Chip BytesFacts.
From Verif Require Import Datasheet.

(** the buffer sizes the chip supports *)
Definition valid_size (z : N) : Prop :=
  z = 1024 \/ z = 2048 \/ z = 4096 \/ z = 8192 \/ z = 16384.

Lemma valid_pos z : valid_size z -> z <> 0.
Proof. unfold valid_size. lia. Qed.
Lemma valid_le z : valid_size z -> z <= 16384.
Proof. unfold valid_size. lia. Qed.
Lemma valid_div z : valid_size z -> exists k, 65536 = k * z.
Proof.
  intros [->|[->|[->|[->| ->]]]]; [exists 64|exists 32|exists 16|exists 8|exists 4]; reflexivity.
Qed.
Lemma mod_wrap z a : valid_size z -> (a mod 65536) mod z = a mod z.
Proof.
  intros H. destruct (valid_div z H) as [k Hk]. pose proof (valid_pos z H).
  rewrite (N.div_mod a 65536) at 2 by discriminate.
  set (q := a / 65536).
  assert (E : 65536 * q = (k * q) * z) by (rewrite Hk at 1; ring). rewrite E.
  rewrite N.add_comm, N.mod_add by assumption. reflexivity.
Qed.
Lemma mod_add_wrap z a b : valid_size z -> (a mod 65536 + b) mod z = (a + b) mod z.
Proof.
  intros H. pose proof (valid_pos z H).
  rewrite <- (N.add_mod_idemp_l (a mod 65536)) by assumption.
  rewrite mod_wrap by assumption. now rewrite N.add_mod_idemp_l.
Qed.

Lemma sub16_lt a b : sub16 a b < 65536.
Proof. unfold sub16. apply N.mod_lt. discriminate. Qed.
Lemma sub16_cases a b : a < 65536 -> b < 65536 ->
  (b <= a /\ sub16 a b = a - b) \/ (a < b /\ sub16 a b = a + 65536 - b).
Proof.
  intros Ha Hb. unfold sub16. destruct (N.le_gt_cases b a) as [H|H]; [left|right]; (split; [exact H|]).
  - replace (a + 65536 - b) with (a - b + 1 * 65536) by lia. rewrite N.mod_add by discriminate. apply N.mod_small. lia.
  - apply N.mod_small. lia.
Qed.
Lemma sub16_chain a b c : a < 65536 -> b < 65536 -> c < 65536 ->
  sub16 a b + sub16 b c < 65536 -> sub16 a c = sub16 a b + sub16 b c.
Proof.
  intros Ha Hb Hc H. destruct (sub16_cases a b Ha Hb) as [[? E1]|[? E1]], (sub16_cases b c Hb Hc) as [[? E2]|[? E2]],
    (sub16_cases a c Ha Hc) as [[? E3]|[? E3]]; lia.
Qed.
Lemma sub16_self a : a < 65536 -> sub16 a a = 0.
Proof. intros H. unfold sub16. replace (a + 65536 - a) with 65536 by lia. reflexivity. Qed.
Lemma sub16_add a n : a < 65536 -> n < 65536 -> sub16 ((a + n) mod 65536) a = n.
Proof. intros. unfold sub16. lia. Qed.
Lemma add_sub16 a b : a < 65536 -> b < 65536 -> (b + sub16 a b) mod 65536 = a.
Proof. intros. unfold sub16. lia. Qed.
(** moving the front pointer *)
Lemma sub16_advance a b n : a < 65536 -> b < 65536 -> sub16 a b + n < 65536 ->
  sub16 ((a + n) mod 65536) b = sub16 a b + n.
Proof. intros. unfold sub16 in *. lia. Qed.
(** moving the back pointer *)
Lemma sub16_retire a b n : a < 65536 -> b < 65536 -> n <= sub16 a b ->
  sub16 a ((b + n) mod 65536) = sub16 a b - n.
Proof. intros. unfold sub16 in *. lia. Qed.

Lemma ring_read_map m z : forall n a,
  ring_read m z a n = map (fun j => m ((a + N.of_nat j) mod z)) (seq 0 n).
Proof.
  induction n as [|n IH]; intros a; [reflexivity|].
  cbn [ring_read seq map]. f_equal; [do 2 f_equal; lia|].
  rewrite IH, <- seq_shift, map_map. apply map_ext. intros j. do 2 f_equal. lia.
Qed.
Lemma ring_read_length m z a n : length (ring_read m z a n) = n.
Proof. now rewrite ring_read_map, map_length, seq_length. Qed.
Lemma nth_ring_read m z d : forall n a j, (j < n)%nat ->
  nth j (ring_read m z a n) d = m ((a + N.of_nat j) mod z).
Proof.
  induction n as [|n IH]; intros a j Hj; [lia|]. cbn [ring_read]. destruct j as [|j]; cbn [nth].
  - do 2 f_equal. lia.
  - rewrite IH by lia. do 2 f_equal. lia.
Qed.
Lemma ring_read_app m z n : forall k a,
  ring_read m z a (n + k) = ring_read m z a n ++ ring_read m z (a + N.of_nat n) k.
Proof.
  induction n as [|n IH]; intros k a; cbn [ring_read app plus].
  - f_equal. lia.
  - f_equal. rewrite IH. do 2 f_equal. lia.
Qed.
Lemma ring_read_ext m m' z a n :
  (forall j, N.of_nat j < N.of_nat n -> m ((a + N.of_nat j) mod z) = m' ((a + N.of_nat j) mod z)) ->
  ring_read m z a n = ring_read m' z a n.
Proof.
  intros H. rewrite !ring_read_map. apply map_ext_in. intros j Hj. apply in_seq in Hj. apply H. lia.
Qed.
Lemma ring_read_at m z a b n : z <> 0 -> a mod z = b mod z -> ring_read m z a n = ring_read m z b n.
Proof.
  intros Hz H. rewrite !ring_read_map. apply map_ext. intros j.
  rewrite <- (N.add_mod_idemp_l a), H, N.add_mod_idemp_l by assumption. reflexivity.
Qed.
Lemma ring_read_wrap m z a n : valid_size z -> ring_read m z (a mod 65536) n = ring_read m z a n.
Proof. intros H. apply ring_read_at; [now apply valid_pos|now apply mod_wrap]. Qed.
Lemma ring_read_wrap_add m z a k n : valid_size z ->
  ring_read m z (a mod 65536 + k) n = ring_read m z (a + k) n.
Proof. intros H. apply ring_read_at; [now apply valid_pos|now apply mod_add_wrap]. Qed.
Lemma firstn_ring_read m z a n k : (k <= n)%nat -> firstn k (ring_read m z a n) = ring_read m z a k.
Proof.
  intros H. replace n with (k + (n - k))%nat by lia. rewrite ring_read_app.
  pose proof (ring_read_length m z a k) as L. set (r := ring_read m z a k) in *.
  rewrite <- L at 1. now rewrite firstn_app, firstn_all, Nat.sub_diag, firstn_O, app_nil_r.
Qed.
Lemma skipn_ring_read m z a n k : (k <= n)%nat ->
  skipn k (ring_read m z a n) = ring_read m z (a + N.of_nat k) (n - k).
Proof.
  intros H. replace n with (k + (n - k))%nat at 1 by lia. rewrite ring_read_app.
  pose proof (ring_read_length m z a k) as L. set (r := ring_read m z a k) in *.
  rewrite <- L at 1. now rewrite skipn_app, skipn_all, Nat.sub_diag.
Qed.

(** distinct offsets within one ring size stay distinct *)
Lemma mod_inj_window z a b n : z <> 0 -> a <= b < a + z -> n = b - a -> n <> 0 -> a mod z <> b mod z.
Proof.
  intros Hz H -> Hn E.
  assert (D : (b - a) mod z = 0).
  { pose proof (N.div_mod a z Hz). pose proof (N.div_mod b z Hz).
    assert (Ed : b - a = z * (b / z - a / z)).
    { assert (a / z <= b / z) by (apply N.div_le_mono; lia).
      rewrite N.mul_sub_distr_l. lia. }
    rewrite Ed, N.mul_comm. apply N.mod_mul. exact Hz. }
  rewrite N.mod_small in D by lia. lia.
Qed.

Lemma ring_write_other m z : forall l a x,
  (forall j, N.of_nat j < len l -> x <> (a + N.of_nat j) mod z) -> ring_write m z a l x = m x.
Proof.
  intros l. revert m. induction l as [|b l IH]; intros m a x H; [reflexivity|].
  cbn [ring_write]. rewrite IH.
  - unfold upd. destruct (N.eqb_spec x (a mod z)) as [E|_]; [|reflexivity].
    exfalso. apply (H 0%nat); [rewrite len_cons; lia|]. now rewrite N.add_0_r.
  - intros j Hj. specialize (H (S j)). rewrite len_cons in H.
    replace (a + 1 + N.of_nat j) with (a + N.of_nat (S j)) by lia. apply H. lia.
Qed.
Lemma ring_write_at m z : forall l a j, z <> 0 -> len l <= z -> N.of_nat j < len l ->
  ring_write m z a l ((a + N.of_nat j) mod z) = nth j l x00.
Proof.
  intros l. revert m. induction l as [|b l IH]; intros m a j Hz Hl Hj; [unfold len in Hj; cbn in Hj; lia|].
  cbn [ring_write]. rewrite len_cons in *. destruct j as [|j].
  - change (N.of_nat 0) with 0. rewrite N.add_0_r. rewrite ring_write_other.
    + unfold upd. rewrite N.eqb_refl. reflexivity.
    + intros j Hj'. apply (mod_inj_window z a (a + 1 + N.of_nat j) (1 + N.of_nat j)); lia.
  - replace (a + N.of_nat (S j)) with (a + 1 + N.of_nat j) by lia. cbn [nth]. apply IH; lia.
Qed.
Lemma ring_read_write_same m z a l : z <> 0 -> len l <= z ->
  ring_read (ring_write m z a l) z a (length l) = l.
Proof.
  intros Hz Hl. apply nth_ext with (d := x00) (d' := x00); rewrite ring_read_length; [reflexivity|].
  intros j Hj. rewrite nth_ring_read by assumption. apply ring_write_at; auto. unfold len. lia.
Qed.
Lemma ring_read_write_before m z a b n l : z <> 0 ->
  N.of_nat n <= a - b -> b <= a -> a - b + len l <= z ->
  ring_read (ring_write m z a l) z b n = ring_read m z b n.
Proof.
  intros Hz H1 H2 H3. apply ring_read_ext. intros j Hj. apply ring_write_other. intros k Hk.
  apply (mod_inj_window z _ _ (a + N.of_nat k - (b + N.of_nat j))); lia.
Qed.
Lemma ring_write_wrap m z a l : valid_size z -> ring_write m z (a mod 65536) l = ring_write m z a l.
Proof.
  intros H. pose proof (valid_pos z H). revert m.
  assert (G : forall l m x y, x mod z = y mod z -> ring_write m z x l = ring_write m z y l).
  { induction l0 as [|b l0 IH]; intros m x y E; [reflexivity|]. cbn [ring_write]. rewrite E. apply IH.
    rewrite <- (N.add_mod_idemp_l x), E, N.add_mod_idemp_l by assumption. reflexivity. }
  intros m. apply G. now apply mod_wrap.
Qed.
Lemma ring_write_snoc m z : forall l a b,
  ring_write m z a (l ++ [b]) = upd (ring_write m z a l) ((a + len l) mod z) b.
Proof.
  intros l. revert m. induction l as [|x l IH]; intros m a b; cbn [app ring_write].
  - change (len []) with 0. now rewrite N.add_0_r.
  - rewrite IH, len_cons. do 2 f_equal. lia.
Qed.
