(** Lemmas about bytes, byte strings and 16-bit arithmetic. *)
From Verif Require Export Bytes.
From Coq Require Export ZArith Lia ZifyBool ZifyNat ZifyN.
Open Scope N_scope.
From Coq Require Strings.Byte.
Ltac Zify.zify_post_hook ::= Z.div_mod_to_equations.

Lemma b2n_lt b : b2n b < 256.
Proof. destruct b; reflexivity. Qed.

Lemma u8_b2n b : u8 (b2n b) = b.
Proof. destruct b; reflexivity. Qed.

Lemma b2n_u8 n : b2n (u8 n) = n mod 256.
Proof.
  unfold u8, b2n.
  destruct (Strings.Byte.of_N (n mod 256)) eqn:E.
  - apply Strings.Byte.to_of_N in E. exact E.
  - apply Strings.Byte.of_N_None_iff in E.
    pose proof (N.mod_lt n 256). lia.
Qed.

Lemma b2n_inj a b : b2n a = b2n b -> a = b.
Proof. intros H. rewrite <- (u8_b2n a), <- (u8_b2n b), H. reflexivity. Qed.

Lemma u8_eq n m : n mod 256 = m mod 256 -> u8 n = u8 m.
Proof. intros H. apply b2n_inj. rewrite !b2n_u8. exact H. Qed.

Lemma from_be_2 x y : from_be [x; y] = b2n x * 256 + b2n y.
Proof. reflexivity. Qed.

Lemma from_be_to_be n : n < 65536 -> from_be (to_be n) = n.
Proof.
  intros H. unfold to_be. rewrite from_be_2, !b2n_u8. lia.
Qed.

Lemma to_be_from_be x y : to_be (from_be [x; y]) = [x; y].
Proof.
  rewrite from_be_2. unfold to_be.
  pose proof (b2n_lt x). pose proof (b2n_lt y).
  f_equal; [|f_equal]; apply b2n_inj; rewrite b2n_u8; lia.
Qed.

Lemma from_be_lt l : length l = 2%nat -> from_be l < 65536.
Proof.
  destruct l as [|x [|y [|]]]; try discriminate. intros _. rewrite from_be_2.
  pose proof (b2n_lt x). pose proof (b2n_lt y). lia.
Qed.

Lemma to_be_inj n m : n < 65536 -> m < 65536 -> to_be n = to_be m -> n = m.
Proof. intros Hn Hm H. rewrite <- (from_be_to_be n), <- (from_be_to_be m), H by assumption. reflexivity. Qed.

Lemma length_to_be n : length (to_be n) = 2%nat.
Proof. reflexivity. Qed.

Lemma bytes_eqb_eq a b : bytes_eqb a b = true <-> a = b.
Proof.
  revert b. induction a as [|x a IH]; intros [|y b]; cbn; try (split; congruence || easy).
  rewrite andb_true_iff, N.eqb_eq, IH. split.
  - intros [H ->]. apply b2n_inj in H. congruence.
  - intros [= -> ->]. auto.
Qed.
Lemma bytes_eqb_refl a : bytes_eqb a a = true.
Proof. apply bytes_eqb_eq. reflexivity. Qed.
Lemma bytes_eqb_neq a b : bytes_eqb a b = false <-> a <> b.
Proof. rewrite <- bytes_eqb_eq. destruct (bytes_eqb a b); split; congruence. Qed.

Lemma len_nil {A} : len (@nil A) = 0.
Proof. reflexivity. Qed.
Lemma len_cons {A} (x : A) l : len (x :: l) = 1 + len l.
Proof. unfold len. cbn [length]. lia. Qed.
Lemma len_app {A} (a b : list A) : len (a ++ b) = len a + len b.
Proof. unfold len. rewrite app_length. lia. Qed.
Lemma len_0_nil {A} (l : list A) : len l = 0 -> l = [].
Proof. destruct l; [reflexivity|]. rewrite len_cons. lia. Qed.
Lemma len_nat {A} (l : list A) : N.to_nat (len l) = length l.
Proof. unfold len. lia. Qed.
Lemma len_take {A} n (l : list A) : len (take n l) = N.min n (len l).
Proof. unfold len, take. rewrite firstn_length. lia. Qed.
Lemma len_drop {A} n (l : list A) : len (drop n l) = len l - n.
Proof. unfold len, drop. rewrite skipn_length. lia. Qed.
Lemma length_take {A} n (l : list A) : length (take n l) = Nat.min (N.to_nat n) (length l).
Proof. unfold take. apply firstn_length. Qed.
Lemma length_drop {A} n (l : list A) : length (drop n l) = (length l - N.to_nat n)%nat.
Proof. unfold drop. apply skipn_length. Qed.
Lemma take_drop {A} n (l : list A) : take n l ++ drop n l = l.
Proof. apply firstn_skipn. Qed.
Lemma take_all {A} n (l : list A) : len l <= n -> take n l = l.
Proof. intros H. apply firstn_all2. unfold len in H. lia. Qed.
Lemma take_len {A} (l : list A) : take (len l) l = l.
Proof. apply take_all. lia. Qed.
Lemma drop_all {A} n (l : list A) : len l <= n -> drop n l = [].
Proof. intros H. apply skipn_all2. unfold len in H. lia. Qed.
Lemma take_0 {A} (l : list A) : take 0 l = [].
Proof. reflexivity. Qed.
Lemma drop_0 {A} (l : list A) : drop 0 l = l.
Proof. reflexivity. Qed.
Lemma take_app_le {A} n (a b : list A) : n <= len a -> take n (a ++ b) = take n a.
Proof.
  intros H. unfold take, len in *. rewrite firstn_app. replace (N.to_nat n - length a)%nat with 0%nat by lia.
  rewrite firstn_O. apply app_nil_r.
Qed.
Lemma drop_app_le {A} n (a b : list A) : n <= len a -> drop n (a ++ b) = drop n a ++ b.
Proof.
  intros H. unfold drop, len in *. rewrite skipn_app. replace (N.to_nat n - length a)%nat with 0%nat by lia. reflexivity.
Qed.
Lemma take_app_exact {A} (a b : list A) : take (len a) (a ++ b) = a.
Proof.
  unfold take. rewrite len_nat.
  rewrite firstn_app, firstn_all, Nat.sub_diag. cbn. apply app_nil_r.
Qed.
Lemma drop_app_exact {A} (a b : list A) : drop (len a) (a ++ b) = b.
Proof.
  unfold drop. rewrite len_nat.
  rewrite skipn_app, skipn_all, Nat.sub_diag. reflexivity.
Qed.
Lemma drop_drop {A} n m (l : list A) : drop n (drop m l) = drop (m + n) l.
Proof.
  unfold drop. rewrite N2Nat.inj_add. generalize (N.to_nat m) as a. generalize (N.to_nat n) as b.
  intros b a. revert l. induction a as [|a IH]; intros l; [reflexivity|].
  destruct l; cbn [Nat.add skipn]. { now rewrite skipn_nil. } apply IH.
Qed.
Lemma take_plus {A} n m (l : list A) : take (n + m) l = take n l ++ take m (drop n l).
Proof.
  unfold take, drop. rewrite N2Nat.inj_add. generalize (N.to_nat n) as a. generalize (N.to_nat m) as b.
  intros b a. revert l. induction a as [|a IH]; intros l; [reflexivity|].
  destruct l; cbn [Nat.add firstn skipn app]. { now rewrite firstn_nil. } now rewrite IH.
Qed.

Lemma octet_cases (P : byte -> bool) :
  forallb P (map (fun n => u8 (N.of_nat n)) (seq 0 256)) = true -> forall b, P b = true.
Proof.
  intros H b. rewrite forallb_forall in H. apply H.
  apply in_map_iff. exists (N.to_nat (b2n b)). split.
  - rewrite N2Nat.id. apply u8_b2n.
  - apply in_seq. pose proof (b2n_lt b). lia.
Qed.
