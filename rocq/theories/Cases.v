(** Concrete chips and surroundings used in the examples and counterexamples that stand
    beside the theorems. *)
From Verif Require Export SpiChip History RawHistory.
From Verif Require Import Datasheet.

(** a bus that never fails and a network that stays silent *)
Definition quiet : env := mkEnv (fun _ => []) (fun _ => None).
(** the listed events happen before the given bytes *)
Definition script (l : list (nat * list nevent)) : env :=
  mkEnv (fun i => flat_map (fun p => if Nat.eqb (fst p) i then snd p else []) l) (fun _ => None).
(** as [e], but bus call [j] fails after [k] bytes *)
Definition with_fault (j k : nat) (e : env) : env :=
  mkEnv (happens e) (fun i => if Nat.eqb i j then Some (k, 7) else fails e i).

Lemma quiet_no_faults : no_faults quiet. Proof. intros j. reflexivity. Qed.
Lemma script_no_faults l : no_faults (script l). Proof. intros j. reflexivity. Qed.

(** a chip right after power-up; memory byte [a] holds [a mod 256] *)
Definition sock0 : sock :=
  mkSock regs_reset SOCK_CLOSED 0 0 0 0 false false 0 0 u8 u8 0 0 [] [] [].
Definition chip0 : chip := mkChip com_reset (fun _ => sock0).
Definition sys0 : sys := mkSys chip0 0 0.

Lemma run_case {A} (p : outcome A * sys) o (P : sys -> Prop) :
  fst p = o -> P (snd p) -> exists s', p = (o, s') /\ P s'.
Proof. destruct p as [o' s']. cbn. intros -> H. eauto. Qed.
Lemma run_snd {A} e (p : prog A) s o : fst (run e p s) = o -> run e p s = (o, snd (run e p s)).
Proof. destruct (run e p s). cbn. now intros ->. Qed.
