(** A program using two [Device]s of the same type.  Nothing in the types ties a socket
    handle to the device that issued it (device.rs:113-124, tcp.rs:42, udp.rs:63), so every
    call can be made on either device with any handle.

    Simplification: [prog] has one bus, so the bus accesses of both devices appear in one
    trace, in program order. *)
From Verif Require Export History.

Record app2 := mkApp2 {
  devs : bool -> DeviceState;
  handles2 : list (nat * handle);
  fresh2 : nat;
  issuer : nat -> bool          (* which device issued handle number h (history) *)
}.

(** one call on device [d]; same code as with one device *)
Definition step2 (fuel : nat) (a : app2) (d : bool) (o : op) : prog (app2 * out) :=
  do r <- step fuel (mkApp (devs a d) (handles2 a) (fresh2 a)) o ;;
  Ret (mkApp2 (fun b => if Bool.eqb b d then dev (fst r) else devs a b)
              (handles (fst r)) (fresh (fst r))
              (fun h => if Nat.eqb h (fresh2 a) then d else issuer a h), snd r).

Fixpoint run_ops2 (fuel : nat) (a : app2) (ops : list (bool * op)) : prog (app2 * list out) :=
  match ops with
  | [] => Ret (a, [])
  | (d, o) :: ops' =>
      do r <- step2 fuel a d o ;;
      do rs <- run_ops2 fuel (fst r) ops' ;;
      Ret (fst rs, snd r :: snd rs)
  end.

Definition app2_new (h1 h2 : host) : app2 :=
  mkApp2 (fun d => if d then ds_new h1 else ds_new h2) [] 0 (fun _ => true).
