(** Machine integers and byte strings as used by the driver.
    [u8] values are Coq's 256-constructor type [Init.Byte.byte]; [u16] and [usize]
    values are unbounded [N]s on which the code's own wrap-around is written out. *)
From Coq Require Export NArith List Bool.
From Coq Require Export Init.Byte.
From Coq Require Strings.Byte.
Export ListNotations.
Open Scope N_scope.

(** numeric value of a byte ([b as u16], [u16::from(b)], ...) *)
Definition b2n (b : byte) : N := Strings.Byte.to_N b.

(** [n as u8]: truncation to the low eight bits *)
Definition u8 (n : N) : byte :=
  match Strings.Byte.of_N (n mod 256) with Some b => b | None => x00 end.

(** [u16::to_be_bytes] *)
Definition to_be (n : N) : list byte := [u8 (n / 256); u8 n].

(** [u16::from_be_bytes] (on the two-element arrays the code applies it to) *)
Definition from_be (l : list byte) : N := fold_left (fun acc b => acc * 256 + b2n b) l 0.

(** [n as u16] *)
Definition as_u16 (n : N) : N := n mod 65536.

(** [u16::wrapping_add] *)
Definition wadd16 (a b : N) : N := (a + b) mod 65536.

(** [u16::saturating_sub] (N subtraction already saturates at 0) *)
Definition ssub16 (a b : N) : N := a - b.

(** [data.len()] *)
Definition len {A} (l : list A) : N := N.of_nat (length l).

(** [&l[..n]] for [n <= l.len()]; the bound check (a panic in Rust) is made by the caller *)
Definition take {A} (n : N) (l : list A) : list A := firstn (N.to_nat n) l.
(** [&l[n..]] for [n <= l.len()] *)
Definition drop {A} (n : N) (l : list A) : list A := skipn (N.to_nat n) l.

(** [[0u8; n]] *)
Definition zeros (n : nat) : list byte := repeat x00 n.

(** [data[0]] of a one-element array *)
Definition byte0 (l : list byte) : byte := hd x00 l.

(** byte-string equality ([==] on [[u8; 2]]) *)
Fixpoint bytes_eqb (a b : list byte) : bool :=
  match a, b with
  | [], [] => true
  | x :: a', y :: b' => N.eqb (b2n x) (b2n y) && bytes_eqb a' b'
  | _, _ => false
  end.
