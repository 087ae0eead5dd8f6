(** What a driver computation can do when nothing at all is assumed about the bus: every
    call may answer any bytes, and may fail with any error, at any time; and the
    computation may be cut off (power loss, panic elsewhere) between any two bus calls. *)
From Verif Require Export Bus.

Inductive event : Type :=
| ERead (blk addr : N) (got : list byte) (r : res unit berr)
    (* read_frame(blk, addr, buf): the buffer now holds [got] *)
| EWrite (blk addr : N) (data : list byte) (r : res unit berr).

Inductive outcome (A : Type) : Type :=
| Done (a : A)            (* returned [a] *)
| Panicked (w : site)
| Looping                 (* busy-waiting: a loop went round as often as the fuel allows *)
| Cut.                    (* interrupted before it finished *)
Arguments Done {A} a.
Arguments Panicked {A} w.
Arguments Looping {A}.
Arguments Cut {A}.

(** [exec p tr o]: [p] may perform exactly the bus calls [tr], in that order, and be in
    situation [o] after them. *)
Inductive exec {A : Type} : prog A -> list event -> outcome A -> Prop :=
| exec_cut p : exec p [] Cut
| exec_ret a : exec (Ret a) [] (Done a)
| exec_panic w : exec (Panic w) [] (Panicked w)
| exec_spin : exec Spin [] Looping
| exec_read blk addr buf k got r tr o :
    length got = length buf ->
    exec (k (got, r)) tr o ->
    exec (BusRead blk addr buf k) (ERead blk addr got r :: tr) o
| exec_write blk addr data k r tr o :
    exec (k r) tr o ->
    exec (BusWrite blk addr data k) (EWrite blk addr data r :: tr) o.

Definition ev_block (e : event) : N :=
  match e with ERead b _ _ _ => b | EWrite b _ _ _ => b end.
Definition ev_result (e : event) : res unit berr :=
  match e with ERead _ _ _ r => r | EWrite _ _ _ r => r end.
Definition is_write (e : event) : bool :=
  match e with ERead _ _ _ _ => false | EWrite _ _ _ _ => true end.
