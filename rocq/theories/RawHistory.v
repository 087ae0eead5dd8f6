(** A program using one [RawDevice]: any sequence of calls of its public API
    (raw_device.rs:49-140). *)
From Verif Require Export Uninit History.

Inductive rawop :=
| RwEnable (which : byte) | RwClear | RwDisable
| RwRead (frame : list byte) | RwWrite (frame : list byte).

Inductive rawout :=
| RwUnit (r : res unit berr)
| RwFrame (frame : list byte) (r : res N berr)
| RwSent (r : res N berr).

Definition raw_step (fuel : nat) (d : RawDevice) (o : rawop) : prog rawout :=
  match o with
  | RwEnable w => do r <- raw_enable_interrupts d w ;; Ret (RwUnit r)
  | RwClear => do r <- raw_clear_interrupts d ;; Ret (RwUnit r)
  | RwDisable => do r <- raw_disable_interrupts d ;; Ret (RwUnit r)
  | RwRead f => do r <- raw_read_frame fuel d f ;; Ret (RwFrame (fst r) (snd r))
  | RwWrite f => do r <- raw_write_frame fuel d f ;; Ret (RwSent r)
  end.

Fixpoint run_raw (fuel : nat) (d : RawDevice) (ops : list rawop) : prog (list rawout) :=
  match ops with
  | [] => Ret []
  | o :: ops' =>
      do r <- raw_step fuel d o ;;
      do rs <- run_raw fuel d ops' ;;
      Ret (r :: rs)
  end.

(** From an UninitializedDevice to the end of a program: one of the initialize functions
    (uninitialized_device.rs:54-119), then any calls. *)
Definition device_program (assertion : bool) (h : host) (m : Mode) (fuel : nat) (ops : list op)
  : prog (res (app * list out) InitializeError) :=
  try d <- initialize_with_host assertion h m else Err ;;
  do x <- run_ops fuel (mkApp d [] 0) ops ;; Ret (Ok x).
Definition macraw_program (mc : mac) (fuel : nat) (ops : list rawop)
  : prog (res (list rawout) InitializeError) :=
  try d <- initialize_macraw mc else Err ;;
  do x <- run_raw fuel d ops ;; Ret (Ok x).
