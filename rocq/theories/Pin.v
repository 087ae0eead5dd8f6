(** The interrupt pin of the W5500 (INTn).  Environment, not code in /repo: written from the
    datasheet's description of IR, IMR, SIMR and Sn_IMR.  The pin is what enable_interrupts,
    clear_interrupts and disable_interrupts (raw_device.rs:42-82) are for; the driver itself
    never looks at it. *)
From Verif Require Export Chip.
From Verif Require Import Datasheet.

(** the common interrupt register and its mask *)
Definition C_IR : N := 0x15.
Definition C_IMR : N := 0x16.
(** asserted: an unmasked bit of IR is up, or some socket with its SIMR bit set has a flag up
    in Sn_IR whose bit in Sn_IMR is set *)
Definition asserted (c : chip) : bool :=
  negb (N.land (b2n (com c C_IR)) (b2n (com c C_IMR)) =? 0)
  || existsb (fun n => N.testbit (b2n (com c SIMR)) n
                       && negb (N.land (ir (socks c n)) (b2n (regs (socks c n) Sn_IMR)) =? 0))
       [0; 1; 2; 3; 4; 5; 6; 7].
