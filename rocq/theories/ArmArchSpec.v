(** The registers, from the manuals of ARM. *)
From Verif Require Import Base.

(** The bits [lo] to [lo + n - 1] of a register *)
Definition field (lo n r : Z) : Z := r / 2 ^ lo mod 2 ^ n.
(** Number of the active exception, 0 in thread mode: VECTACTIVE, bits 8 to 0 of the ICSR (ARMv7-M and ARMv8-M) *)
Definition exception (icsr : Z) : Z := field 0 9 icsr.

(** Modes of ARMv7-A and -R, table B1-1 of the manual *)
Inductive mode := User | Fiq | Irq | Supervisor | Monitor | Abort | Hyp | Undefined | System.
Definition mode_bits (m : mode) : Z :=
  match m with User => 16 | Fiq => 17 | Irq => 18 | Supervisor => 19 | Monitor => 22 | Abort => 23 | Hyp => 26 | Undefined => 27 | System => 31 end.
Definition in_mode (cpsr : Z) (m : mode) : Prop := field 0 5 cpsr = mode_bits m.
(** The modes an interrupt is taken to *)
Definition interrupt_mode (m : mode) : Prop := m = Fiq \/ m = Irq.
(** The modes entered by an exception of any kind *)
Definition exception_mode (m : mode) : Prop := m <> User /\ m <> System.
