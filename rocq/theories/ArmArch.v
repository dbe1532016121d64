(** Registers of ARM cores the SDK reads and writes itself.
    components/core/src/arch_arm_cortex_m.c:14-43 (M)
    components/panics/src/memfault_fault_handling_armv7_a_r.c:43-62 (A) *)
From Verif Require Import Base.

(** memfault_arch_is_inside_isr of Cortex-M, M:14-20; [icsr]: what is read at 0xE000ED04 *)
Definition m_inside_isr (icsr : Z) : bool := negb (Z.land icsr 255 =? 0).

(** memfault_arch_disable_configurable_faults, M:22-28: the register at 0xE000ED24 afterwards; the
    complement is taken in 32 bits *)
Definition m_disable_faults (shcsr : Z) : Z := Z.land shcsr (4294967295 - 983040).

(** memfault_platform_halt_if_debugging, M:30-43: whether there is a breakpoint; [dhcsr]: what is read at
    0xE000EDF0 *)
Definition m_halts (dhcsr : Z) : bool := negb (Z.land dhcsr 1 =? 0).

(** memfault_arch_is_inside_isr of ARMv7-A and -R, A:43-62 *)
Definition a_inside_isr (cpsr : Z) : bool :=
  let mode := Z.land cpsr 31 in
  negb ((mode =? 16) || (mode =? 31) || (mode =? 19)).
