(** What a crash is, and what the hardware does on an exception: ARMv7-M Architecture Reference Manual
    B1.5.6-B1.5.8 (PushStack, ExceptionTaken) and ARMv7-A/R Architecture Reference Manual B1.8.3 with
    table B1-7 (quoted at memfault_fault_handling_armv7_a_r.c:290-303). *)
From Verif Require Import Base FaultShim.

(** ** Cortex-M *)
(** The processor at the crash.  [k_handler]: in handler mode (in which msp is used); otherwise
    [k_spsel] selects psp.  [k_fp]: floating point registers are in use (CONTROL.FPCA); [k_align]:
    CCR.STKALIGN. *)
Record cm_crash := mk_crash {
  k_r : Z -> Z; k_lr : Z; k_pc : Z; k_xpsr : Z; k_msp : Z; k_psp : Z;
  k_handler : bool; k_spsel : bool; k_fp : bool; k_align : bool; k_mem : mem }.
Definition uses_psp (k : cm_crash) : bool := k_spsel k && negb (k_handler k).
Definition k_sp (k : cm_crash) : Z := if uses_psp k then k_psp k else k_msp k.
Definition framesize (k : cm_crash) : Z := if k_fp k then 0x68 else 0x20.
Definition forcealign (k : cm_crash) : bool := k_fp k || k_align k.
(** frameptralign = SP<2> AND forcealign;  SP = (SP - framesize) AND NOT(forcealign:'00') *)
Definition frameptralign (k : cm_crash) : bool := Z.testbit (k_sp k) 2 && forcealign k.
Definition frameptr (k : cm_crash) : Z :=
  Z.land (k_sp k - framesize k) (if forcealign k then Z.lnot 4 else Z.lnot 0).
(** xPSR<31:10> : frameptralign : xPSR<8:0> *)
Definition stacked_psr (k : cm_crash) : Z :=
  k_xpsr k / 1024 * 1024 + (if frameptralign k then 512 else 0) + k_xpsr k mod 512.
Definition exc_return (k : cm_crash) : Z :=
  (if k_handler k then 0xFFFFFFF1 else if k_spsel k then 0xFFFFFFFD else 0xFFFFFFF9) - (if k_fp k then 0x10 else 0).
(** The frame: r0-r3, r12, lr, the return address, xPSR; then (with floating point) 18 more words,
    which may be anything.  After it the handler runs, in handler mode; r0-r3, r12 and the flags may
    be anything. *)
Definition frame_words (k : cm_crash) : list Z :=
  [k_r k 0; k_r k 1; k_r k 2; k_r k 3; k_r k 12; k_lr k; k_pc k; stacked_psr k].
Definition cm_taken (k : cm_crash) (s : cm) : Prop :=
  cm_msp s = (if uses_psp k then k_msp k else frameptr k) /\
  cm_psp s = (if uses_psp k then frameptr k else k_psp k) /\
  cm_lr s = exc_return k /\
  (forall i, 4 <= i <= 11 -> cm_r s i = k_r k i) /\
  (forall i v, get (frame_words k) i = Some v -> cm_mem s (frameptr k + 4 * i) = v) /\
  (forall a, a < frameptr k \/ frameptr k + framesize k <= a -> cm_mem s a = k_mem k a).

(** A machine: stack pointers are addresses of words; there is room for the frame and for the 40 bytes
    the entry code pushes on the main stack; these do not overlap. *)
Definition cm_ok (k : cm_crash) : Prop :=
  is_u32 (k_msp k) /\ is_u32 (k_psp k) /\ is_u32 (k_xpsr k) /\ k_msp k mod 4 = 0 /\ k_psp k mod 4 = 0 /\
  0 <= frameptr k /\ 40 <= (if uses_psp k then k_msp k else frameptr k) /\
  (uses_psp k = true -> k_msp k <= frameptr k \/ frameptr k + framesize k <= k_msp k - 40).

(** What the coredump is to contain. *)
Definition cm_expected (k : cm_crash) (msp psp : Z) : list Z :=
  [k_r k 0; k_r k 1; k_r k 2; k_r k 3; k_r k 4; k_r k 5; k_r k 6; k_r k 7; k_r k 8; k_r k 9; k_r k 10; k_r k 11; k_r k 12;
   k_sp k; k_lr k; k_pc k; stacked_psr k; msp; psp].

(** ** ARMv7-A/R *)
(** The exception mode of each vector, and what is added to the address of the instruction that
    caused the exception, by instruction set. *)
Definition ar_target (v : ar_vector) : Z := match v with AUndefined => 0x1b | _ => 0x17 end.
Definition ar_offset (v : ar_vector) (thumb : bool) : Z :=
  match v with AUndefined => if thumb then 2 else 4 | ADataAbort => 8 | APrefetchAbort => 4 end.
(** The processor at the crash [s] at the instruction at [pc]; [s'] is it at the first instruction of
    the handler. *)
Definition ar_taken (v : ar_vector) (pc : Z) (s s' : ar) : Prop :=
  let m := ar_target v in
  ar_lo s' = ar_lo s /\ ar_hi s' = ar_hi s /\ ar_sp s' = ar_sp s /\ ar_mem s' = ar_mem s /\
  is_u32 (ar_cpsr s') /\ ar_mode s' = m /\
  (forall b, ar_lr s' b = if b =? m then u32 (pc + ar_offset v (Z.testbit (ar_cpsr s) 5)) else ar_lr s b) /\
  (forall b, ar_spsr s' b = if b =? m then ar_cpsr s else ar_spsr s b).
Definition ar_ok (v : ar_vector) (pc : Z) (s : ar) : Prop :=
  is_u32 pc /\ is_u32 (ar_cpsr s) /\ 68 <= ar_sp s (ar_target v) < 4294967296.
Definition ar_expected (pc : Z) (s : ar) : list Z :=
  map (ar_get s) [0; 1; 2; 3; 4; 5; 6; 7; 8; 9; 10; 11; 12; 13; 14] ++ [pc; ar_cpsr s].
