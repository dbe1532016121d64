(** Model of the exception entry code of memfault_fault_handling_arm.c (Cortex-M) and
    memfault_fault_handling_armv7_a_r.c, instruction by instruction, and of how the C handlers read
    the registers it stored.

    Simplifications: memory is a function from addresses to 32-bit words, accessed at addresses of
    words only; of the flags only Z is there; the registers are 32-bit values.  Loading the address of
    the handler and branching to it (and, for armcc and TI, to the shim) is the end of the program.
    The instruction set state is not modelled. *)
From Verif Require Import Base.

Definition mem := Z -> Z.
Definition mset (m : mem) (a v : Z) : mem := fun x => if x =? a then v else m x.
(** Words stored at ascending addresses (push, stm). *)
Fixpoint mstore (m : mem) (a : Z) (l : list Z) : mem :=
  match l with [] => m | v :: l => mstore (mset m a v) (u32 (a + 4)) l end.
Definition fset (f : Z -> Z) (i v : Z) : Z -> Z := fun x => if x =? i then v else f x.

(** ** Cortex-M.  The processor in an exception handler: r0-r12, both stack pointers (sp is msp), lr
    and the Z flag. *)
Record cm := mk_cm { cm_r : Z -> Z; cm_msp : Z; cm_psp : Z; cm_lr : Z; cm_z : bool; cm_mem : mem }.
Definition cm_get (s : cm) (n : Z) : Z := if n =? 13 then cm_msp s else if n =? 14 then cm_lr s else cm_r s n.
(** Only r0-r12 are destinations here. *)
Definition cm_set (s : cm) (n v : Z) : cm := mk_cm (fset (cm_r s) n v) (cm_msp s) (cm_psp s) (cm_lr s) (cm_z s) (cm_mem s).
Definition cm_flag (s : cm) (v : Z) : cm := mk_cm (cm_r s) (cm_msp s) (cm_psp s) (cm_lr s) (v =? 0) (cm_mem s).

Inductive cond := Al | Eq0 | Ne0.
Inductive cm_instr :=
| Tst_i (n k : Z) | Tst_r (n m : Z) | Mrs (c : cond) (d : Z) (psp : bool) | Mov (d n : Z) | Movs_i (d k : Z)
| Ldr (d v : Z) | Push (l : list Z) | Beq (skip : nat).
Definition holds (c : cond) (z : bool) : bool := match c with Al => true | Eq0 => z | Ne0 => negb z end.
Definition cm_step (i : cm_instr) (s : cm) : cm :=
  match i with
  | Tst_i n k => cm_flag s (Z.land (cm_get s n) k)
  | Tst_r n m => cm_flag s (Z.land (cm_get s n) (cm_get s m))
  | Mrs c d p => if holds c (cm_z s) then cm_set s d (if p then cm_psp s else cm_msp s) else s
  | Mov d n => cm_set s d (cm_get s n)
  | Movs_i d k => cm_flag (cm_set s d k) k
  | Ldr d v => cm_set s d v
  | Push l => let a := u32 (cm_msp s - 4 * zlen l) in
              mk_cm (cm_r s) a (cm_psp s) (cm_lr s) (cm_z s) (mstore (cm_mem s) a (map (cm_get s) l))
  | Beq _ => s
  end.
(** [skip]: instructions still to be jumped over. *)
Fixpoint cm_exec (p : list cm_instr) (skip : nat) (s : cm) : cm :=
  match p with
  | [] => s
  | i :: p => match skip with
              | S k => cm_exec p k s
              | O => cm_exec p (match i with Beq k => if cm_z s then k else O | _ => O end) (cm_step i s)
              end
  end.

(** The five exceptions and the watchdog interrupt: memfault_fault_handling_arm.c:240-292 (armcc),
    :314-350 (TI), :411-438 (GCC), :489-518 (IAR); the values are those of
    reboot_reason_types.h:79-109. *)
Inductive cm_vector := VHardFault | VMemManage | VBusFault | VUsageFault | VNmi | VWatchdog.
Definition cm_reason (v : cm_vector) : Z :=
  match v with VHardFault => 0x9400 | VMemManage => 0x9200 | VBusFault => 0x9100 | VUsageFault => 0x9300 | VNmi => 0x8004 | VWatchdog => 0x8006 end.
(** memfault_fault_handling_arm.c:369-379 (GCC), :447-457 (IAR) *)
Definition shim_v7 (reason : Z) : list cm_instr :=
  [Tst_i 14 4; Mrs Eq0 3 false; Mrs Ne0 3 true; Push [3; 4; 5; 6; 7; 8; 9; 10; 11; 14]; Mov 0 13; Ldr 1 reason].
(** memfault_fault_handling_arm.c:205-215 (armcc), :301-313 (TI), after the handler put the reason in r0 *)
Definition shim_v7_arg (reason : Z) : list cm_instr :=
  [Ldr 0 reason; Tst_i 14 4; Mrs Eq0 3 false; Mrs Ne0 3 true; Push [3; 4; 5; 6; 7; 8; 9; 10; 11; 14]; Mov 1 0; Mov 0 13].
(** memfault_fault_handling_arm.c:381-401 (GCC for ARMv6-M and ARMv8-M baseline) *)
Definition shim_v6 (reason : Z) : list cm_instr :=
  [Mov 0 14; Movs_i 1 4; Tst_r 0 1; Mrs Al 12 false; Beq 1; Mrs Al 12 true;
   Mov 0 8; Mov 1 9; Mov 2 10; Mov 3 11; Push [0; 1; 2; 3; 14]; Mov 3 12; Push [3; 4; 5; 6; 7]; Mov 0 13; Ldr 1 reason].
(** memfault_fault_handling_arm.c:218-238 (armcc), :464-485 (IAR) *)
Definition shim_v6_arg (reason : Z) : list cm_instr :=
  [Ldr 0 reason; Mov 1 14; Movs_i 2 4; Tst_r 1 2; Mrs Al 12 false; Beq 1; Mrs Al 12 true;
   Mov 3 11; Mov 2 10; Mov 1 9; Mov 9 0; Mov 0 8; Push [0; 1; 2; 3; 14]; Mov 3 12; Push [3; 4; 5; 6; 7]; Mov 0 13; Mov 1 9].
Inductive cm_shim := SV7 | SV7Arg | SV6 | SV6Arg.
Definition shim_code (k : cm_shim) : Z -> list cm_instr :=
  match k with SV7 => shim_v7 | SV7Arg => shim_v7_arg | SV6 => shim_v6 | SV6Arg => shim_v6_arg end.

(** memfault_fault_handling_arm.c:122-157 with cortex_m.h:20-49: the register block of the coredump,
    from the processor as the shim leaves it.  [depth]: how much further the stack has grown when
    prv_read_msp_reg reads msp. *)
Definition cm_core_regs (depth : Z) (s : cm) : list Z :=
  let w := cm_mem s in
  let regs := cm_r s 0 in
  let ef := w regs in
  let r4 i := w (u32 (regs + 4 * (i - 3))) in                           (* r4-r11 *)
  let exc_return := w (u32 (regs + 36)) in
  let xpsr := w (u32 (ef + 28)) in
  let sp := u32 (ef + (if Z.land exc_return 16 =? 0 then 0x68 else 0x20)) in
  let sp := if negb (Z.land xpsr 512 =? 0) then u32 (sp + 4) else sp in
  let main := Z.land exc_return 4 =? 0 in
  [w ef; w (u32 (ef + 4)); w (u32 (ef + 8)); w (u32 (ef + 12)); r4 4; r4 5; r4 6; r4 7; r4 8; r4 9; r4 10; r4 11; w (u32 (ef + 16));
   sp; w (u32 (ef + 20)); w (u32 (ef + 24)); xpsr;
   if main then sp else u32 (cm_msp s - depth); if negb main then sp else cm_psp s].
(** The second argument of memfault_fault_handler. *)
Definition cm_arg_reason (s : cm) : Z := cm_r s 1.

(** ** ARMv7-A/R.  r0-r7; r8-r12, own ones in FIQ mode; sp, lr and spsr of each mode (those of User and
    System mode are the same). *)
Record ar := mk_ar { ar_lo : Z -> Z; ar_hi : bool -> Z -> Z; ar_sp : Z -> Z; ar_lr : Z -> Z; ar_spsr : Z -> Z;
                     ar_cpsr : Z; ar_z : bool; ar_mem : mem }.
Definition ar_mode (s : ar) : Z := Z.land (ar_cpsr s) 0x1f.
Definition ar_bank (m : Z) : Z := if m =? 0x10 then 0x1f else m.
Definition ar_get (s : ar) (n : Z) : Z :=
  if n <? 8 then ar_lo s n else if n <? 13 then ar_hi s (ar_mode s =? 0x11) n
  else if n =? 13 then ar_sp s (ar_bank (ar_mode s)) else ar_lr s (ar_bank (ar_mode s)).
Definition ar_set (s : ar) (n v : Z) : ar :=
  if n <? 8 then mk_ar (fset (ar_lo s) n v) (ar_hi s) (ar_sp s) (ar_lr s) (ar_spsr s) (ar_cpsr s) (ar_z s) (ar_mem s)
  else if n <? 13 then mk_ar (ar_lo s) (fun f => if Bool.eqb f (ar_mode s =? 0x11) then fset (ar_hi s f) n v else ar_hi s f) (ar_sp s) (ar_lr s) (ar_spsr s) (ar_cpsr s) (ar_z s) (ar_mem s)
  else if n =? 13 then mk_ar (ar_lo s) (ar_hi s) (fset (ar_sp s) (ar_bank (ar_mode s)) v) (ar_lr s) (ar_spsr s) (ar_cpsr s) (ar_z s) (ar_mem s)
  else mk_ar (ar_lo s) (ar_hi s) (ar_sp s) (fset (ar_lr s) (ar_bank (ar_mode s)) v) (ar_spsr s) (ar_cpsr s) (ar_z s) (ar_mem s).
Definition ar_mem_set (s : ar) (m : mem) : ar := mk_ar (ar_lo s) (ar_hi s) (ar_sp s) (ar_lr s) (ar_spsr s) (ar_cpsr s) (ar_z s) m.
Inductive ar_instr :=
| ASrsdb (m : Z) | ASub (c : cond) (d k : Z) | AAdd (d n k : Z) | AStm (n : Z) (l : list Z) | APop (d : Z)
| AMrsCpsr (d : Z) | AMrsSpsr (d : Z) | ATst (n k : Z) | AOrr (c : cond) (d k : Z) | AMsrC (n : Z) | AMsrAll (n : Z)
| AMov (d n : Z) | ALdr (d v : Z).
Definition ar_set_cpsr (s : ar) (v : Z) : ar := mk_ar (ar_lo s) (ar_hi s) (ar_sp s) (ar_lr s) (ar_spsr s) v (ar_z s) (ar_mem s).
(** srsdb stores lr and spsr of the current mode on the stack of mode [m]; msr cannot change the mode
    from User mode; stm stores the registers as they were before. *)
Definition ar_step (i : ar_instr) (s : ar) : ar :=
  match i with
  | ASrsdb m =>
      let a := u32 (ar_sp s (ar_bank m) - 8) in
      mk_ar (ar_lo s) (ar_hi s) (fset (ar_sp s) (ar_bank m) a) (ar_lr s) (ar_spsr s) (ar_cpsr s) (ar_z s)
            (mstore (ar_mem s) a [ar_get s 14; ar_spsr s (ar_bank (ar_mode s))])
  | ASub c d k => if holds c (ar_z s) then ar_set s d (u32 (ar_get s d - k)) else s
  | AAdd d n k => ar_set s d (u32 (ar_get s n + k))
  | AStm n l => let a := u32 (ar_get s n - 4 * zlen l) in
                ar_set (ar_mem_set s (mstore (ar_mem s) a (map (ar_get s) l))) n a
  | APop d => let a := ar_get s 13 in ar_set (ar_set s d (ar_mem s a)) 13 (u32 (a + 4))
  | AMrsCpsr d => ar_set s d (ar_cpsr s)
  | AMrsSpsr d => ar_set s d (ar_spsr s (ar_bank (ar_mode s)))
  | ATst n k => mk_ar (ar_lo s) (ar_hi s) (ar_sp s) (ar_lr s) (ar_spsr s) (ar_cpsr s) (Z.land (ar_get s n) k =? 0) (ar_mem s)
  | AOrr c d k => if holds c (ar_z s) then ar_set s d (Z.lor (ar_get s d) k) else s
  | AMsrC n => if ar_mode s =? 0x10 then s else ar_set_cpsr s (ar_cpsr s / 256 * 256 + ar_get s n mod 256)
  | AMsrAll n => if ar_mode s =? 0x10 then s else ar_set_cpsr s (ar_get s n)
  | AMov d n => ar_set s d (ar_get s n)
  | ALdr d v => ar_set s d v
  end.
Definition ar_exec (p : list ar_instr) (s : ar) : ar := fold_left (fun s i => ar_step i s) p s.

(** memfault_fault_handling_armv7_a_r.c:266-288 *)
Definition ar_shim (mode reason : Z) : list ar_instr :=
  [ASrsdb mode; ASub Al 13 28; AStm 13 [0; 1; 2; 3; 4; 5; 6; 7]; AAdd 2 13 60; AMrsCpsr 3; AMrsSpsr 4; ATst 4 0xf; AOrr Eq0 4 0xf;
   AMsrC 4; AStm 2 [8; 9; 10; 11; 12; 13; 14]; AMsrAll 3; AMov 0 13; ALdr 1 reason].
(** memfault_fault_handling_armv7_a_r.c:305-330: undefined instruction, data abort, prefetch abort. *)
Inductive ar_vector := AUndefined | ADataAbort | APrefetchAbort.
Definition ar_handler (v : ar_vector) : list ar_instr :=
  match v with
  | AUndefined => [AStm 13 [0]; AMrsSpsr 0; ATst 0 0x20; ASub Eq0 14 4; ASub Ne0 14 2; APop 0] ++ ar_shim 0x1b 0x9300
  | ADataAbort => ASub Al 14 8 :: ar_shim 0x17 0x9200
  | APrefetchAbort => ASub Al 14 4 :: ar_shim 0x17 0x9100
  end.
(** memfault_fault_handling_armv7_a_r.c:149-167 with v7_a_r.h:23-41 *)
Definition ar_core_regs (s : ar) : list Z :=
  map (fun i => ar_mem s (u32 (ar_lo s 0 + 4 * i))) [0; 1; 2; 3; 4; 5; 6; 7; 8; 9; 10; 11; 12; 13; 14; 15; 16].
Definition ar_arg_reason (s : ar) : Z := ar_lo s 1.
