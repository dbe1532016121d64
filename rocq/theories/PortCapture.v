(** Model of the regions of memory that further ports put into a coredump:
    ports/particle/src/memfault.cpp, ports/nrf5_sdk/nrf5_coredump_regions.c,
    ports/dialog/da145xx and da1469x memfault_platform_coredump_regions.c,
    ports/mynewt/src/memfault_platform_flash_backed_coredump.c,
    ports/panics/src/memfault_platform_ram_backed_coredump.c and
    ports/esp8266_sdk/memfault/memfault_platform_coredump_regions.c with all of RAM.
    Addresses, memory, regions and checked arrays are those of TaskRegions.v. *)
From Verif Require Import Base TaskRegions.

(** ** Particle *)
Section Particle.
Context (sane : Z -> Z -> Z) (mem : Z -> option Z).
(** prv_get_task_region, memfault.cpp:376-406, for &s_coredump_regions[idx] with the number of entries left
    (:449-450, :461-462); [info]: the handle of the thread, [None] a NULL info; [want]:
    MEMFAULT_PLATFORM_TASK_STACK_SIZE_TO_COLLECT *)
Definition pa_task (want : Z) (tcb : bool) (info : option Z) (idx : Z) (regs : list region) : option (Z * list region) :=
  match info with
  | None => Some (idx, regs)                                                      (* :378 *)
  | Some t =>
      if u32 (16 - idx) =? 0 then Some (idx, regs)                                (* :378 *)
      else
        do a <- (if tcb then Some t else tr_word mem t);                          (* :385, :396 *)
        let n := sane a (if tcb then 200 else want) in                            (* :388-389, :397-398 *)
        if n =? 0 then Some (idx, regs)
        else do regs <- set_at regs idx (a, n); Some (idx + 1, regs)              (* :391-394, :399-402 *)
  end.
(** os_thread_dump with these callbacks, :445-453 and :457-465 *)
Fixpoint pa_dump (want : Z) (tcb : bool) (threads : list (option Z)) (idx : Z) (regs : list region) : option (Z * list region) :=
  match threads with
  | [] => Some (idx, regs)
  | t :: r => do x <- pa_task want tcb t idx regs; let (idx, regs) := (x : Z * list region) in pa_dump want tcb r idx regs
  end.
(** :426-470; [tasks]: MEMFAULT_PARTICLE_PORT_COREDUMP_TASK_COLLECTION_ENABLE *)
Definition pa_regions (tasks : bool) (want crash : Z) (threads : list (option Z)) : option (Z * list region) :=
  do regs <- set_at (fr_zero 16) 0 (crash, sane crash 512);
  if tasks then
    do x <- pa_dump want true threads 1 regs; let (idx, regs) := (x : Z * list region) in
    pa_dump want false threads idx regs
  else Some (1, regs).
End Particle.

(** ** The stack alone *)
(** nrf5_coredump_regions.c:71-76, da145xx :21-36 (MEMFAULT_PLATFORM_COREDUMP_CAPTURE_STACK_ONLY, the default);
    [top]: STACK_TOP, __StackTop or __initial_sp *)
Definition to_the_top (top crash : Z) : region := (crash, u32 (top - crash)).
(** da1469x :20-29, mynewt :26-31, ram_backed :63-74 *)
Definition checked_stack (sane : Z -> Z -> Z) (want crash : Z) : region := (crash, sane crash want).

(** ** Areas of the board *)
(** mynewt :33-42; [cap]: MEMFAULT_COREDUMP_MAX_AREA_COUNT *)
Definition my_regions (cap : Z) (areas : list region) : option (Z * list region) :=
  tr_push (fr_zero cap) 0 (take (Z.min cap (zlen areas)) areas).

(** ** ESP8266, all of RAM *)
(** the symbols of the linker, :69-72, :80-101 *)
Record esp_ld := mk_ld { ld_ibss : Z; ld_ibss_end : Z; ld_bss : Z; ld_bss_end : Z; ld_data : Z; ld_data_end : Z; ld_iram_end : Z }.
(** :59-72 and :80-102; [iram]: CONFIG_SOC_IRAM_SIZE, [heap]: not CONFIG_HEAP_DISABLE_IRAM, [n]:
    MEMFAULT_PLATFORM_MAX_TASK_REGIONS (:27-31) *)
Definition esp8266_all (sane : Z -> Z -> Z) (n iram : Z) (heap : bool) (crash : Z) (l : esp_ld) : option (Z * list region) :=
  tr_push (fr_zero (n + 5)) 0
    ([(crash, sane crash 512); (ld_ibss l, u32 (ld_ibss_end l - ld_ibss l));
      (ld_bss l, u32 (ld_bss_end l - ld_bss l)); (ld_data l, u32 (ld_data_end l - ld_data l));
      (ld_bss_end l, u32 (0x40000000 - ld_bss_end l))] ++
     (if heap then [(ld_iram_end l, u32 (0x40100000 + iram - ld_iram_end l))] else [])).
