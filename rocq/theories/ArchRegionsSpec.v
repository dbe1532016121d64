(** Which registers and variables a coredump has to hold, from the ARMv7-M Architecture Reference
    Manual (B3.2: System Control Space) and the SDK's documentation. *)
From Verif Require Import Base Crc16 Coredump CoredumpSpec ArchRegions.

(** [n] registers from address [a], as memory. *)
Definition registers (h : scs) (a n : Z) : list dblock :=
  if n =? 0 then [] else [mk_dblock 1 a (flat_map (fun i => word (h_word h (a + 4 * Z.of_nat i))) (seq 0 (Z.to_nat n)))].
(** SHPR1-3; ICTR, ACTLR, (reserved), SYST_CSR; ICSR, VTOR; DEMCR; the NVIC's enabled, pending and active
    bits, 32 to a register; and priorities, 4 to a register. *)
Definition interrupt_registers (h : scs) (n : Z) : list dblock :=
  registers h 0xE000ED18 3 ++ registers h 0xE000E004 4 ++ registers h 0xE000ED04 2 ++ registers h 0xE000EDFC 1 ++
  registers h 0xE000E100 ((n + 31) / 32) ++ registers h 0xE000E200 ((n + 31) / 32) ++ registers h 0xE000E300 ((n + 31) / 32) ++
  registers h 0xE000E400 (n / 4).
(** The MPU: TYPE and CTRL, then base and attributes of every region there is, zeros beyond. *)
Definition mpu_type (h : scs) : Z := h_word h 0xE000ED90.
Definition mpu_regions (h : scs) : Z := mpu_type h / 256 mod 256.
Definition mpu_words (h : scs) (k : Z) : list Z :=
  mpu_type h :: (if mpu_type h =? 0 then 0 else h_word h 0xE000ED94) ::
  flat_map (fun i => let i := Z.of_nat i in
              if negb (mpu_type h =? 0) && (i <? mpu_regions h) then [fst (h_mpu h i); snd (h_mpu h i)] else [0; 0]) (seq 0 (Z.to_nat k)).
(** SHCSR, CFSR, HFSR, DFSR, MMFAR, BFAR, AFSR: as they were when last cached ([cached], None: never) or as they
    are. *)
Definition fault_registers (cfg : acfg) (h : scs) (cached : option scs) : list dblock :=
  if negb (a_fault cfg) then []
  else if a_cache cfg then match cached with Some h => registers h 0xE000ED24 7 | None => [] end
  else registers h 0xE000ED24 7.
Definition arch_expected (cfg : acfg) (mpu_at : Z) (h : scs) (cached : option scs) : list dblock :=
  fault_registers cfg h cached ++
  match a_ints cfg with Some n => interrupt_registers h n | None => [] end ++
  match a_mpu cfg with Some k => [mk_dblock 9 mpu_at (flat_map word (mpu_words h k))] | None => [] end.
Fixpoint last_cached (l : list ac_op) : option scs :=
  match l with
  | [] => None
  | o :: r => match last_cached r, o with Some h, _ => Some h | None, ACache h => Some h | None, _ => None end
  end.

(** The static assertions memfault_coredump_regions_armv7.c:23-28. *)
Definition acfg_ok (cfg : acfg) : Prop :=
  match a_ints cfg with Some n => 0 <= n <= 512 /\ (n mod 32 = 0 \/ n = 496) | None => True end /\
  match a_mpu cfg with Some k => 0 <= k <= 16 | None => True end.
(** TYPE does not change while the device runs. *)
Definition of_type_mpu (t : Z) (o : ac_op) : Prop := match o with ACache h | ARegions h => mpu_type h = t end.
(** Whole registers. *)
Definition whole_words (r : cregion) : Prop := match r with RgMemory 1 _ d => zlen d mod 4 = 0 | _ => True end.

(** The SDK's own: the log when it is in use and its location undamaged, the heap statistics when
    there are any, the task watchdog. *)
Definition sdk_expected (cfg : sdkcfg) (log : option (list (Z * Z))) (heap : bool) (h1 h2 watchdog : Z * Z) : list (Z * Z) :=
  (if sk_log cfg then match log with Some l => l | None => [] end else []) ++
  (if sk_heap cfg && heap then [h1; h2] else []) ++ (if sk_watchdog cfg then [watchdog] else []).
