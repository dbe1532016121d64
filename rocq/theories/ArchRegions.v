(** Model of what every coredump has besides the platform's regions:
    components/panics/src/memfault_coredump_regions_armv7.c (system registers of Cortex-M),
    memfault_coredump_sdk_regions.c (state of the SDK) and the check of the log's location in
    components/core/src/memfault_log.c:66-99. *)
From Verif Require Import Base Crc16 Coredump.

(** The System Control Space: words at addresses; base and attributes of each MPU region; the number
    of the MPU region selected (RNR). *)
Record scs := mk_scs { h_word : Z -> Z; h_mpu : Z -> Z * Z; h_rnr : Z }.
Definition scs_read (h : scs) (a : Z) : Z :=
  if a =? 0xE000ED98 then h_rnr h
  else if a =? 0xE000ED9C then fst (h_mpu h (h_rnr h))
  else if a =? 0xE000EDA0 then snd (h_mpu h (h_rnr h))
  else h_word h a.
(** Only RNR is ever written. *)
Definition scs_select (h : scs) (r : Z) : scs := mk_scs (h_word h) (h_mpu h) r.

(** MEMFAULT_COLLECT_FAULT_REGS, MEMFAULT_CACHE_FAULT_REGS, MEMFAULT_NVIC_INTERRUPTS_TO_COLLECT (None:
    MEMFAULT_COLLECT_INTERRUPT_STATE is 0), MEMFAULT_MPU_REGIONS_TO_COLLECT (None:
    MEMFAULT_COLLECT_MPU_STATE is 0); default_config.h:380-442. *)
Record acfg := mk_acfg { a_fault : bool; a_cache : bool; a_ints : option Z; a_mpu : option Z }.

(** memfault_coredump_regions_armv7.c:116-138 with coredump_impl.h:42-50: the words of the cached
    block are valid_cache, cached_address, blk_size, then the 7 registers.  [None]: outside the block. *)
Definition cache_fault_regs (h : scs) (c : list Z) : option (list Z) :=
  do c <- put c 1 0xE000ED24;
  do base <- get c 1;
  do c <- put c 3 (scs_read h base);
  do c <- put c 4 (scs_read h (base + 4));
  do c <- put c 5 (scs_read h (base + 8));
  do c <- put c 6 (scs_read h (base + 12));
  do c <- put c 7 (scs_read h (base + 16));
  do c <- put c 8 (scs_read h (base + 20));
  do c <- put c 9 (scs_read h (base + 24));
  do c <- put c 2 28;
  put c 0 1.

(** memfault_coredump_regions_armv7.c:162-167: select and read. *)
Fixpoint unroll_mpu (n : nat) (r : Z) (h : scs) (m : list Z) : option (scs * list Z) :=
  match n with
  | O => Some (h, m)
  | S n => let h := scs_select h r in
           do m <- put m (2 + 2 * r) (scs_read h 0xE000ED9C);
           do m <- put m (3 + 2 * r) (scs_read h 0xE000EDA0);
           unroll_mpu n (r + 1) h m
  end.
(** memfault_coredump_regions_armv7.c:146-169; [m]: the words of s_mflt_mpu_regs (:95-103), [k]: the
    number of pairs. *)
Definition read_mpu (k : Z) (h : scs) (m : list Z) : option (scs * list Z) :=
  let type := scs_read h 0xE000ED90 in
  do m <- put m 0 type;
  if type =? 0 then Some (h, m)
  else let n := Z.min (type / 256 mod 256) k in
       do m <- put m 1 (scs_read h 0xE000ED94);
       unroll_mpu (Z.to_nat n) 0 h m.

(** The bytes of [n] registers from [a]. *)
Definition scs_bytes (h : scs) (a n : Z) : list Z := flat_map (fun i => cd_le32 (scs_read h (a + 4 * i))) (zrange (Z.to_nat n)).
Definition words_bytes (w : list Z) : list Z := flat_map cd_le32 w.
(** A region of type cached memory whose start is address 0 (memfault_coredump_regions_armv7.c:106-109):
    what prv_fixup_if_cached_block (memfault_coredump.c:134-156) makes of the memory there; [low]: its
    bytes. *)
Definition low_word (low : Z -> Z) (a : Z) : Z := low a + 256 * low (a + 1) + 65536 * low (a + 2) + 16777216 * low (a + 3).
Definition low_block (low : Z -> Z) : cregion :=
  RgCached (low_word low 0) (low_word low 4) (map (fun i => low (12 + i)) (zrange (Z.to_nat (low_word low 8)))).
(** The cached block as a region: the fields are read when the coredump is written. *)
Definition cached_block (c : list Z) : option cregion :=
  do v <- get c 0; do a <- get c 1; do n <- get c 2; do d <- read_at (words_bytes c) 12 n; Some (RgCached v a d).
(** memfault_coredump_regions_armv7.c:145-211; [mpu_at]: the address of s_mflt_mpu_regs. *)
Definition arch_regions (cfg : acfg) (low : Z -> Z) (mpu_at : Z) (h : scs) (c m : list Z) : option (list cregion * scs * list Z) :=
  do x <- match a_mpu cfg with Some k => read_mpu k h m | None => Some (h, m) end;
  let (h, m) := x in
  do fault <- (if negb (a_fault cfg) then Some (low_block low)
               else if a_cache cfg then cached_block c
               else Some (RgMemory 1 0xE000ED24 (scs_bytes h 0xE000ED24 7)));
  let words a n := RgMemory 1 a (scs_bytes h a n) in
  let ints := match a_ints cfg with
    | Some n => [words 0xE000ED18 3; words 0xE000E004 4; words 0xE000ED04 2; words 0xE000EDFC 1;
                 words 0xE000E100 ((n + 31) / 32); words 0xE000E200 ((n + 31) / 32); words 0xE000E300 ((n + 31) / 32);
                 words 0xE000E400 (n / 4)]
    | None => []
    end in
  let mpu := match a_mpu cfg with Some _ => [RgMemory 3 mpu_at (words_bytes m)] | None => [] end in
  Some (fault :: ints ++ mpu, h, m).

(** What happens to the static variables between a reset and a coredump. *)
Inductive ac_op := ACache (h : scs) | ARegions (h : scs).
Definition ac_step (cfg : acfg) (low : Z -> Z) (mpu_at : Z) (s : list Z * list Z) (o : ac_op) : option (list cregion * (list Z * list Z)) :=
  let (c, m) := s in
  match o with
  | ACache h => do c <- cache_fault_regs h c; Some ([], (c, m))
  | ARegions h => do x <- arch_regions cfg low mpu_at h c m; let '(l, _, m) := x in Some (l, (c, m))
  end.
Fixpoint ac_run (cfg : acfg) (low : Z -> Z) (mpu_at : Z) (s : list Z * list Z) (ops : list ac_op) : option (list Z * list Z) :=
  match ops with [] => Some s | o :: r => do x <- ac_step cfg low mpu_at s o; ac_run cfg low mpu_at (snd x) r end.
(** Static variables start as zeros: 10 words and 2 + 2 * k words. *)
Definition ac_start (cfg : acfg) : list Z * list Z := (fill 10 0, fill (2 + 2 * match a_mpu cfg with Some k => k | None => 0 end) 0).

(** ** SDK regions *)
(** memfault_log.c:37-64: enabled and region_info (storage, len, crc16). *)
Record loginfo := mk_li { li_enabled : bool; li_storage : Z; li_len : Z; li_crc : Z }.
(** memfault_log.c:66-69: over storage and len *)
Definition log_region_crc (l : loginfo) : option Z := crc16_compute 0 (cd_le32 (li_storage l) ++ cd_le32 (li_len l)).
(** memfault_log.c:507-528 as far as these fields go; [None]: refused. *)
Definition log_boot_info (l : loginfo) (storage len : Z) : option loginfo :=
  if (storage =? 0) || (len =? 0) || li_enabled l then None
  else do c <- log_region_crc (mk_li false storage len 0); Some (mk_li true storage len c).
(** memfault_log.c:79-99: the address and size of the two regions; [at_], [size]: those of
    s_memfault_ram_logger. *)
Definition log_get_regions (at_ size : Z) (l : loginfo) : option (list (Z * Z)) :=
  if negb (li_enabled l) then None
  else do c <- log_region_crc l;
       if negb (c =? li_crc l) then None else Some [(at_, size); (li_storage l, li_len l)].

(** memfault_coredump_sdk_regions.c:32-41: which parts are configured and the size of the array. *)
Record sdkcfg := mk_sdk { sk_log : bool; sk_heap : bool; sk_watchdog : bool }.
Definition sdk_array (cfg : sdkcfg) : Z :=
  Z.max ((if sk_log cfg then 2 else 0) + (if sk_heap cfg then 2 else 0) + (if sk_watchdog cfg then 1 else 0)) 1.
(** An entry put at the end; [None]: outside the array. *)
Definition sdk_add (cfg : sdkcfg) (l : list (Z * Z)) (r : Z * Z) : option (list (Z * Z)) :=
  if zlen l <? sdk_array cfg then Some (l ++ [r]) else None.
Fixpoint sdk_add_all (cfg : sdkcfg) (l rs : list (Z * Z)) : option (list (Z * Z)) :=
  match rs with [] => Some l | r :: rs => do l <- sdk_add cfg l r; sdk_add_all cfg l rs end.
(** memfault_coredump_sdk_regions.c:43-79: [log]: what memfault_log_get_regions gave; [heap]: not
    empty (memfault_heap_stats.c:64-68), its two regions; [watchdog]: the task channels.  The result is
    the regions (address, size); the pointer is NULL when there are none. *)
Definition sdk_regions (cfg : sdkcfg) (log : option (list (Z * Z))) (heap : bool) (h1 h2 watchdog : Z * Z) : option (list (Z * Z)) :=
  do l <- (if sk_log cfg then match log with Some rs => sdk_add_all cfg [] rs | None => Some [] end else Some []);
  do l <- (if sk_heap cfg && heap then sdk_add_all cfg l [h1; h2] else Some l);
  if sk_watchdog cfg then sdk_add cfg l watchdog else Some l.
