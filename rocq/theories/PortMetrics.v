(** The metrics the FreeRTOS, Zephyr and ESP-IDF ports collect for a heartbeat: processor usage, stack
    usage of threads, heap usage, temperature and free space of the file system.  Counters are kept by the
    operating system and are inputs here.  A division by zero, and a conversion of a floating point number
    which does not fit, give [None]. *)
From Verif Require Import Base.

(** Unsigned arithmetic on [w] bits. *)
Definition uw (w x : Z) : Z := x mod 2^w.
Definition u64_max : Z := 18446744073709551615.

(** ** FreeRTOS: processor usage *)

(** ports/freertos/src/memfault_sdk_metrics_freertos.c:72-75 ([w]: bits of configRUN_TIME_COUNTER_TYPE) *)
Definition delta_runtime (w prev curr : Z) : Z := uw w (curr - prev).

(** ports/freertos/src/memfault_sdk_metrics_freertos.c:68-70, 82-114 prv_calc_runtime_percent *)
Definition calc_runtime_percent (w prev_task curr_task curr_total prev_total : Z) : option Z :=
  let d := delta_runtime w prev_task curr_task in
  let t := delta_runtime w prev_total curr_total in
  if t =? 0 then Some (-1) else
  let '(d, t) :=
    if u64_max - u64_max / 10000 <=? d
    then ((if u64_max - 10000 / 2 <? d then u64_max else d + 10000 / 2) / 10000, t / 10000)
    else (d, t) in
  let d := if t <? d then t else d in
  if t =? 0 then None else Some (s32 (u64 (d * 10000) / t)).

(** ports/freertos/src/memfault_sdk_metrics_freertos.c:170-177: the values of the previous heartbeat. *)
Record cpu_state := mk_cs { cs_idle : Z; cs_idle1 : Z; cs_total : Z }.
Definition cpu_init : cpu_state := mk_cs 0 0 0.

(** ports/freertos/src/memfault_sdk_metrics_freertos.c:205-208, 211-214: what is recorded, if anything. *)
Definition cpu_report (pct : Z) : option Z := if 0 <=? pct then Some (u32 (10000 - u32 pct)) else None.

(** ports/freertos/src/memfault_sdk_metrics_freertos.c:168-216 memfault_freertos_port_task_runtime_metrics
    ([split]: MEMFAULT_FREERTOS_RUNTIME_STATS_MULTI_CORE_SPLIT; the three readings are the idle task's
    counters and the total).  Gives cpu_usage_pct and cpu1_usage_pct. *)
Definition cpu_step (w : Z) (split : bool) (s : cpu_state) (idle idle1 total : Z)
  : option ((option Z * option Z) * cpu_state) :=
  do p0 <- calc_runtime_percent w (cs_idle s) idle total (cs_total s) ;
  do p1 <- (if split then calc_runtime_percent w (cs_idle1 s) idle1 total (cs_total s) else Some (-1)) ;
  Some ((cpu_report p0, if split then cpu_report p1 else None),
        mk_cs idle (if split then idle1 else cs_idle1 s) total).

(** One heartbeat after the other. *)
Fixpoint cpu_run (w : Z) (split : bool) (s : cpu_state) (l : list (Z * Z * Z)) : option (list (option Z * option Z)) :=
  match l with
  | [] => Some []
  | (i0, i1, t) :: l' =>
      do r <- cpu_step w split s i0 i1 t ;
      do rs <- cpu_run w split (snd r) l' ;
      Some (fst r :: rs)
  end.

(** ports/freertos/src/memfault_sdk_metrics_freertos.c:158-165 prv_record_timer_stack_free_bytes *)
Definition timer_stack_free (stack_type words : Z) : Z := u32 (words * stack_type).

(** ** Zephyr: processor usage *)

(** ports/zephyr/common/memfault_platform_metrics.c:211-213 *)
Record zcpu_state := mk_zc { zc_timer : Z; zc_all : Z; zc_busy : Z }.
Definition zcpu_init : zcpu_state := mk_zc 0 0 0.

(** ports/zephyr/common/memfault_platform_metrics.c:48-53 prv_cycle_delta_update *)
Definition cycle_delta (curr prev : Z) : Z * Z := (u64 (curr - prev), curr).

(** What a heartbeat records: TimerTaskCpuUsage, AllTasksCpuUsage and cpu_usage_pct. *)
Record zcpu_report := mk_zr { zr_timer : Z; zr_all : Z; zr_pct : Z }.

(** ports/zephyr/common/memfault_platform_metrics.c:203-243 memfault_metrics_heartbeat_collect_sdk_data
    (Zephyr 3.0 and later; [None]: division by zero) *)
Definition zcpu_step (s : zcpu_state) (timer all busy : Z) : option (zcpu_report * zcpu_state) :=
  let '(dt, pt) := cycle_delta timer (zc_timer s) in
  let '(da, pa) := cycle_delta all (zc_all s) in
  let '(db, pb) := cycle_delta busy (zc_busy s) in
  if da =? 0 then None
  else Some (mk_zr (u32 dt) (u32 da) (u32 (u64 (db * 10000) / da)), mk_zc pt pa pb).

Fixpoint zcpu_run (s : zcpu_state) (l : list (Z * Z * Z)) : option (list zcpu_report) :=
  match l with
  | [] => Some []
  | (t, a, b) :: l' =>
      do r <- zcpu_step s t a b ;
      do rs <- zcpu_run (snd r) l' ;
      Some (fst r :: rs)
  end.

(** ** Stack usage of threads *)

(** ports/freertos/src/memfault_sdk_metrics_thread.c:100-122 prv_get_stack_usage_pct_for_thread ([st]:
    sizeof(StackType_t); the high water mark, the end and the base of the stack come from the operating
    system) *)
Definition fr_stack_pct (st scale mark end_ base : Z) : option Z :=
  let size := u32 (end_ - base + st) in
  if size =? 0 then None else Some (u32 (100 * scale * mark) / size).

(** A task as the operating system describes it: the lowest number of words that were free, the addresses
    of the last word and of the start of the stack. *)
Record fr_task := mk_ft { ft_mark : Z; ft_end : Z; ft_base : Z }.
(** ports/freertos/src/memfault_sdk_metrics_thread.c:125, 47-58: an entry of the index: the name, what
    get_task_handle gives if there is one ([None]: no function, or it returns NULL), and the metric. *)
Record fr_entry := mk_fe { fe_name : list Z; fe_handle : option fr_task; fe_key : Z }.

(** ports/freertos/src/memfault_sdk_metrics_thread.c:124-143 memfault_freertos_port_thread_metrics: the
    metrics set, in order ([by_name]: xTaskGetHandle; the entry without a name which ends the index is the
    end of the list). *)
Fixpoint fr_thread_metrics (st scale : Z) (by_name : list Z -> option fr_task) (idx : list fr_entry) : option (list (Z * Z)) :=
  match idx with
  | [] => Some []
  | e :: idx' =>
      let h := match fe_handle e with Some h => Some h | None => by_name (fe_name e) end in
      match h with
      | Some t =>
          do v <- fr_stack_pct st scale (ft_mark t) (ft_end t) (ft_base t) ;
          do l <- fr_thread_metrics st scale by_name idx' ;
          Some ((fe_key e, v) :: l)
      | None => fr_thread_metrics st scale by_name idx'
      end
  end.

(** ports/zephyr/common/memfault_platform_thread_metrics.c:32-41 prv_get_stack_usage_pct *)
Definition z_stack_pct (scale size free : Z) : option Z :=
  let usage := u32 (size - free) in
  if size =? 0 then None else Some (u32 (u32 (usage * 100) * scale) / size).

(** A Zephyr thread: name, stack size and the free space of its stack. *)
Record z_thread := mk_zt { zt_name : list Z; zt_size : Z; zt_free : Z }.

Fixpoint beqs (a b : list Z) : bool :=
  match a, b with
  | [], [] => true
  | x :: a', y :: b' => (x =? y) && beqs a' b'
  | _, _ => false
  end.

(** ports/zephyr/common/memfault_platform_thread_metrics.c:43-63 prv_record_thread_metrics: the entry of
    the index (name and metric) for the thread. *)
Fixpoint z_find (name : list Z) (idx : list (list Z * Z)) : option Z :=
  match idx with
  | [] => None
  | (n, k) :: idx' => if beqs n name then Some k else z_find name idx'
  end.

(** ports/zephyr/common/memfault_platform_thread_metrics.c:65-67 memfault_zephyr_thread_metrics_record: the
    metrics set, in the order of the threads. *)
Fixpoint z_thread_metrics (scale : Z) (idx : list (list Z * Z)) (ths : list z_thread) : option (list (Z * Z)) :=
  match ths with
  | [] => Some []
  | t :: ths' =>
      match z_find (zt_name t) idx with
      | Some k =>
          do v <- z_stack_pct scale (zt_size t) (zt_free t) ;
          do l <- z_thread_metrics scale idx ths' ;
          Some ((k, v) :: l)
      | None => z_thread_metrics scale idx ths'
      end
  end.

(** ** Heap usage: arithmetic in single precision *)

(** The single precision number nearest to a whole number (IEEE 754: 24 bits, ties to even; whole numbers
    of up to 2^64 only, so no overflow). *)
Definition f32 (z : Z) : Z :=
  if z <? 2^24 then z else
  let p := 2 ^ (Z.log2 z - 23) in
  let q := z / p in let r := z mod p in
  if 2 * r <? p then q * p
  else if p <? 2 * r then (q + 1) * p
  else if Z.even q then q * p else (q + 1) * p.

(** [(uint32_t)(x * 10000.f)] of an unsigned [x] (C11 6.3.1.4: undefined if it does not fit) *)
Definition times_10000f (x : Z) : option Z :=
  let f := f32 (f32 x * 10000) in if f <? 2^32 then Some f else None.

(** ports/zephyr/common/memfault_platform_metrics.c:194-195 memory_pct_max *)
Definition z_heap_pct (max_alloc free alloc : Z) : option Z :=
  do f <- times_10000f max_alloc ;
  let t := u32 (free + alloc) in
  if t =? 0 then None else Some (f / t).

(** ports/esp_idf/memfault/common/memfault_platform_metrics.c:247-254 memory_pct_max *)
Definition e_heap_pct (min_free free alloc : Z) : option Z :=
  let t := u32 (free + alloc) in
  do f <- times_10000f (u32 (t - min_free)) ;
  if t =? 0 then None else Some (f / t).

(** ** Temperature and file system *)

(** ports/zephyr/common/memfault_platform_metrics.c:166-168: [int32_t] arithmetic of two [int32_t] *)
Definition z_temp (val1 val2 : Z) : Z := s32 (val1 * 10 + Z.quot val2 100000).

(** ports/zephyr/common/memfault_platform_metrics.c:250-252 *)
Definition z_fs_free (frsize bfree : Z) : Z := u32 (frsize * bfree).
