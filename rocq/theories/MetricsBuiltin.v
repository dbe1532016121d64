(** Model of the metrics the SDK collects itself: components/metrics/src/memfault_metrics_reliability.c,
    memfault_metrics_battery.c, memfault_metrics_connectivity.c and the log and uptime metrics of
    memfault_metrics.c:526-580.  Each gives the calls it makes to the metrics of Metrics.v. *)
From Verif Require Import Base Metrics.

(** The keys of the built-in metrics (include/memfault/metrics/heartbeat_config.def:1-49). *)
Record bkeys := mk_bk { bk_hours : Z; bk_crashfree : Z; bk_drop : Z; bk_duration : Z; bk_soc : Z; bk_uptime : Z;
  bk_dropped : Z; bk_recorded : Z; bk_expected : Z; bk_connected : Z }.

(** ** memfault_metrics_reliability.c:14-48: s_memfault_last_heartbeat_ms, s_memfault_operational_ms,
    s_memfault_counted_unexpected_reboot.  [now]: the 64-bit time since boot; [unexpected]: what
    memfault_reboot_tracking_get_unexpected_reboot_occurred leaves in unexpected_reboot (false when it
    fails). *)
Record rel := mk_rel { rl_last : Z; rl_ms : Z; rl_counted : bool }.
Definition rel_init : rel := mk_rel 0 0 false.
Definition rel_collect (k : bkeys) (s : rel) (now : Z) (unexpected : bool) : list mop * rel :=
  let t := u32 now in                                                     (* :20 *)
  let ms := u32 (rl_ms s + u32 (t - rl_last s)) in                        (* :21-22 *)
  let hours := ms / 1000 / 3600 in                                        (* :25 *)
  let ms := u32 (ms - u32 (u32 (hours * 3600) * 1000)) in                 (* :27 *)
  if hours =? 0 then ([], mk_rel t ms (rl_counted s))                     (* :32 *)
  else let un := if rl_counted s then false else unexpected in            (* :38-42 *)
       ([OAdd (bk_hours k) (s32 hours);                                   (* :36 *)
         OAdd (bk_crashfree k) (s32 (u32 (hours - (if un then 1 else 0))))],   (* :46 *)
        mk_rel t ms true).
Fixpoint rel_run (k : bkeys) (s : rel) (l : list (Z * bool)) : list (list mop) :=
  match l with [] => [] | (now, un) :: r => let (ops, s) := rel_collect k s now un in ops :: rel_run k s r end.

(** ** memfault_metrics_battery.c:19-27 *)
Record bat := mk_bat { ba_last : Z; ba_start : Z; ba_stopped : bool }.
Definition bat_init : bat := mk_bat 0 0 false.
(** What memfault_platform_get_stateofcharge returns and leaves in its argument: the argument is not
    initialised (:69), so with a non-zero result [rd_discharging] is whatever was there. *)
Record reading := mk_rd { rd_rv : Z; rd_soc : Z; rd_discharging : bool }.
Definition rd_current (r : reading) : Z := if rd_rv r =? 0 then s32 (rd_soc r) else -1.        (* :92, :126 *)
(** memfault_metrics_battery.c:122-130 *)
Definition bat_boot (r : reading) (now : Z) : bat := mk_bat (rd_current r) now (negb (rd_discharging r)).
(** memfault_metrics_battery.c:53-55 *)
Definition bat_stop (s : bat) : bat := mk_bat (ba_last s) (ba_start s) true.
(** memfault_metrics_battery.c:62-120 with :29-51; [None]: signed overflow of the drop (:32). *)
Definition bat_collect (k : bkeys) (s : bat) (r : reading) (now : Z) : option (list mop * bat) :=
  let current := rd_current r in
  let valid := (0 <=? current) && (0 <=? ba_last s) in                    (* :94 *)
  let session := rd_discharging r && negb (ba_stopped s) && valid in      (* :108 *)
  let drop := ba_last s - current in                                      (* :31 *)
  if (-2147483648 <=? drop) && (drop <=? 2147483647) then
    Some ((if session && (0 <=? drop)                                     (* :43 *)
           then [OSetU (bk_drop k) drop; OSetU (bk_duration k) (u32 (now - ba_start s))] else [])
          ++ (if 0 <=? current then [OSetU (bk_soc k) current] else []),  (* :117 *)
          mk_bat current now (negb (rd_discharging r)))                   (* :41, :88, :114 *)
  else None.
Inductive bev := BBoot (r : reading) (now : Z) | BStop | BCollect (r : reading) (now : Z).
Definition bat_step (k : bkeys) (s : bat) (e : bev) : option (list mop * bat) :=
  match e with
  | BBoot r now => Some ([], bat_boot r now)
  | BStop => Some ([], bat_stop s)
  | BCollect r now => bat_collect k s r now
  end.
Fixpoint bat_run (k : bkeys) (s : bat) (l : list bev) : option (list (list mop) * bat) :=
  match l with
  | [] => Some ([], s)
  | e :: r => do x <- bat_step k s e; let (ops, s) := (x : list mop * bat) in
              do y <- bat_run k s r; let (os, s) := (y : list (list mop) * bat) in Some (ops :: os, s)
  end.

(** ** memfault_metrics_connectivity.c:39-65; the states of include/memfault/metrics/connectivity.h.  Both
    timers of a call read the same clock. *)
Inductive cstate := CStopped | CStarted | CConnected | CLost.
Definition conn_change (k : bkeys) (c : cstate) (now : Z) : list mop :=
  match c with
  | CStopped => [OStop (bk_connected k) now; OStop (bk_expected k) now]   (* :42-43 *)
  | CStarted => [OStart (bk_expected k) now]                              (* :46 *)
  | CConnected => [OStart (bk_expected k) now; OStart (bk_connected k) now]     (* :51-52 *)
  | CLost => [OStart (bk_expected k) now; OStop (bk_connected k) now]     (* :58-59 *)
  end.

(** ** memfault_metrics.c:531-546: the counters at the last heartbeat, and the log module's counters now. *)
Definition log_collect (k : bkeys) (s : Z * Z) (dropped recorded : Z) : list mop * (Z * Z) :=
  ([OAdd (bk_dropped k) (s32 (u32 (dropped - fst s))); OAdd (bk_recorded k) (s32 (u32 (recorded - snd s)))], (dropped, recorded)).
Fixpoint log_run (k : bkeys) (s : Z * Z) (l : list (Z * Z)) : list (list mop) :=
  match l with [] => [] | (d, r) :: t => let (ops, s) := log_collect k s d r in ops :: log_run k s t end.

(** ** memfault_metrics.c:576-578; the product has 64 bits. *)
Definition uptime_seconds (ms : Z) : Z := u32 (Z.shiftr (u64 (ms * 4294967)) 32).
Definition uptime_collect (k : bkeys) (ms : Z) : list mop := [OSetU (bk_uptime k) (uptime_seconds ms)].
