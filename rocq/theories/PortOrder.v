(** Model of the boot function of the ports: which part of the SDK is started when, on top of the models
    of reboot tracking (Reboot.v) and of the event storage.

    Simplified: trace events are only told the storage; of memfault_metrics_boot only the locks and the
    crash count handed to it are modelled (what it stores comes after, C63); a line kept by the log is
    kept whole (C16 has the buffer itself); the steps after the last one listed (ISR hooks, battery, the
    CLI, the upload timer, NTP) are left out.  A line is printed when it is handed to the logging of the
    platform. *)
From Verif Require Import Base EventStorage SerializerHelper Reboot.

(** memfault_platform_core.c:147-155 of esp_idf; memfault_core_utils.c:111-139 (the four lines of the
    device are one); the last line of the boot functions. *)
Inductive bline := LReason | LBuild | LDevice | LReady.
Inductive bstep := BLocks | BLog | BTrack | BStore | BTrace | BCollect | BMetrics | BLine (l : bline).

(** [b_locks]: the mutex exists (a lock taken before that is an assertion of FreeRTOS, [None] here).
    [b_log]: the lines kept, [None] before memfault_log_boot.  [b_out]: the lines printed.  [b_count]:
    the crash count handed to the metrics. *)
Record bworld := mk_bw {
  b_locks : bool; b_log : option (list bline); b_out : list bline; b_rt : rt; b_store : option sh;
  b_trace : bool; b_count : option Z }.

Section Boot.
(** [storage]: the array given to memfault_events_storage_boot; [load] as in [rt_boot]; [info]: what
    memfault_reboot_reason_get answers; [saves]: a line printed by MEMFAULT_LOG_INFO is also saved. *)
Context (env : senv) (storage : list Z) (load : option rinfo) (info : Z * Z) (saves : bool).
Definition bl_step (w : bworld) (s : bstep) : option bworld :=
  match s with
  (* ports/freertos/src/memfault_core_freertos.c:64-66 and esp_idf memfault_platform_core.c:227 *)
  | BLocks => Some (mk_bw true (b_log w) (b_out w) (b_rt w) (b_store w) (b_trace w) (b_count w))
  (* memfault_log.c:507-529: a second boot is refused *)
  | BLog => Some (mk_bw (b_locks w) (match b_log w with None => Some [] | l => l end) (b_out w) (b_rt w) (b_store w) (b_trace w) (b_count w))
  (* memfault_ram_reboot_info_tracking.c:173-197 *)
  | BTrack => Some (mk_bw (b_locks w) (b_log w) (b_out w) (rt_boot (b_rt w) true load (Some info)) (b_store w) (b_trace w) (b_count w))
  (* memfault_event_storage.c:317-330; there, an array of no size still answers the interface *)
  | BStore =>
      do x <- es_boot storage (zlen storage);
      Some (mk_bw (b_locks w) (b_log w) (b_out w) (b_rt w) (match x with Some s => Some (mk_sh s 0 0) | None => None end) (b_trace w) (b_count w))
  (* memfault_trace_event.c:54-66: refuses no storage (the size check is left out) *)
  | BTrace => Some (mk_bw (b_locks w) (b_log w) (b_out w) (b_rt w) (b_store w)
                          (match b_store w with Some _ => true | None => b_trace w end) (b_count w))
  (* memfault_reboot_tracking_serializer.c:69-107: refuses no storage; locks only to store *)
  | BCollect =>
      match b_store w with
      | None => Some w
      | Some st =>
          do x <- rt_step (b_rt w) TRead;
          match fst x with
          | TInfo (Some _) =>
              if b_locks w then
                do y <- rt_collect env (b_rt w) st; let '(_, r, st) := y in
                Some (mk_bw (b_locks w) (b_log w) (b_out w) r (Some st) (b_trace w) (b_count w))
              else None
          | _ => Some w
          end
      end
  (* memfault_metrics.c:1387-1428 with the count read first, e.g. da1469x memfault_platform_core.c:28-31 *)
  | BMetrics =>
      do x <- rt_step (b_rt w) TCount;
      match fst x, b_store w with
      | TNum n, Some _ =>
          if b_locks w then Some (mk_bw (b_locks w) (b_log w) (b_out w) (snd x) (b_store w) (b_trace w) (Some n)) else None
      | _, _ => Some (mk_bw (b_locks w) (b_log w) (b_out w) (snd x) (b_store w) (b_trace w) (b_count w))
      end
  (* debug_log.h:34-59: printed, and saved by memfault_log.c:367-440, which locks only when booted *)
  | BLine l =>
      match b_log w with
      | None => Some (mk_bw (b_locks w) None (b_out w ++ [l]) (b_rt w) (b_store w) (b_trace w) (b_count w))
      | Some ls =>
          if negb saves then Some (mk_bw (b_locks w) (Some ls) (b_out w ++ [l]) (b_rt w) (b_store w) (b_trace w) (b_count w))
          else if b_locks w then Some (mk_bw (b_locks w) (Some (ls ++ [l])) (b_out w ++ [l]) (b_rt w) (b_store w) (b_trace w) (b_count w)) else None
      end
  end.
Fixpoint bl_run (w : bworld) (l : list bstep) : option bworld :=
  match l with [] => Some w | s :: r => do w <- bl_step w s; bl_run w r end.
End Boot.

(** The ports, with the options that change the steps: ESP-IDF's MEMFAULT_ENABLE_REBOOT_DIAG_DUMP and
    CONFIG_MEMFAULT_LOG_USE_VPRINTF_HOOK,
    ESP8266's CONFIG_MEMFAULT_EVENT_HEARTBEATS_ENABLED, Mynewt's MEMFAULT_METRICS_COMPONENT_ENABLE,
    Particle's MEMFAULT_PARTICLE_PORT_LOG_STORAGE_ENABLE, Zephyr's
    CONFIG_MEMFAULT_RECORD_REBOOT_ON_SYSTEM_INIT and CONFIG_MEMFAULT_METRICS. *)
Inductive bport :=
| PDa145xx | PDa1469x | PPsoc6 | PTemplate | PMynewt (metrics : bool) | PEspIdf (diag hook : bool) | PEsp8266 (metrics : bool)
| PZephyr (record metrics : bool) | PParticle (logs : bool).
(** ports/freertos and ESP-IDF make their mutex at boot; Zephyr's is static
    (ports/zephyr/common/memfault_platform_lock.c:12), the others' locks do nothing
    (memfault_event_storage.c:41). ESP8266 makes it before this function
    (esp8266_sdk/memfault/memfault_platform_core.c:99-105). *)
Definition locks_at_start (p : bport) : bool :=
  match p with PDa1469x | PPsoc6 | PEspIdf _ _ => false | _ => true end.
(** Whether MEMFAULT_LOG_INFO saves what it prints: by debug_log.h:47-51 and
    ports/cypress/psoc6/configs/memfault_platform_log_config.h:23-27 it does.  ESP-IDF and Zephyr turn it off
    (memfault_esp_idf_port_config.h:77, memfault_zephyr_platform_config.h:37); ESP-IDF's logging then
    saves by its hook (memfault_platform_core.c:231-233), Zephyr's by a backend that is not started here.  The macros of
    Particle (memfault_platform_log_config.h:18-34) and Mynewt (memfault_platform_log_config.h:14-21) only print. *)
Definition line_saves (p : bport) : bool :=
  match p with PEspIdf _ hook => hook | PZephyr _ _ | PParticle _ | PMynewt _ => false | _ => true end.
Definition boot_steps (p : bport) : list bstep :=
  match p with
  (* ports/dialog/da145xx/memfault_platform_core.c:18-36 *)
  | PDa145xx => [BTrack; BLine LBuild; BLine LDevice; BStore; BTrace; BCollect; BMetrics]
  (* ports/dialog/da1469x/memfault_platform_core.c:15-34 *)
  | PDa1469x => [BLocks; BTrack; BLine LBuild; BLine LDevice; BStore; BTrace; BCollect; BMetrics]
  (* ports/cypress/psoc6/memfault_platform_core.c:157-182 *)
  | PPsoc6 => [BLine LBuild; BLine LDevice; BLocks; BTrack; BStore; BTrace; BCollect; BMetrics; BLog; BLine LReady]
  (* ports/templates/memfault_platform_port.c:148-176 *)
  | PTemplate => [BLine LBuild; BLine LDevice; BTrack; BStore; BTrace; BCollect; BMetrics; BLine LReady]
  (* ports/mynewt/src/memfault_platform_port.c:103-125 *)
  | PMynewt metrics => [BLine LBuild; BLine LDevice; BTrack; BStore; BTrace; BCollect] ++ (if metrics then [BMetrics] else []) ++ [BLine LReady]
  (* ports/esp_idf/memfault/common/memfault_platform_core.c:226-247 with :135-164 *)
  | PEspIdf diag _ => [BLocks; BLog] ++ (if diag then [BLine LReason] else []) ++ [BTrack; BStore; BTrace; BCollect; BMetrics; BLine LBuild]
  (* ports/esp8266_sdk/memfault/memfault_platform_events.c:25-41 *)
  | PEsp8266 metrics => [BTrack; BStore; BTrace; BCollect] ++ (if metrics then [BMetrics] else [])
  (* ports/zephyr/common/memfault_platform_core.c:261-290 *)
  | PZephyr record metrics => [BTrack; BStore] ++ (if record then [BCollect] else []) ++ [BTrace] ++ (if metrics then [BMetrics] else []) ++ [BLine LBuild]
  (* ports/particle/src/memfault.cpp:522-566 *)
  | PParticle logs => (if logs then [BLog] else []) ++ [BLine LBuild; BLine LDevice; BTrack; BStore; BTrace; BCollect; BMetrics; BLine LReady]
  end.
(** The device after a reset: [m] is in the memory that reboot tracking keeps. *)
Definition reset_world (p : bport) (m : rinfo) : bworld := mk_bw (locks_at_start p) None [] (mk_rt false m None) None false None.
Definition port_boot (p : bport) (env : senv) (storage : list Z) (load : option rinfo) (info : Z * Z) (m : rinfo) : option bworld :=
  bl_run env storage load info (line_saves p) (reset_world p m) (boot_steps p).
