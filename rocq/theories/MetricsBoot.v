(** Model of memfault_metrics_boot and of sessions as reboot tracking knows them
    (components/metrics/src/memfault_metrics.c:1097-1154 and :1343-1428), on top of the models of the
    metrics (Metrics.v) and of reboot tracking (Reboot.v).

    Simplified: no start or end callback is registered for the sessions (s_session_start_cbs and
    s_session_end_cbs, :1103-1107 and :1125-1128, are NULL); locks; storage_impl and info are not NULL (:1390-1392); the timer
    the port starts (:1397-1401), the check of the storage size (:1403-1406) and whether the storage takes
    an event are inputs; memfault_platform_metrics_connectivity_boot (:1423-1425) does not touch what is
    modelled. *)
From Verif Require Import Base Metrics Reboot.

(** The keys of the generated tables: operational_crashes of each user session
    (s_memfault_metrics_operational_crashes_keys, memfault_metrics.c:115-144, without its last, blank
    entry), MemfaultSdkMetric_IntervalMs and MemfaultSdkMetric_UnexpectedRebootCount of the heartbeat. *)
Record mb_cfg := mk_mbc { mb_crash : list Z; mb_interval : Z; mb_count : Z }.

(** memfault_metrics.c:49 *)
Definition TIMER_BOOT_FAILED : Z := -6.

(** An event handed to the storage: its session, what it says, whether the storage took it. *)
Definition sevent := (Z * list mitem * bool)%type.

Section Device.
(** The metrics and the reboot tracking under it, as step functions. *)
Context {M R : Type} (mstep : M -> mop -> option (mres * M)) (rstep : R -> rt_op -> option (rt_res * R)) (cfg : mb_cfg).
Definition mb_met (s : M * R) (o : mop) : option (mres * (M * R)) :=
  do x <- mstep (fst s) o; Some (fst x, (snd x, snd s)).
Definition mb_trk (s : M * R) (o : rt_op) : option (rt_res * (M * R)) :=
  do x <- rstep (snd s) o; Some (fst x, (fst s, snd x)).

(** prv_metrics_session_start, memfault_metrics.c:1097-1121: the metrics are reset and the timer started,
    then the session is marked active, whatever the timer said. *)
Definition mb_start (s : M * R) (k : Z) (timer : bool) (now : Z) : option (mres * (M * R)) :=
  do x <- mb_met s (OSessStart k timer now);
  do y <- mb_trk (snd x) (TSession true k);
  Some (fst x, snd y).
(** prv_metrics_session_end, memfault_metrics.c:1127-1154: the event is made only when the timer could be
    stopped; the session is marked inactive in any case. *)
Definition mb_end (s : M * R) (k : Z) (timer : bool) (now : Z) (stored : bool) : option (mres * (M * R)) :=
  do x <- mb_met s (OSessEnd k timer now stored);
  do y <- mb_trk (snd x) (TSession false k);
  Some (fst x, snd y).
Definition ended (k : Z) (stored : bool) (r : mres) : list sevent :=
  match r with REnd _ (Some l) => [(k, l, stored)] | _ => [] end.

(** prv_session_check_for_unexpected_reboot, memfault_metrics.c:1343-1385: [n] sessions are left, [k] is
    the next; [asked]: rv == 0, the reboot was already found to be unexpected.  The results of the calls
    are ignored. *)
Fixpoint mb_check (n : nat) (k : Z) (asked : bool) (now : Z) (stored : Z -> bool) (s : M * R) : option (list sevent * (M * R)) :=
  match n with
  | O => Some ([], s)
  | S n =>
      do u <- (if asked then Some (TBool true, s) else mb_trk s TUnexpected);
      match fst u with
      | TBool true =>
          do w <- mb_trk (snd u) (TWasActive k);
          match fst w with
          | TBool true =>
              do x <- mb_start (snd w) k false now;
              do key <- get (mb_crash cfg) k;
              do y <- mb_met (snd x) (OAdd key 1);
              do z <- mb_end (snd y) k false now (stored k);
              do r <- mb_check n (k + 1) true now stored (snd z);
              Some (ended k (stored k) (fst z) ++ fst r, snd r)
          | _ => mb_check n (k + 1) true now stored (snd w)
          end
      | _ => Some ([], snd u)
      end
  end.

(** memfault_metrics_boot, memfault_metrics.c:1388-1428, with the clearing of the active sessions at :1384. *)
Definition mb_boot (timer_ok size_ok : bool) (count now : Z) (stored : Z -> bool) (s : M * R) : option (Z * list sevent * (M * R)) :=
  do x <- mb_met s OFullReset;
  if negb timer_ok then Some (TIMER_BOOT_FAILED, [], snd x)
  else if negb size_ok then Some (STORAGE_TOO_SMALL, [], snd x)
  else
    do y <- mb_met (snd x) (OStart (mb_interval cfg) now);
    match fst y with
    | RRv 0 =>
        do z <- mb_met (snd y) (OSetU (mb_count cfg) count);
        match fst z with
        | RRv 0 =>
            do c <- mb_check (length (mb_crash cfg)) 0 false now stored (snd z);
            do e <- mb_trk (snd c) TClearSessions;
            Some (0, fst c, snd e)
        | RRv rv => Some (rv, [], snd z)
        | _ => None
        end
    | RRv rv => Some (rv, [], snd y)
    | _ => None
    end.
End Device.

(** ** Histories of a device *)
Inductive dop :=
| DMetric (o : mop)                        (* a call of the metrics but not of their sessions *)
| DStart (session now : Z)                 (* memfault_metrics_session_start, :1123-1125 *)
| DEnd (session now : Z) (stored : bool)   (* memfault_metrics_session_end, :1156-1158 *)
| DTrack (o : rt_op)                       (* a call of reboot tracking, or the device resets *)
| DBoot (timer_ok size_ok : bool) (count now : Z) (stored : Z -> bool).
Inductive dres :=
| DRMetric (r : mres) (events : list sevent) | DRTrack (r : rt_res) | DRBoot (rv : Z) (events : list sevent).

Section History.
(** [fresh]: the metrics as the static initialisers leave them, also after a reset of the device. *)
Context {M R : Type} (mstep : M -> mop -> option (mres * M)) (rstep : R -> rt_op -> option (rt_res * R)) (cfg : mb_cfg) (fresh : M).
Definition mb_step (s : M * R) (o : dop) : option (dres * (M * R)) :=
  match o with
  | DMetric o => do x <- mb_met mstep s o; Some (DRMetric (fst x) [], snd x)
  | DStart k now => do x <- mb_start mstep rstep s k true now; Some (DRMetric (fst x) [], snd x)
  | DEnd k now stored => do x <- mb_end mstep rstep s k true now stored; Some (DRMetric (fst x) (ended k stored (fst x)), snd x)
  | DTrack o =>
      do x <- mb_trk rstep s o;
      Some (DRTrack (fst x), match o with TReset _ => (fresh, snd (snd x)) | _ => snd x end)
  | DBoot t z count now stored =>
      do x <- mb_boot mstep rstep cfg t z count now stored s; let '(rv, ev, s) := x in Some (DRBoot rv ev, s)
  end.
Fixpoint mb_run (s : M * R) (ops : list dop) : option (list dres * (M * R)) :=
  match ops with
  | [] => Some ([], s)
  | o :: r => do x <- mb_step s o; do y <- mb_run (snd x) r; Some (fst x :: fst y, snd y)
  end.
End History.

(** The device: the metrics and the reboot tracking of the SDK. *)
Definition dev_step (defs : list mdef) (timers : list Z) (cfg : mb_cfg) := mb_step (me_step defs timers) rt_step cfg (ms_init defs).
Definition dev_run (defs : list mdef) (timers : list Z) (cfg : mb_cfg) := mb_run (me_step defs timers) rt_step cfg (ms_init defs).
Definition dev_init (defs : list mdef) (m : rinfo) : mstate * rt := (ms_init defs, mk_rt false m None).
