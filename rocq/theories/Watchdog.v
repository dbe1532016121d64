(** Model of components/core/src/memfault_task_watchdog.c with MEMFAULT_TASK_WATCHDOG_ENABLE.
    The panic of an expired check and the refresh callback are results of the check.
    [None]: a channel number outside the array. *)
From Verif Require Import Base.

(** task_watchdog_impl.h:25-35: state 0 stopped, 1 started (2, expired, is never stored). *)
Record wchan := mk_wc { wc_fed : Z; wc_state : Z }.
Definition wd := list wchan.

(** memfault_task_watchdog.c:30-32; [n] is kMemfaultTaskWatchdogChannel_NumChannels. *)
Definition wd_init (n : nat) : wd := repeat (mk_wc 0 0) n.

(** memfault_task_watchdog.c:34-41; both times are converted to 64 bits before the subtraction. *)
Definition wd_expired (timeout : Z) (c : wchan) (now : Z) : bool :=
  (wc_state c =? 1) && (timeout <? u64 (now - wc_fed c)).

(** memfault_task_watchdog.c:43-56 *)
Fixpoint wd_count (timeout : Z) (w : wd) (now : Z) : Z :=
  match w with
  | [] => 0
  | c :: r => (if wd_expired timeout c now then 1 else 0) + wd_count timeout r now
  end.

Fixpoint wd_upd (w : wd) (i : nat) (f : wchan -> wchan) : option wd :=
  match w, i with
  | [], _ => None
  | c :: r, O => Some (f c :: r)
  | c :: r, S i => do r <- wd_upd r i f; Some (c :: r)
  end.

Inductive wd_op := WStart (i : nat) | WFeed (i : nat) | WStop (i : nat) | WCheck | WBookkeep.
Inductive wd_res := WDone | WPanic | WRefresh.

(** memfault_task_watchdog.c:57-92; [now] is the 32-bit time since boot. *)
Definition wd_step (timeout : Z) (w : wd) (now : Z) (o : wd_op) : option (wd_res * wd) :=
  match o with
  | WStart i => do w <- wd_upd w i (fun _ => mk_wc now 1); Some (WDone, w)
  | WFeed i => do w <- wd_upd w i (fun c => mk_wc now (wc_state c)); Some (WDone, w)
  | WStop i => do w <- wd_upd w i (fun c => mk_wc (wc_fed c) 0); Some (WDone, w)
  | WCheck => Some (if 0 <? wd_count timeout w now then WPanic else WRefresh, w)
  | WBookkeep => Some (WDone, w)
  end.

(** [t] is the true time since boot; memfault_platform_get_time_since_boot_ms returns 32 bits of it. *)
Fixpoint wd_run (timeout : Z) (w : wd) (ops : list (Z * wd_op)) : option (list wd_res * wd) :=
  match ops with
  | [] => Some ([], w)
  | (t, o) :: r =>
      do x <- wd_step timeout w (u32 t) o;
      let (res, w) := x in
      do y <- wd_run timeout w r;
      let (rs, w) := y in Some (res :: rs, w)
  end.
