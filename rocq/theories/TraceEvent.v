(** Model of components/core/src/memfault_trace_event.c as a small-step machine: any number of tasks,
    and interrupts that preempt them (and each other) between any two accesses to the shared slot. *)
From Verif Require Import Base Cbor SerializerHelper CompactLog.

(** memfault_trace_event.c:32-48; the bits of opt_fields are the presence of the option. *)
Record tinfo := mk_ti { ti_reason : Z; ti_pc : Z; ti_lr : Z; ti_status : option Z; ti_log : option (list Z) }.
(** MEMFAULT_COMPACT_LOG_ENABLE, MEMFAULT_TRACE_EVENT_WITH_LOG_FROM_ISR_ENABLED,
    MEMFAULT_TRACE_EVENT_MAX_LOG_LEN and the address of the section of format strings. *)
Record tcfg := mk_tc { tc_compact : bool; tc_isr_log : bool; tc_max : Z; tc_start : Z }.

(** memfault_trace_event.c:68-108; the keys are those of serializer_key_ids.h:55-58. *)
Definition e_trace_event (cfg : tcfg) (env : senv) (i : tinfo) : eprog :=
  let extra := (match ti_status i with Some _ => 1 | None => 0 end) + (match ti_log i with Some _ => 1 | None => 0 end) in
  e_and (e_trace env 6 (ti_reason i) (ti_pc i) (ti_lr i) extra)                         (* :81-89 *)
  (e_and (match ti_status i with Some st => e_s32 7 st | None => ERet true end)         (* :91-94 *)
         (match ti_log i with
          | Some l => if tc_compact cfg then e_all [OpUnsigned 9; OpJoin l] else e_bytes 8 l   (* :96-105 *)
          | None => ERet true end)).

(** memfault_trace_event.c:282-292; [num] is kMfltTraceReasonUser_NumReasons *)
Definition worst_trace (num : Z) : tinfo := mk_ti num 4294967295 4294967295 (Some 2147483647) None.
Definition trace_worst_size (cfg : tcfg) (env : senv) (num : Z) : Z := sh_compute_size (e_trace_event cfg env (worst_trace num)).

(** The four capture functions, memfault_trace_event.c:192-278.  [CLog]: the text vsnprintf makes of
    the format and its arguments ([None]: it fails). *)
Inductive tcap :=
| CPlain (reason pc lr : Z) | CStatus (reason pc lr status : Z)
| CLog (reason pc lr : Z) (text : option (list Z))
| CCompact (reason lr log_id fmt : Z) (args : list larg).
Definition cap_info (cfg : tcfg) (in_isr : bool) (c : tcap) : option tinfo :=
  match c with
  | CPlain r pc lr => Some (mk_ti r pc lr None None)
  | CStatus r pc lr st => Some (mk_ti r pc lr (Some st) None)
  | CLog r pc lr text =>
      if in_isr && negb (tc_isr_log cfg) then Some (mk_ti r pc lr None None)            (* :217-222 *)
      else Some (mk_ti r pc lr None (Some (match text with
             | None => []
             | Some t => take (Z.min (tc_max cfg - 1) (zlen t)) t end)))                (* :227-232 *)
  | CCompact r lr id fmt args =>
      if in_isr && negb (tc_isr_log cfg) then Some (mk_ti r 0 lr None None)             (* :250-255 *)
      else do p <- compact_serialize (tc_start cfg) id fmt args;
           Some (mk_ti r 0 lr None (Some (ce_output (snd (eprog_run (cbor_init (tc_max cfg)) p)))))   (* :261-264; the result of the serializer is ignored *)
  end.

(** Where an interrupt is in prv_trace_event_capture_from_isr (:122-145): about to test the reason,
    to write it, to write the rest. *)
Inductive iframe := ICheck (i : tinfo) | ISet (i : tinfo) | ICopy (i : tinfo).
(** Where a task is: about to test the reason (:160), to store the pending event (:164), to free the
    slot (:167), to store its own event (:189).  [k]: the event it captures, [None] when it only flushes. *)
Inductive tpc := TIdle | TCheck (k : option tinfo) | TFlush (k : option tinfo) | TClear (k : option tinfo) | TStore (i : tinfo).

Record tmach (St : Type) := mk_tm {
  tm_booted : bool; tm_reason : Z; tm_info : tinfo;           (* :52, :118 *)
  tm_isrs : list iframe; tm_tasks : list tpc; tm_store : St }.
Arguments mk_tm {St}. Arguments tm_booted {St}. Arguments tm_reason {St}. Arguments tm_info {St}. Arguments tm_isrs {St}.
Arguments tm_tasks {St}. Arguments tm_store {St}.

(** What is scheduled: a task calls an API function or does its next step; an interrupt arrives and
    calls a capture function; the running interrupt does its next step; somebody else uses the storage. *)
Inductive tsched := VCall (t : nat) (c : option tcap) | VStep (t : nat) (env : senv) | VIsrEnter (c : tcap) | VIsrStep | VOther (o : sh_op).
(** What happened: an interrupt's or a task's call returned; an event was given to the storage (from
    the slot or directly) and accepted or not. *)
Inductive tlog := LIsr (i : tinfo) (rv : Z) | LDone (t : nat) (rv : Z) | LStored (from_slot : bool) (i : tinfo) (env : senv) (ok : bool) | LOther (r : sh_res).

Fixpoint set_nth {A} (n : nat) (x : A) (l : list A) : list A :=
  match n, l with _, [] => [] | O, _ :: r => x :: r | S n, y :: r => y :: set_nth n x r end.

(** The storage and its steps are parameters: the queue of the specification or the model of it. *)
Definition stepper (St : Type) := St -> sh_op -> option (sh_res * St).

(** memfault_trace_event.c:147-157: [None] when the storage is not there or breaks. *)
Definition te_store {St} (cfg : tcfg) (sstep : stepper St) (s : tmach St) (env : senv) (i : tinfo) : option (bool * St) :=
  if tm_booted s then
    do x <- sstep (tm_store s) (SEncode (e_trace_event cfg env i));
    match x with (RSaved b, st) => Some (b, st) | _ => None end
  else None.
Definition set_task {St} (s : tmach St) (t : nat) (p : tpc) : tmach St :=
  mk_tm (tm_booted s) (tm_reason s) (tm_info s) (tm_isrs s) (set_nth t p (tm_tasks s)) (tm_store s).

(** One step of a task; the continuation after the flush is :184-189 or the return of :159-170. *)
Definition task_step {St} (cfg : tcfg) (sstep : stepper St) (s : tmach St) (t : nat) (env : senv) : option (list tlog * tmach St) :=
  match nth_error (tm_tasks s) t with
  | Some (TCheck k) =>
      if tm_reason s =? 0
      then match k with None => Some ([LDone t 0], set_task s t TIdle) | Some i => Some ([], set_task s t (TStore i)) end
      else Some ([], set_task s t (TFlush k))
  | Some (TFlush k) =>
      do x <- te_store cfg sstep s env (tm_info s);
      let (ok, st) := x in
      let s1 := mk_tm (tm_booted s) (tm_reason s) (tm_info s) (tm_isrs s) (tm_tasks s) st in
      if ok then Some ([LStored true (tm_info s) env true], set_task s1 t (TClear k))
      else Some ([LStored true (tm_info s) env false; LDone t (-2)], set_task s1 t TIdle)
  | Some (TClear k) =>
      let s1 := mk_tm (tm_booted s) 0 (tm_info s) (tm_isrs s) (tm_tasks s) (tm_store s) in
      match k with None => Some ([LDone t 0], set_task s1 t TIdle) | Some i => Some ([], set_task s1 t (TStore i)) end
  | Some (TStore i) =>
      do x <- te_store cfg sstep s env i;
      let (ok, st) := x in
      let s1 := mk_tm (tm_booted s) (tm_reason s) (tm_info s) (tm_isrs s) (tm_tasks s) st in
      Some ([LStored false i env ok; LDone t (if ok then 0 else -2)], set_task s1 t TIdle)
  | _ => Some ([], s)
  end.
(** One step of the interrupt that runs (the head of the list), :122-145.  Copying a log longer than
    the buffer is out of bounds. *)
Definition isr_step {St} (cfg : tcfg) (s : tmach St) : option (list tlog * tmach St) :=
  match tm_isrs s with
  | [] => Some ([], s)
  | ICheck i :: r =>
      if tm_reason s =? 0
      then Some ([], mk_tm (tm_booted s) (tm_reason s) (tm_info s) (ISet i :: r) (tm_tasks s) (tm_store s))
      else Some ([LIsr i (-2)], mk_tm (tm_booted s) (tm_reason s) (tm_info s) r (tm_tasks s) (tm_store s))
  | ISet i :: r => Some ([], mk_tm (tm_booted s) (ti_reason i) (tm_info s) (ICopy i :: r) (tm_tasks s) (tm_store s))
  | ICopy i :: r =>
      match ti_log i with
      | Some l => if tc_max cfg <? zlen l then None
                  else Some ([LIsr i 0], mk_tm (tm_booted s) (tm_reason s) i r (tm_tasks s) (tm_store s))
      | None => Some ([LIsr i 0], mk_tm (tm_booted s) (tm_reason s) i r (tm_tasks s) (tm_store s))
      end
  end.
(** Tasks do not run while an interrupt does. *)
Definition te_step {St} (cfg : tcfg) (sstep : stepper St) (s : tmach St) (e : tsched) : option (list tlog * tmach St) :=
  match e with
  | VCall t c =>
      match tm_isrs s, nth_error (tm_tasks s) t with
      | [], Some TIdle =>
          match c with
          | None => Some ([], set_task s t (TCheck None))
          | Some c => do i <- cap_info cfg false c;
                      if tm_booted s then Some ([], set_task s t (TCheck (Some i))) else Some ([LDone t (-1)], s)   (* :173-175 *)
          end
      | _, _ => Some ([], s)
      end
  | VStep t env => match tm_isrs s with [] => task_step cfg sstep s t env | _ => Some ([], s) end
  | VIsrEnter c =>
      do i <- cap_info cfg true c;
      if tm_booted s then Some ([], mk_tm (tm_booted s) (tm_reason s) (tm_info s) (ICheck i :: tm_isrs s) (tm_tasks s) (tm_store s))
      else Some ([LIsr i (-1)], s)
  | VIsrStep => isr_step cfg s
  | VOther o => match tm_isrs s with
                | [] => do x <- sstep (tm_store s) o; let (r, st) := x in
                        Some ([LOther r], mk_tm (tm_booted s) (tm_reason s) (tm_info s) (tm_isrs s) (tm_tasks s) st)
                | _ => Some ([], s)
                end
  end.
Fixpoint te_run {St} (cfg : tcfg) (sstep : stepper St) (s : tmach St) (es : list tsched) : option (list tlog * tmach St) :=
  match es with
  | [] => Some ([], s)
  | e :: r => do x <- te_step cfg sstep s e; let (l, s) := x in
              do y <- te_run cfg sstep s r; let (l2, s) := y in Some (l ++ l2, s)
  end.

(** After boot (:54-66; [booted]: the storage passed the size check), with [n] tasks. *)
Definition te_init {St} (booted : bool) (n : nat) (st : St) : tmach St :=
  mk_tm booted 0 (mk_ti 0 0 0 None None) [] (repeat TIdle n) st.
