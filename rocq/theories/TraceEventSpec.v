(** Independent specification of trace events: what is accepted from interrupts, what is stored, and
    what a stored event means. *)
From Verif Require Import Base CborSpec SerializerHelper SerializerHelperSpec CompactLog CompactLogSpec TraceEvent.

(** Events for which an interrupt was told "captured"; those stored from the slot; those stored directly. *)
Definition accepted (l : list tlog) : list tinfo := flat_map (fun x => match x with LIsr i rv => if rv =? 0 then [i] else [] | _ => [] end) l.
Definition flushed (l : list tlog) : list tinfo := flat_map (fun x => match x with LStored true i _ true => [i] | _ => [] end) l.

Definition idle (p : tpc) : Prop := match p with TIdle => True | _ => False end.
Definition at_rest {St} (s : tmach St) : Prop := tm_isrs s = [] /\ Forall idle (tm_tasks s).
(** The event waiting in the slot. *)
Definition waiting {St} (s : tmach St) : list tinfo := if tm_reason s =? 0 then [] else [tm_info s].

(** The rules a system must follow: a task only calls when no other task is inside the API; no
    interrupt captures an event exactly between another one's test of the slot and its write; the
    reason Unknown (0) is not captured from interrupts. *)
Record rules := mk_rules { one_task : bool; no_race : bool; known_reason : bool }.
Definition all_rules : rules := mk_rules true true true.
Definition follows {St} (R : rules) (cfg : tcfg) (s : tmach St) (e : tsched) : Prop :=
  match e with
  | VCall t _ => one_task R = true -> Forall idle (tm_tasks s)
  | VIsrEnter c => (no_race R = true -> match tm_isrs s with ISet _ :: _ => False | _ => True end) /\
                   (known_reason R = true -> match cap_info cfg true c with Some i => ti_reason i <> 0 | None => True end)
  | _ => True
  end.
Fixpoint follows_all {St} (R : rules) (cfg : tcfg) (sstep : stepper St) (s : tmach St) (es : list tsched) : Prop :=
  match es with
  | [] => True
  | e :: r => follows R cfg s e /\ (match te_step cfg sstep s e with Some (_, s) => follows_all R cfg sstep s r | None => True end)
  end.

(** A trace event with the log as an item of its own. *)
Definition trace_item (env : senv) (reason pc lr : Z) (status : option Z) (log : list (item * item)) : item :=
  event_item env 2 (en_time env)
    (IMap ([(IInt 6, IInt reason)] ++ kv_if (negb (pc =? 0)) 2 (IInt pc) ++ kv_if (negb (lr =? 0)) 3 (IInt lr)
           ++ kv_opt status 7 IInt ++ log)).

(** The event of a capture, from its arguments.  A log captured in an interrupt may be configured away. *)
Definition cap_item (cfg : tcfg) (env : senv) (in_isr : bool) (c : tcap) : item :=
  let drop := in_isr && negb (tc_isr_log cfg) in
  match c with
  | CPlain r pc lr => trace_item env r pc lr None []
  | CStatus r pc lr st => trace_item env r pc lr (Some st) []
  | CLog r pc lr t =>
      trace_item env r pc lr None
        (kv_if (negb drop) 8 (IBytes (match t with Some t => take (tc_max cfg - 1) t | None => [] end)))
  | CCompact r lr id _ args =>
      trace_item env r 0 lr None (kv_if (negb drop) 9 (compact_item ((id - tc_start cfg) mod 4294967296) args))
  end.
(** A compact log has to fit the buffer on the stack. *)
Definition cap_fits (cfg : tcfg) (c : tcap) : Prop :=
  match c with
  | CCompact _ _ id fmt args =>
      match compact_serialize (tc_start cfg) id fmt args with Some p => sh_compute_size p <= tc_max cfg | None => True end
  | _ => True
  end.

Definition tcfg_ok (cfg : tcfg) : Prop := 1 <= tc_max cfg <= 65535.
Definition tinfo_ok (cfg : tcfg) (i : tinfo) : Prop :=
  match ti_log i with Some l => bytes l /\ zlen l <= tc_max cfg | None => True end.
(** Which of the two functions capturing a log exists depends on the configuration. *)
Definition tcap_ok (cfg : tcfg) (c : tcap) : Prop :=
  match c with
  | CPlain r pc lr => is_u32 r /\ is_u32 pc /\ is_u32 lr
  | CStatus r pc lr st => is_u32 r /\ is_u32 pc /\ is_u32 lr /\ is_s32 st
  | CLog r pc lr t => tc_compact cfg = false /\ is_u32 r /\ is_u32 pc /\ is_u32 lr /\ match t with Some t => bytes t | None => True end
  | CCompact r lr id fmt args => tc_compact cfg = true /\ is_u32 r /\ is_u32 lr /\ fmt = compressed_fmt args /\ Forall arg_ok args /\ zlen args <= 15
  end.
Definition tsched_ok (cfg : tcfg) (e : tsched) : Prop :=
  match e with
  | VCall _ c => match c with Some c => tcap_ok cfg c | None => True end
  | VStep _ env => senv_ok env
  | VIsrEnter c => tcap_ok cfg c
  | VIsrStep => True
  | VOther o => shop_ok o
  end.
