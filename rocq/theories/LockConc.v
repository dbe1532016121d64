(** Calls that run under memfault_lock() from their first access to their last, made by any number of
    tasks: the log (components/core/src/memfault_log.c:190-194, :270-286, :412-470) and the metrics
    (components/metrics/src/memfault_metrics.c:733-775, :984-1113).  What the body of a section does
    access by access is left open: any program. *)
From Verif Require Import Base Conc CircularBuffer Log Metrics.

(** memfault_log.c:414-441, :463-465 and memfault_metrics.c:736-742: a call, with the test some make
    before they take the lock ([early]: memfault_log.c:414 and :366-376; a result ends the call). *)
Definition section {S R} (body : prog S R) : prog S R := lock ;; let* r := body in unlock ;; Ret r.
Definition guarded {S R} (early : option (S -> option R)) (body : prog S R) : prog S R :=
  match early with
  | None => section body
  | Some f => let* x := fetch f in match x with Some r => Ret r | None => section body end
  end.

(** The body alone: no other task in between. *)
Fixpoint solo {S A} (p : prog S A) (s : S) : option (A * S) :=
  match p with
  | Ret a => Some (a, s)
  | Lock k | Unlock k => solo k s
  | Act f k => match f s with Some (x, s) => solo (k x) s | None => None end
  end.
(** It takes no lock, and changes nothing of what the early test reads. *)
Fixpoint lock_free {S A} (p : prog S A) : Prop :=
  match p with Ret _ => True | Lock _ | Unlock _ => False | Act _ k => forall x, lock_free (k x) end.
Fixpoint keeps {S A K} (key : S -> K) (p : prog S A) : Prop :=
  match p with
  | Ret _ => True
  | Lock k | Unlock k => keeps key k
  | Act f k => (forall s x s', f s = Some (x, s') -> key s' = key s) /\ forall x, keeps key (k x)
  end.

(** ** The log *)
(** memfault_log.c:414 and :366-376: the level is compared before the lock is taken. *)
Definition log_early (o : log_op) : option (Z -> option log_res) :=
  match o with
  | LSave level _ _ _ => Some (fun min => if level <? min then Some (RSaved false) else None)
  | _ => None
  end.
(** The calls of the log, around any body. *)
Definition log_code (body : log_op -> prog lg log_res) (o : log_op) : prog lg log_res :=
  guarded (match log_early o with Some f => Some (fun s => f (lg_min s)) | None => None end) (body o).
(** memfault_log.c:441-462, one body of a save: free space, count, and write the header, the time and
    the text, each as one access. *)
Definition p_save (cfg : log_cfg) (level type : Z) (ts : option Z) (log : list Z) : prog lg log_res :=
  let ts_len := match ts with Some _ => 4 | None => 0 end in
  let trunc := Z.min (zlen log) (u32 (cfg - ts_len)) in
  let total := u8 (trunc + ts_len) in
  let write := fun l => Act (fun s => do w <- cb_write (lg_cb s) l; Some (tt, lset_cb s (snd w))) Ret in
  let* ok := Act (fun s => log_try_free_space s (2 + total)) Ret in                        (* :443 *)
  if (ok : bool) then
    change (fun s => lset_recorded s (u32 (lg_recorded s + 1))) ;;                         (* :445 *)
    write [log_build_header level type (match ts with Some _ => true | None => false end); total] ;;
    (match ts with Some t => write (le32 (u32 t)) | None => Ret tt end) ;;                 (* :452-455 *)
    write (take trunc log) ;;                                                              (* :457 *)
    Ret (RSaved true)
  else
    change (fun s => lset_dropped s (u32 (lg_dropped s + 1))) ;; Ret (RSaved false).       (* :460 *)
(** memfault_log.c:190-194 and :281-283: the other two sections, as one access. *)
Definition log_body (cfg : log_cfg) (ts_enabled : bool) (o : log_op) : prog lg log_res :=
  match o with
  | LSave level type ts log => p_save cfg level type ts log
  | _ => Act (fun s => log_step cfg ts_enabled s o) Ret
  end.

(** ** The metrics *)
(** memfault_metrics.c:733-775, :984-1113: the calls, around any body. *)
Definition me_code (body : mop -> prog mstate mres) (o : mop) : prog mstate mres := guarded None (body o).
(** memfault_metrics.c:937-993, one body of an addition: read the value, write it, set its flag.
    Anything else as one access. *)
Definition me_body (defs : list mdef) (timers : list Z) (o : mop) : prog mstate mres :=
  match o with
  | OAdd key amount =>
      let put := fun k n =>
        Act (fun s => do v <- zset (ms_vals s) k n; Some (tt, set_vals s v)) Ret ;;
        Act (fun s => do s <- me_flag_set s k; Some (tt, s)) Ret ;;                        (* :988 *)
        Ret (RRv 0) in
      let* f := Act (fun s => do f <- me_find defs s key; Some (f, s)) Ret in
      match f with
      | None => Ret (RRv KEY_NOT_FOUND)
      | Some i =>
          match md_type (mi_def i), mi_place i with
          | MSigned, PVal k =>
              let* raw := Act (fun s => do r <- get (ms_vals s) k; Some (r, s)) Ret in
              let n := s32 raw + amount in
              put k (u32 (if 2147483647 <? n then 2147483647 else if n <? -2147483648 then -2147483648 else n))
          | MUnsigned, PVal k =>
              let* raw := Act (fun s => do r <- get (ms_vals s) k; Some (r, s)) Ret in
              let n := u32 (raw + u32 amount) in
              put k (if xorb (0 <? amount) (raw <? n) then if 0 <? amount then 4294967295 else 0 else n)
          | _, _ => Ret (RRv TYPE_INCOMPATIBLE)
          end
      end
  | _ => Act (fun s => me_step defs timers s o) Ret
  end.

(** ** Calls in two sections *)
(** memfault_log_data_source.c:50-76: count under the lock, then set the trigger under the lock again. *)
Definition p_trigger (time : option Z) : prog lg log_res :=
  let* t := fetch lg_trig in                                            (* :51 *)
  if (t : bool) then Ret RDone else
  let* n := section (Act (fun s => do n <- log_count_unsent s; Some (n, s)) Ret) in        (* :57 *)
  if n =? 0 then Ret RDone else                                         (* :58-60 *)
  lock ;;
  let* t := fetch lg_trig in                                            (* :65 *)
  if (t : bool) then unlock ;; Ret RDone else
  change (fun s => lset_trig s true n time) ;; unlock ;; Ret RDone.     (* :69-75 *)
(** memfault_log_data_source.c:275-286: mark under the lock, then reset under the lock again. *)
Definition p_mark_sent : prog lg log_res :=
  let* num := fetch lg_num in                                           (* :280, :193 *)
  section (Act (fun s => do x <- log_iterate (log_iter_fuel (lg_cb s)) (log_mark_cb num) (lg_cb s) 0 0;
                         let '(c, _, _) := x in Some (tt, lset_cb s c)) Ret) ;;            (* :281 *)
  section (change (fun s => lset_trig s false 0 None)) ;; Ret RDone.    (* :283-285 *)
(** All calls. *)
Definition log_prog (cfg : log_cfg) (ts_enabled : bool) (o : log_op) : prog lg log_res :=
  match o with
  | LTrigger time => p_trigger time
  | LMarkSent => p_mark_sent
  | _ => log_code (log_body cfg ts_enabled) o
  end.
