(** Model of components/core/src/memfault_data_packetizer.c.
    Simplifications: the four data sources are queues of messages (has_more / read / mark_read
    act on the oldest one); a source only changes by [mark_read] and by new messages appended at
    the end.  The run-length source is the coredump source seen through an encoding function
    (what the encoder really produces is the subject of DataSourceRle.v).  A read inside the
    message announced by [has_more] succeeds, a read outside is [None], so the scrubbing of :223-231
    is not modelled.  NULL arguments and log output are omitted. *)
From Verif Require Import Base ChunkTransport.

(** memfault_data_packetizer.c:73-80, :99-123 *)
Inductive src := SCoredump | SEvent | SLog | SCdr.
Definition src_type (s : src) : Z :=
  match s with SCoredump => 1 | SEvent => 2 | SLog => 3 | SCdr => 4 end.
Definition src_use_rle (s : src) : bool := match s with SCoredump => true | _ => false end.
(** memfault_data_packetizer.c:99, the table in order. *)
Definition src_table : list src := [SCoredump; SEvent; SLog; SCdr].
Definition src_eqb (a b : src) : bool := src_type a =? src_type b.

(** Messages waiting in each source, oldest first. *)
Record queues := mk_q { q_core : list (list Z); q_event : list (list Z); q_log : list (list Z); q_cdr : list (list Z) }.
Definition q_of (w : queues) (s : src) : list (list Z) :=
  match s with SCoredump => q_core w | SEvent => q_event w | SLog => q_log w | SCdr => q_cdr w end.
Definition q_set (w : queues) (s : src) (l : list (list Z)) : queues :=
  match s with
  | SCoredump => mk_q l (q_event w) (q_log w) (q_cdr w)
  | SEvent => mk_q (q_core w) l (q_log w) (q_cdr w)
  | SLog => mk_q (q_core w) (q_event w) l (q_cdr w)
  | SCdr => mk_q (q_core w) (q_event w) (q_log w) l
  end.

(** Build configuration: project key (with its terminator, [] when
    MEMFAULT_MESSAGE_HEADER_CONTAINS_PROJECT_KEY is 0) and the run-length encoder if that
    component is linked (otherwise the weak stub of :67-70 returns false). *)
Record pk_cfg := mk_cfg { cfg_key : list Z; cfg_rle : option (list Z -> list Z) }.

(** Calls made to the data sources, in order. *)
Inductive pk_call := CHasMore (s : src) | CRead (s : src) (off len : Z) | CMark (s : src).

(** memfault_data_packetizer.c:125-134; [None] is [active_message == false]. *)
Record pk_msg := mk_pm { pm_src : src; pm_rle : bool; pm_total : Z; pm_ctx : chunk_ctx }.
(** memfault_data_packetizer.c:169-171 *)
Record pk := mk_pk { pk_cur : option pk_msg; pk_mask : Z }.
(** memfault_data_packetizer.c:171 (kMfltDataSourceMask_All = 30) *)
Definition pk_init : pk := mk_pk None 30.

(** The message a source (or the run-length source over it) would deliver. *)
Definition src_msg (cfg : pk_cfg) (w : queues) (s : src) (rle : bool) : option (list Z) :=
  match q_of w s with
  | [] => None
  | m :: _ => if rle then match cfg_rle cfg with Some enc => Some (enc m) | None => None end
              else Some m
  end.

(** memfault_data_packetizer.c:142-167, :193-206, the bytes of [sMfltPacketizerHdr]. *)
Definition pk_hdr (cfg : pk_cfg) (s : src) (rle : bool) : list Z :=
  let t := src_type s in
  let t := if rle then Z.lor t 128 else t in
  let t := if negb (zlen (cfg_key cfg) =? 0) then Z.lor t 64 else t in
  t :: cfg_key cfg.
(** sizeof(sMfltPacketizerHdr) *)
Definition pk_hdr_size (cfg : pk_cfg) : Z := 1 + zlen (cfg_key cfg).

(** memfault_data_packetizer.c:186-232.  [msg] is what the source's read callback reads from. *)
Definition pk_reader (cfg : pk_cfg) (m : pk_msg) (msg : list Z) (offset buf_len : Z) : option (list Z) :=
  let hdr_size := pk_hdr_size cfg in
  if offset <? hdr_size then                                            (* :192 *)
    let n := Z.min (hdr_size - offset) buf_len in                       (* :209 *)
    do h <- read_at (pk_hdr cfg (pm_src m) (pm_rle m)) offset n;        (* :210 *)
    if buf_len - n =? 0 then Some h                                     (* :217 *)
    else do d <- read_at msg 0 (buf_len - n); Some (h ++ d)             (* :222 *)
  else read_at msg (offset - hdr_size) buf_len.                         (* :214, :222 *)
(** memfault_data_packetizer.c:222, the calls made to the source's read callback by one request of the chunk transport. *)
Definition pk_reader_calls (cfg : pk_cfg) (s : src) (req : Z * Z) : list pk_call :=
  let (offset, buf_len) := req in
  let hdr_size := pk_hdr_size cfg in
  if offset <? hdr_size then
    let n := Z.min (hdr_size - offset) buf_len in
    if buf_len - n =? 0 then [] else [CRead s 0 (buf_len - n)]
  else [CRead s (offset - hdr_size) buf_len].

(** memfault_data_packetizer.c:178-184; also deactivates the run-length encoder (no state of its own here). *)
Definition pk_reset (st : pk) : pk := mk_pk None (pk_mask st).
(** memfault_data_packetizer.c:307-309 *)
Definition pk_abort (st : pk) : pk := pk_reset st.
(** memfault_data_packetizer.c:173-176 *)
Definition pk_set_active_sources (st : pk) (mask : Z) : pk := mk_pk (pk_cur (pk_abort st)) (u32 mask).

(** memfault_data_packetizer.c:234-258, the loop over the table. *)
Fixpoint pk_find (cfg : pk_cfg) (w : queues) (mask : Z) (table : list src)
  : option (src * bool * Z) * list pk_call :=
  match table with
  | [] => (None, [])
  | s :: r =>
      if Z.land (Z.shiftl 1 (src_type s)) mask =? 0 then pk_find cfg w mask r   (* :238-242 *)
      else
        let rle := src_use_rle s && match cfg_rle cfg with Some _ => true | None => false end in (* :244-245 *)
        match src_msg cfg w s rle with                                  (* :253 *)
        | Some m => (Some (s, rle, zlen m), [CHasMore s])
        | None => let (x, cs) := pk_find cfg w mask r in (x, CHasMore s :: cs)
        end
  end.

(** memfault_data_packetizer.c:260-298 *)
Definition pk_load (cfg : pk_cfg) (w : queues) (st : pk) (multi : bool) : bool * pk * list pk_call :=
  match pk_find cfg w (pk_mask st) src_table with
  | (None, cs) => (false, st, cs)
  | (Some (s, rle, total), cs) =>
      (true, mk_pk (Some (mk_pm s rle total (ct_info (ct_start (u32 (total + pk_hdr_size cfg)) multi)))) (pk_mask st), cs)
  end.

(** memfault_data_packetizer.c:346-366: return value, metadata (length, in progress). *)
Definition pk_begin (cfg : pk_cfg) (w : queues) (st : pk) (multi : bool)
  : bool * Z * bool * pk * list pk_call :=
  let '(ok, st, cs) := match pk_cur st with
                       | Some _ => (true, st, [])
                       | None => pk_load cfg w st multi
                       end in
  match pk_cur st with
  | Some m => if ok then (true, ct_single (pm_ctx m), negb (ct_offset (pm_ctx m) =? 0), st, cs)
              else (false, 0, false, st, cs)
  | None => (false, 0, false, st, cs)
  end.

(** data_packetizer.h: eMemfaultPacketizerStatus *)
Inductive pk_status := NoMoreData | EndOfChunk | MoreDataForChunk.

(** memfault_data_packetizer.c:311-344.  Result: status, what is in [buf[0 .. *buf_len)], state, queues, calls.  [None]: a
    memory access outside [buf] or a read outside the message. *)
Definition pk_get_next (cfg : pk_cfg) (w : queues) (st : pk) (buf : list Z)
  : option (pk_status * list Z * pk * queues * list pk_call) :=
  match pk_cur st with
  | None => Some (NoMoreData, [], st, w, [])                            (* :319 *)
  | Some m =>
      do msg <- src_msg cfg w (pm_src m) (pm_rle m);
      do o <- ct_next (pk_reader cfg m msg) (pm_ctx m) buf (zlen buf);  (* :326 *)
      let out := take (co_len o) (co_buf o) in
      let calls := flat_map (pk_reader_calls cfg (pm_src m)) (co_reads o) in
      let st' := mk_pk (Some (mk_pm (pm_src m) (pm_rle m) (pm_total m) (co_ctx o))) (pk_mask st) in
      if co_len o =? 0 then Some (NoMoreData, out, st', w, calls)       (* :328 *)
      else if negb (co_more o) then                                     (* :333 *)
        Some (EndOfChunk, out, pk_reset st',                            (* :302-304 *)
              q_set w (pm_src m) (tl (q_of w (pm_src m))), calls ++ [CMark (pm_src m)])
      else Some (if ct_multi (pm_ctx m) then MoreDataForChunk else EndOfChunk, out, st', w, calls)
  end.

(** memfault_data_packetizer.c:368-374 *)
Definition pk_data_available (cfg : pk_cfg) (w : queues) (st : pk) : bool * list pk_call :=
  match pk_cur st with
  | Some _ => (true, [])
  | None => let (x, cs) := pk_find cfg w (pk_mask st) src_table in
            (match x with Some _ => true | None => false end, cs)
  end.

(** memfault_data_packetizer.c:376-400: return value, bytes. *)
Definition pk_get_chunk (cfg : pk_cfg) (w : queues) (st : pk) (buf : list Z)
  : option (bool * list Z * pk * queues * list pk_call) :=
  let '(ok, _, _, st, cs) := pk_begin cfg w st false in
  if negb ok then Some (false, [], st, w, cs)
  else
    do x <- pk_get_next cfg w st buf;
    let '(status, out, st, w, cs') := x in
    Some (match status with EndOfChunk => true | _ => false end, out, st, w, cs ++ cs').

(** ** Histories: the calls of an application, and sources queueing new messages. *)
Inductive pk_op :=
| PBegin (multi : bool) | PNext (buf : list Z) | PChunk (buf : list Z)
| PAbort | PMask (mask : Z) | PAvail | PPush (s : src) (msg : list Z).
Inductive pk_res :=
| ResBegin (ok : bool) (len : Z) (in_progress : bool)
| ResNext (status : pk_status) (out : list Z)
| ResChunk (ok : bool) (out : list Z)
| ResAvail (b : bool)
| ResUnit.

Definition pk_step (cfg : pk_cfg) (w : queues) (st : pk) (o : pk_op)
  : option (pk_res * pk * queues * list pk_call) :=
  match o with
  | PBegin multi => let '(ok, l, p, st, cs) := pk_begin cfg w st multi in Some (ResBegin ok l p, st, w, cs)
  | PNext buf => do x <- pk_get_next cfg w st buf;
                 let '(s, out, st, w, cs) := x in Some (ResNext s out, st, w, cs)
  | PChunk buf => do x <- pk_get_chunk cfg w st buf;
                  let '(b, out, st, w, cs) := x in Some (ResChunk b out, st, w, cs)
  | PAbort => Some (ResUnit, pk_abort st, w, [])
  | PMask m => Some (ResUnit, pk_set_active_sources st m, w, [])
  | PAvail => let (b, cs) := pk_data_available cfg w st in Some (ResAvail b, st, w, cs)
  | PPush s m => Some (ResUnit, st, q_set w s (q_of w s ++ [m]), [])
  end.

Fixpoint pk_run (cfg : pk_cfg) (w : queues) (st : pk) (ops : list pk_op)
  : option (list (pk_res * list pk_call) * pk * queues) :=
  match ops with
  | [] => Some ([], st, w)
  | o :: r => do x <- pk_step cfg w st o;
              let '(res, st, w, cs) := x in
              do y <- pk_run cfg w st r;
              let '(rs, st, w) := y in Some ((res, cs) :: rs, st, w)
  end.
