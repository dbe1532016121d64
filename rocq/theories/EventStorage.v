(** Model of components/core/src/memfault_event_storage.c (RAM storage, i.e. with
    MEMFAULT_EVENT_STORAGE_NV_SUPPORT_ENABLED == 0) and memfault_batched_events.c.
    Each public call is one step (the source takes the lock inside; it is written for one writer
    and one reader).  The 16-bit header is stored least significant byte first. *)
From Verif Require Import Base CircularBuffer Cbor.

(** Build configuration: [None] is MEMFAULT_EVENT_STORAGE_READ_BATCHING_ENABLED == 0, [Some m]
    enabled with MEMFAULT_EVENT_STORAGE_READ_BATCHING_MAX_BYTES == m. *)
Definition es_cfg := option Z.

(** memfault_event_storage.c:59-84 *)
Record es := mk_es {
  es_cb : cbuf;
  es_wip : bool; es_written : Z;                      (* write state *)
  es_active : Z; es_num : Z; es_hdr : list Z }.       (* read state; event_header.length = zlen es_hdr *)

Definition set_cb (s : es) (c : cbuf) : es := mk_es c (es_wip s) (es_written s) (es_active s) (es_num s) (es_hdr s).
Definition set_w (s : es) (wip : bool) (n : Z) : es := mk_es (es_cb s) wip n (es_active s) (es_num s) (es_hdr s).
Definition set_r (s : es) (a n : Z) (h : list Z) : es := mk_es (es_cb s) (es_wip s) (es_written s) a n h.

(** memfault_event_storage.c:317-330; [None] inside: circular buffer refused the storage. *)
Definition es_boot (storage : list Z) (len : Z) : option (option es) :=
  do c <- cb_init storage len;
  Some (match c with Some c => Some (mk_es c false 0 0 0 []) | None => None end).

(** The header of an event, memfault_event_storage.c:70-75 *)
Definition hdr_bytes (v : Z) : list Z := [v mod 256; v / 256 mod 256].
Definition hdr_value (b : list Z) : Z := match b with [lo; hi] => lo + 256 * hi | _ => 0 end.
(** memfault_event_storage.c:68 *)
Definition in_progress_mark : Z := 65535.

(** memfault_event_storage.c:99-106 *)
Definition es_total (active num hdr_len : Z) : Z :=
  if num =? 0 then 0 else u32 (u32 (active + hdr_len) - u32 (num * 2)).

(** memfault_batched_events.c:13-28; the buffer is sMemfaultBatchedEventsHeader.data *)
Definition batch_header (num : Z) : list Z :=
  if num <=? 1 then []
  else
    let (_, e) := cbor_encode_array_begin (cbor_init 5) num in
    take (cbor_deinit e) (match memcpy_writes (fill 5 0) (ce_writes e) with Some b => b | None => [] end).

(** memfault_event_storage.c:111-141, the loop; result: number of events, bytes.  [None]: out of
    fuel or of bounds. *)
Fixpoint es_scan (fuel : nat) (cfg : es_cfg) (c : cbuf) (num active : Z) : option (Z * Z) :=
  match fuel with
  | O => None
  | S f =>
      do r <- cb_read c active 2;                                       (* :115-116 *)
      match r with
      | None => Some (num, active)
      | Some b =>
          let total := hdr_value b in
          if total =? in_progress_mark then Some (num, active)          (* :117-119 *)
          else
            let num' := u32 (num + 1) in                                (* :121-122 *)
            let active' := u32 (active + total) in
            match cfg with
            | None => Some (num', active')                              (* :124-126 *)
            | Some max =>
                if (1 <? num') && (max <? es_total active' num' 0)      (* :128-129; the header is still empty *)
                then Some (num, active)                                 (* :131-133 *)
                else es_scan f cfg c num' active'
            end
      end
  end.
(** memfault_event_storage.c:111-141 *)
Definition es_compute (cfg : es_cfg) (s : es) : option es :=
  do x <- es_scan (S (Z.to_nat (sz (es_cb s)))) cfg (es_cb s) 0 0;
  let (num, active) := x in
  Some (set_r s active num (match cfg with None => [] | Some _ => batch_header num end)). (* :138-140 *)

(** memfault_event_storage.c:143-166: return value and size. *)
Definition es_has (cfg : es_cfg) (s : es) : option (bool * Z * es) :=
  let cur := es_total (es_active s) (es_num s) (zlen (es_hdr s)) in
  if negb (cur =? 0) then Some (true, cur, s)
  else do s <- es_compute cfg s;
       let n := es_total (es_active s) (es_num s) (zlen (es_hdr s)) in
       Some (negb (n =? 0), n, s).

(** memfault_event_storage.c:192-226, the loop; [None] inside: returns false. *)
Fixpoint es_read_loop (fuel : nat) (c : cbuf) (buf_len offset cur read_off : Z) : option (option (list Z)) :=
  if buf_len =? 0 then Some (Some [])
  else match fuel with
       | O => None
       | S f =>
           do r <- cb_read c read_off 2;                                (* :194-195 *)
           match r with
           | None => Some None
           | Some b =>
               let read_off := u32 (read_off + 2) in                    (* :201 *)
               let size := u32 (hdr_value b - 2) in                     (* :202 *)
               if u32 (cur + size) <? offset then                       (* :204-209 *)
                 es_read_loop f c buf_len offset (u32 (cur + size)) (u32 (read_off + size))
               else
                 let start := u32 (offset - cur) in                     (* :212 *)
                 let n := Z.min (u32 (size - start)) buf_len in         (* :214 *)
                 do r <- cb_read c (u32 (read_off + start)) n;          (* :215-219 *)
                 match r with
                 | None => Some None
                 | Some d =>
                     do x <- es_read_loop f c (u32 (buf_len - n)) (u32 (offset + n)) (u32 (cur + size)) (u32 (read_off + size));
                     Some (match x with Some d' => Some (d ++ d') | None => None end)
                 end
           end
       end.
(** memfault_event_storage.c:168-229 *)
Definition es_read (s : es) (offset buf_len : Z) : option (option (list Z)) :=
  let total := es_total (es_active s) (es_num s) (zlen (es_hdr s)) in
  if total <? u32 (offset + buf_len) then Some None                     (* :170 *)
  else
    let fuel := S (Z.to_nat (sz (es_cb s))) in
    if offset <? zlen (es_hdr s) then                                   (* :177-185 *)
      let n := Z.min buf_len (zlen (es_hdr s) - offset) in
      do h <- read_at (es_hdr s) offset n;
      do x <- es_read_loop fuel (es_cb s) (u32 (buf_len - n)) 0 0 0;
      Some (match x with Some d => Some (h ++ d) | None => None end)
    else es_read_loop fuel (es_cb s) buf_len (u32 (offset - zlen (es_hdr s))) 0 0. (* :186-188 *)

(** memfault_event_storage.c:231-244 *)
Definition es_mark (s : es) : es :=
  if es_active s =? 0 then s
  else let (_, c) := cb_consume (es_cb s) (es_active s) in set_r (set_cb s c) 0 0 [].

(** memfault_event_storage.c:246-269 *)
Definition es_begin (s : es) : option (Z * es) :=
  if es_wip s then Some (0, s)
  else do r <- cb_write (es_cb s) (hdr_bytes in_progress_mark);
       let (ok, c) := r in
       if negb ok then Some (0, s)
       else Some (cb_get_write_size c, set_w (set_cb s c) true 2).

(** memfault_event_storage.c:271-281 *)
Definition es_append (s : es) (d : list Z) : option (bool * es) :=
  do r <- cb_write (es_cb s) d;
  let (ok, c) := r in
  Some (if ok then (true, set_w (set_cb s c) (es_wip s) (u32 (es_written s + zlen d))) else (false, s)).

(** memfault_event_storage.c:283-310; the persist callback (NV support) is in EventNv.v. *)
Definition es_finish (s : es) (rollback : bool) : option es :=
  if negb (es_wip s) then Some s
  else if rollback then
    let (_, c) := cb_consume_from_end (es_cb s) (es_written s) in Some (set_w (set_cb s c) false 0)
  else
    do r <- cb_write_at_offset (es_cb s) (es_written s) (hdr_bytes (u16 (es_written s)));
    Some (set_w (set_cb s (snd r)) false 0).

(** memfault_event_storage.c:443-461 *)
Definition es_bytes_used (s : es) : Z := cb_get_read_size (es_cb s).
Definition es_bytes_free (s : es) : Z := cb_get_write_size (es_cb s).

(** ** Histories *)
Inductive es_op :=
| EBegin | EAppend (d : list Z) | EFinish (rollback : bool)
| EHas | ERead (offset len : Z) | EMark | EUsed | EFree.
Inductive es_res :=
| RSpace (n : Z) | ROk (b : bool) | RSome (b : bool) (size : Z) | RBytes (d : option (list Z)) | RUnit | RNum (n : Z).

Definition es_step (cfg : es_cfg) (s : es) (o : es_op) : option (es_res * es) :=
  match o with
  | EBegin => do x <- es_begin s; let (n, s) := x in Some (RSpace n, s)
  | EAppend d => do x <- es_append s d; let (b, s) := x in Some (ROk b, s)
  | EFinish rb => do s <- es_finish s rb; Some (RUnit, s)
  | EHas => do x <- es_has cfg s; let '(b, n, s) := x in Some (RSome b n, s)
  | ERead off n => do d <- es_read s off n; Some (RBytes d, s)
  | EMark => Some (RUnit, es_mark s)
  | EUsed => Some (RNum (es_bytes_used s), s)
  | EFree => Some (RNum (es_bytes_free s), s)
  end.
Fixpoint es_run (cfg : es_cfg) (s : es) (ops : list es_op) : option (list es_res * es) :=
  match ops with
  | [] => Some ([], s)
  | o :: r => do x <- es_step cfg s o; let (res, s) := x in
              do y <- es_run cfg s r; let (rs, s) := y in Some (res :: rs, s)
  end.
