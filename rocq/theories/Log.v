(** Model of components/core/src/memfault_log.c and of the parts of memfault_log_data_source.c
    that mark and count logs (the encoding is in LogDataSource.v).  Each public call is one step
    (the source takes memfault_lock inside).  Not modelled: the CRC'd region info of the coredump
    (:66-99), memfault_log_reset, the log_export functions (:288-364) and vsnprintf. *)
From Coq Require Import String DecimalString.
From Verif Require Import Base CircularBuffer.

(** Build configuration: MEMFAULT_LOG_MAX_LINE_SAVE_LEN (memfault_log_private.h asserts <= 255). *)
Definition log_cfg := Z.

(** memfault_log.c:43-64 and :251; memfault_log_data_source.c:26-32.  [lg_time]: seconds, [None]
    for an unknown time. *)
Record lg := mk_lg {
  lg_cb : cbuf; lg_min : Z; lg_roff : Z; lg_dropped : Z; lg_recorded : Z; lg_last : Z;
  lg_trig : bool; lg_num : Z; lg_time : option Z }.

Definition lset_cb (s : lg) (c : cbuf) : lg :=
  mk_lg c (lg_min s) (lg_roff s) (lg_dropped s) (lg_recorded s) (lg_last s) (lg_trig s) (lg_num s) (lg_time s).
Definition lset_roff (s : lg) (v : Z) : lg :=
  mk_lg (lg_cb s) (lg_min s) v (lg_dropped s) (lg_recorded s) (lg_last s) (lg_trig s) (lg_num s) (lg_time s).
Definition lset_dropped (s : lg) (v : Z) : lg :=
  mk_lg (lg_cb s) (lg_min s) (lg_roff s) v (lg_recorded s) (lg_last s) (lg_trig s) (lg_num s) (lg_time s).
Definition lset_recorded (s : lg) (v : Z) : lg :=
  mk_lg (lg_cb s) (lg_min s) (lg_roff s) (lg_dropped s) v (lg_last s) (lg_trig s) (lg_num s) (lg_time s).
Definition lset_last (s : lg) (v : Z) : lg :=
  mk_lg (lg_cb s) (lg_min s) (lg_roff s) (lg_dropped s) (lg_recorded s) v (lg_trig s) (lg_num s) (lg_time s).
Definition lset_min (s : lg) (v : Z) : lg :=
  mk_lg (lg_cb s) v (lg_roff s) (lg_dropped s) (lg_recorded s) (lg_last s) (lg_trig s) (lg_num s) (lg_time s).
Definition lset_trig (s : lg) (b : bool) (n : Z) (t : option Z) : lg :=
  mk_lg (lg_cb s) (lg_min s) (lg_roff s) (lg_dropped s) (lg_recorded s) (lg_last s) b n t.

(** memfault_log.c:507-528; [min] is MEMFAULT_RAM_LOGGER_DEFAULT_MIN_LOG_LEVEL. *)
Definition log_boot (storage : list Z) (len min : Z) : option (option lg) :=
  do c <- cb_init storage len;
  Some (match c with Some c => Some (mk_lg c min 0 0 0 0 false 0 None) | None => None end).

(** memfault_log_private.h:38-43, masks *)
Definition READ_MASK : Z := 128.
Definition SENT_MASK : Z := 64.
Definition TS_MASK : Z := 16.
(** memfault_log.c:101-112 *)
Definition log_build_header (level type : Z) (timestamped : bool) : Z :=
  Z.lor (Z.lor (Z.land level 7) (Z.land (Z.shiftl type 3) 8)) (if timestamped then TS_MASK else 0).
(** memfault_log_private.h:45-57 *)
Definition hdr_level (hdr : Z) : Z := Z.land hdr 7.
Definition hdr_type (hdr : Z) : Z := Z.shiftr (Z.land hdr 8) 3.
Definition hdr_ts (hdr : Z) : bool := negb (Z.land hdr TS_MASK =? 0).

(** memfault_log.c:141-166, the loop that expires logs; the result is whether enough was freed.
    [None]: out of fuel.  A failing circular buffer read leaves the zeroed entry. *)
Fixpoint log_free_loop (fuel : nat) (s : lg) (needed tot_read : Z) : option (bool * lg) :=
  if tot_read =? 0 then Some (false, s)                                 (* :142, :168 *)
  else match fuel with
       | O => None
       | S f =>
           do r <- cb_read (lg_cb s) 0 2;                               (* :148 *)
           let '(hdr, len) := match r with Some [h; l] => (h, l) | _ => (0, 0) end in
           let space := u32 (len + 2) in                                (* :149 *)
           let s := if negb (Z.land hdr (Z.lor READ_MASK SENT_MASK) =? 0)
                    then lset_roff s (u32 (lg_roff s - space))          (* :151-154 *)
                    else lset_dropped s (u32 (lg_dropped s + 1)) in     (* :157 *)
           let s := lset_cb s (snd (cb_consume (lg_cb s) space)) in     (* :160 *)
           let needed := s32 (needed - space) in                        (* :161 *)
           if needed <=? 0 then Some (true, s)                          (* :162-164 *)
           else log_free_loop f s needed (cb_get_read_size (lg_cb s))   (* :165 *)
       end.
(** memfault_log.c:118-169, with MEMFAULT_LOG_DATA_SOURCE_ENABLED *)
Definition log_try_free_space (s : lg) (bytes_needed : Z) : option (bool * lg) :=
  let needed := s32 (bytes_needed - cb_get_write_size (lg_cb s)) in     (* :119-120 *)
  if needed <=? 0 then Some (true, s)                                   (* :121-124 *)
  else
    let tot_read := cb_get_read_size (lg_cb s) in                       (* :126 *)
    if s32 tot_read <? needed then Some (false, s)                      (* :127-131 *)
    else if lg_trig s then Some (false, s)                              (* :134-138 *)
    else log_free_loop (S (Z.to_nat tot_read)) s needed tot_read.

(** Little-endian bytes of the 32-bit timestamp, memfault_log.c:453-454 *)
Definition le32 (v : Z) : list Z := [v mod 256; v / 256 mod 256; v / 65536 mod 256; v / 16777216 mod 256].

(** memfault_log.c:412-470 (and :366-376).  [ts]: the time, when timestamps are enabled and the
    platform knows it.  The boolean: memfault_log_handle_saved_callback was called. *)
Definition log_save (cfg : log_cfg) (s : lg) (level type : Z) (ts : option Z) (log : list Z)
  : option (bool * lg) :=
  if level <? lg_min s then Some (false, s)                             (* :371 *)
  else
    let ts_len := match ts with Some _ => 4 | None => 0 end in          (* :423 *)
    let max_len := u32 (cfg - ts_len) in                                (* :430 *)
    let trunc := Z.min (zlen log) max_len in                            (* :432 *)
    let total := u8 (trunc + ts_len) in                                 (* :434 *)
    do r <- log_try_free_space s (2 + total);                           (* :436, :443 *)
    let (ok, s) := r in
    if ok then
      let s := lset_recorded s (u32 (lg_recorded s + 1)) in             (* :445 *)
      let hdr := log_build_header level type (match ts with Some _ => true | None => false end) in
      do w <- cb_write (lg_cb s) [hdr; total];                          (* :446-450 *)
      do w <- (match ts with
               | Some t => cb_write (snd w) (le32 (u32 t))              (* :452-455 *)
               | None => Some w end);
      do w <- cb_write (snd w) (take trunc log);                        (* :457 *)
      Some (true, lset_cb s (snd w))
    else Some (false, lset_dropped s (u32 (lg_dropped s + 1))).         (* :460 *)

(** ** Iteration *)
(** memfault_log.c:171-188.  The callback gets the buffer, its own context and the iterator (offset,
    entry header and length) and may rewrite the buffer; the length it cannot change.  [None]: out of
    fuel or a checked access failed.  Result: buffer, context, final read_offset. *)
Fixpoint log_iterate {A} (fuel : nat) (f : cbuf -> A -> Z -> Z -> Z -> option (bool * cbuf * A))
    (c : cbuf) (a : A) (off : Z) : option (cbuf * A * Z) :=
  match fuel with
  | O => None
  | S n =>
      do r <- cb_read c off 2;                                          (* :175-178 *)
      match r with
      | Some [hdr; len] =>
          do x <- f c a off hdr len;                                    (* :185 *)
          let '(go, c, a) := x in
          let off := u32 (off + (2 + len)) in                           (* :186 *)
          if go then log_iterate n f c a off else Some (c, a, off)
      | _ => Some (c, a, off)
      end
  end.
Definition log_iter_fuel (c : cbuf) : nat := S (Z.to_nat (cb_get_read_size c)).

(** memfault_log.c:196-202 *)
Definition log_update_entry (c : cbuf) (off hdr len : Z) : option (bool * cbuf) :=
  cb_write_at_offset c (u32 (cb_get_read_size c - off)) [hdr; len].

(** What memfault_log_read stores in *log. *)
Record rlog := mk_rlog { r_level : Z; r_type : Z; r_ts : Z; r_text : list Z }.

(** memfault_log.c:216-248; [ts_enabled]: MEMFAULT_LOG_TIMESTAMPS_ENABLE.  Checked: the message and
    its terminator fit log->msg, of MEMFAULT_LOG_MAX_LINE_SAVE_LEN + 1 bytes (log.h:139-154). *)
Definition log_read_cb (cfg : log_cfg) (ts_enabled : bool) (c : cbuf) (a : option rlog) (off hdr len : Z)
  : option (bool * cbuf * option rlog) :=
  let hdr := Z.lor hdr READ_MASK in                                     (* :221 *)
  do r <- log_update_entry c off hdr len;                               (* :222 *)
  let (ok, c) := r in
  if negb ok then Some (false, c, a)
  else
    do m <- cb_read c (u32 (off + 2)) len;                              (* :226 *)
    match m with
    | None => Some (false, c, a)
    | Some m =>
        if cfg <? zlen m then None                                      (* :226-227 and :245, bounds *)
        else if ts_enabled && hdr_ts hdr && (4 <=? len) then            (* :236-240 *)
          Some (false, c, Some (mk_rlog (hdr_level hdr) (hdr_type hdr)
                  (match take 4 m with [b0; b1; b2; b3] => b0 + 256 * b1 + 65536 * b2 + 16777216 * b3 | _ => 0 end) (drop 4 m)))
        else Some (false, c, Some (mk_rlog (hdr_level hdr) (hdr_type hdr) 0 m))
    end.

(** "%d" of memfault_log.c:257 *)
Definition print_int (v : Z) : list Z := str (NilZero.string_of_int (Z.to_int (s32 v))).
(** memfault_log.c:256-260 with MEMFAULT_LOG_MAX_LINE_SAVE_LEN + 1 bytes for the text; the timestamp
    is left as the caller had it, here 0. *)
Definition log_notice (cfg : log_cfg) (dropped : Z) : rlog :=
  mk_rlog 2 0 0 (take cfg (str "... " ++ print_int dropped ++ str " messages dropped ...")%list).

(** memfault_log.c:250-274 (and :276-286) *)
Definition log_read (cfg : log_cfg) (ts_enabled : bool) (s : lg) : option (option rlog * lg) :=
  let iter := fun s : lg =>
    do x <- log_iterate (log_iter_fuel (lg_cb s)) (log_read_cb cfg ts_enabled) (lg_cb s) None (lg_roff s);  (* :265-271 *)
    let '(c, r, off) := x in Some (r, lset_roff (lset_cb s c) off) in   (* :272-273 *)
  if negb (lg_last s =? lg_dropped s) then                              (* :253 *)
    let s := lset_last s (lg_dropped s) in                              (* :254 *)
    if 0 <? lg_last s then Some (Some (log_notice cfg (lg_dropped s)), s) (* :255-262 *)
    else iter s
  else iter s.

(** ** Upload bookkeeping, memfault_log_data_source.c *)
(** memfault_log_data_source.c:34-48 *)
Definition hdr_sent (hdr : Z) : bool := negb (Z.land hdr SENT_MASK =? 0).
Definition log_count_cb (c : cbuf) (a : Z) (off hdr len : Z) : option (bool * cbuf * Z) :=
  Some (true, c, if hdr_sent hdr then a else u32 (a + 1)).
(** memfault_log_data_source.c:299-304 *)
Definition log_count_unsent (s : lg) : option Z :=
  do x <- log_iterate (log_iter_fuel (lg_cb s)) log_count_cb (lg_cb s) 0 0;
  let '(_, n, _) := x in Some n.
(** memfault_log_data_source.c:50-76 *)
Definition log_trigger (s : lg) (time : option Z) : option lg :=
  if lg_trig s then Some s
  else do n <- log_count_unsent s;
       if n =? 0 then Some s else Some (lset_trig s true n time).
(** memfault_log_data_source.c:263-273; context: num_marked_sent_logs *)
Definition log_mark_cb (num : Z) (c : cbuf) (a : Z) (off hdr len : Z) : option (bool * cbuf * Z) :=
  if hdr_sent hdr then Some (true, c, a)
  else
    do r <- log_update_entry c off (Z.lor hdr SENT_MASK) len;           (* :266-267 *)
    let a := u32 (a + 1) in
    Some (negb (a =? num), snd r, a).                                   (* :268-272 *)
(** memfault_log_data_source.c:275-286 *)
Definition log_mark_sent (s : lg) : option lg :=
  do x <- log_iterate (log_iter_fuel (lg_cb s)) (log_mark_cb (lg_num s)) (lg_cb s) 0 0;
  let '(c, _, _) := x in Some (lset_trig (lset_cb s c) false 0 None).

(** ** Histories *)
Inductive log_op :=
| LSave (level type : Z) (ts : option Z) (text : list Z)
| LRead | LTrigger (time : option Z) | LMarkSent | LCount | LSetMin (level : Z) | LDropped | LRecorded.
Inductive log_res := RSaved (b : bool) | RLog (r : option rlog) | RDone | RCount (n : Z).

Definition log_step (cfg : log_cfg) (ts_enabled : bool) (s : lg) (o : log_op) : option (log_res * lg) :=
  match o with
  | LSave l t ts m => do x <- log_save cfg s l t ts m; let (b, s) := x in Some (RSaved b, s)
  | LRead => do x <- log_read cfg ts_enabled s; let (r, s) := x in Some (RLog r, s)
  | LTrigger t => do s <- log_trigger s t; Some (RDone, s)
  | LMarkSent => do s <- log_mark_sent s; Some (RDone, s)
  | LCount => do n <- log_count_unsent s; Some (RCount n, s)
  | LSetMin l => Some (RDone, lset_min s l)                             (* memfault_log.c:114-116 *)
  | LDropped => Some (RCount (lg_dropped s), s)                         (* :71-73 *)
  | LRecorded => Some (RCount (lg_recorded s), s)                       (* :75-77 *)
  end.
Fixpoint log_run (cfg : log_cfg) (ts_enabled : bool) (s : lg) (ops : list log_op) : option (list log_res * lg) :=
  match ops with
  | [] => Some ([], s)
  | o :: r => do x <- log_step cfg ts_enabled s o; let (res, s) := x in
              do y <- log_run cfg ts_enabled s r; let (rs, s) := y in Some (res :: rs, s)
  end.
