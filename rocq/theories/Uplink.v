(** Model of components/core/src/memfault_data_packetizer.c over real data sources: their callbacks have
    state and may fail (Packetizer.v is over queues of messages).  The chunk transport is the one of
    ChunkTransport.v with a reader that has state.

    Simplifications: NULL arguments and log output are omitted. *)
From Verif Require Import Base Varint Crc16 ChunkTransport Packetizer.

(** Build configuration: the project key (with its terminator; [] without one), and whether the
    run-length encoder is linked (:67-70). *)
Record up_cfg := mk_uc { uc_key : list Z; uc_rle : bool }.

(** The callbacks of the four data sources (include/memfault/core/data_packetizer_source.h) over a world
    [W]; the coredump source's go through the run-length source when that is linked.  A read gets the
    buffer and returns whether it succeeded and what is in the buffer then.  [so_reset]:
    memfault_data_source_rle_encoder_set_active(NULL).  [None]: memory access out of bounds. *)
Record sources (W : Type) := mk_so {
  so_has : src -> W -> option (option Z * W);
  so_read : src -> W -> Z -> list Z -> option (bool * list Z * W);
  so_mark : src -> W -> option W;
  so_reset : W -> option W }.
Arguments so_has {W}. Arguments so_read {W}. Arguments so_mark {W}. Arguments so_reset {W}.

Section Uplink.
Context {W : Type}.
Variable so : sources W.
Variable cfg : up_cfg.

(** sizeof(sMfltPacketizerHdr) and its bytes, :142-167, :193-206 *)
Definition up_hdr_size : Z := 1 + zlen (uc_key cfg).
Definition up_hdr (s : src) (rle : bool) : list Z :=
  let t := src_type s in
  let t := if rle then Z.lor t 128 else t in
  let t := if negb (zlen (uc_key cfg) =? 0) then Z.lor t 64 else t in
  t :: uc_key cfg.

(** memset(bufp, 0xEF, MEMFAULT_MIN(16, buf_len)), :223-231 *)
Definition up_scrub (buf : list Z) : list Z := let n := Z.min 16 (zlen buf) in fill n 239 ++ drop n buf.
Definition up_source_read (s : src) (w : W) (off : Z) (buf : list Z) : option (list Z * W) :=
  do x <- so_read so s w off buf;
  let '(ok, buf, w) := (x : bool * list Z * W) in
  Some (if ok then (buf, w) else (up_scrub buf, w)).
(** prv_data_source_chunk_transport_msg_reader, :186-232: the buffer afterwards, and the calls made. *)
Definition up_reader (m : pk_msg) (w : W) (offset : Z) (buf : list Z) : option (list Z * W * list pk_call) :=
  let s := pm_src m in
  if offset <? up_hdr_size then
    let n := Z.min (up_hdr_size - offset) (zlen buf) in
    do h <- read_at (up_hdr s (pm_rle m)) offset n;
    if zlen buf - n =? 0 then Some (h, w, [])
    else do x <- up_source_read s w 0 (drop n buf); let (b, w) := (x : list Z * W) in
         Some (h ++ b, w, [CRead s 0 (zlen buf - n)])
  else do x <- up_source_read s w (offset - up_hdr_size) buf; let (b, w) := (x : list Z * W) in
       Some (b, w, [CRead s (offset - up_hdr_size) (zlen buf)]).

(** memfault_chunk_transport.c:132-172 with that reader ([ct_body] of ChunkTransport.v): return value,
    buffer, length, context. *)
Definition up_body (m : pk_msg) (w : W) (out_len : Z) (buf : list Z) (more : bool) (n start : Z) (c : chunk_ctx)
  : option (bool * list Z * Z * chunk_ctx * W * list pk_call) :=
  let off := ct_offset c in
  do d <-
    (if negb (n =? 0) then
       do part <- read_at buf start n;
       do x <- up_reader m w off part; let '(d, w, cs) := (x : list Z * W * list pk_call) in
       do buf <- splice buf start d;
       do crc <- crc16_compute (ct_crc c) d;
       Some (buf, crc, u32 (start + n), w, cs)
     else Some (buf, ct_crc c, start, w, []));
  let '(buf, crc, start, w, cs) := (d : list Z * Z * Z * W * list pk_call) in
  do x <-
    (if negb more then
       do buf <- put buf start (Z.land crc 255);
       do buf <- put buf (start + 1) (Z.land (Z.shiftr crc 8) 255);
       Some (buf, start + 2)
     else Some (buf, start));
  let (buf, written) := (x : list Z * Z) in
  let c := mk_ct (ct_total c) (ct_multi c) (ct_single c) (u32 (off + n)) crc in
  let space := u32 (out_len - written) in
  do buf <- (if negb (space =? 0) then splice buf written (fill space 186) else Some buf);
  Some (more, buf, written, c, w, cs).
Definition up_chunk (m : pk_msg) (w : W) (c : chunk_ctx) (buf : list Z) (out_len : Z)
  : option (bool * list Z * Z * chunk_ctx * W * list pk_call) :=
  if out_len <? 9 then Some (true, buf, 0, c, w, [])
  else
    do h <- ct_head c buf out_len;
    let '(buf, more, n, start, c) := (h : list Z * bool * Z * Z * chunk_ctx) in
    up_body m w out_len buf more n start c.

(** prv_get_source_with_data, :234-258 *)
Fixpoint up_find (w : W) (mask : Z) (table : list src) : option (option (src * bool * Z) * W * list pk_call) :=
  match table with
  | [] => Some (None, w, [])
  | s :: r =>
      if Z.land (Z.shiftl 1 (src_type s)) mask =? 0 then up_find w mask r
      else
        do x <- so_has so s w; let (n, w) := (x : option Z * W) in
        match n with
        | Some n => Some (Some (s, src_use_rle s && uc_rle cfg, n), w, [CHasMore s])
        | None => do y <- up_find w mask r; let '(z, w, cs) := (y : option (src * bool * Z) * W * list pk_call) in
                  Some (z, w, CHasMore s :: cs)
        end
  end.
(** memfault_packetizer_begin with prv_load_next_message_to_send, :260-298, :346-366 *)
Definition up_begin (w : W) (st : pk) (multi : bool) : option (bool * Z * bool * pk * W * list pk_call) :=
  match pk_cur st with
  | Some m => Some (true, ct_single (pm_ctx m), negb (ct_offset (pm_ctx m) =? 0), st, w, [])
  | None =>
      do x <- up_find w (pk_mask st) src_table;
      let '(z, w, cs) := (x : option (src * bool * Z) * W * list pk_call) in
      match z with
      | None => Some (false, 0, false, st, w, cs)
      | Some (s, rle, total) =>
          let c := ct_info (ct_start (u32 (total + up_hdr_size)) multi) in
          Some (true, ct_single c, negb (ct_offset c =? 0), mk_pk (Some (mk_pm s rle total c)) (pk_mask st), w, cs)
      end
  end.
(** memfault_packetizer_get_next, :300-304, :311-344 *)
Definition up_next (w : W) (st : pk) (buf : list Z) : option (pk_status * list Z * pk * W * list pk_call) :=
  match pk_cur st with
  | None => Some (NoMoreData, [], st, w, [])
  | Some m =>
      do x <- up_chunk m w (pm_ctx m) buf (zlen buf);
      let '(more, buf, len, c, w, cs) := (x : bool * list Z * Z * chunk_ctx * W * list pk_call) in
      let out := take len buf in
      let st' := mk_pk (Some (mk_pm (pm_src m) (pm_rle m) (pm_total m) c)) (pk_mask st) in
      if len =? 0 then Some (NoMoreData, out, st', w, cs)
      else if negb more then
        do w <- so_mark so (pm_src m) w;
        do w <- so_reset so w;
        Some (EndOfChunk, out, pk_reset st', w, cs ++ [CMark (pm_src m)])
      else Some (if ct_multi (pm_ctx m) then MoreDataForChunk else EndOfChunk, out, st', w, cs)
  end.
(** memfault_packetizer_data_available, :368-374 *)
Definition up_avail (w : W) (st : pk) : option (bool * W * list pk_call) :=
  match pk_cur st with
  | Some _ => Some (true, w, [])
  | None => do x <- up_find w (pk_mask st) src_table;
            let '(z, w, cs) := (x : option (src * bool * Z) * W * list pk_call) in
            Some (match z with Some _ => true | None => false end, w, cs)
  end.
(** memfault_packetizer_get_chunk, :376-400 *)
Definition up_get_chunk (w : W) (st : pk) (buf : list Z) : option (bool * list Z * pk * W * list pk_call) :=
  do x <- up_begin w st false;
  let '(ok, _, _, st, w, cs) := (x : bool * Z * bool * pk * W * list pk_call) in
  if negb ok then Some (false, [], st, w, cs)
  else
    do y <- up_next w st buf;
    let '(status, out, st, w, cs') := (y : pk_status * list Z * pk * W * list pk_call) in
    Some (match status with EndOfChunk => true | _ => false end, out, st, w, cs ++ cs').

(** The calls of the packetizer's interface ([PPush] is not one of them). *)
Definition up_call (w : W) (st : pk) (o : pk_op) : option (pk_res * pk * W * list pk_call) :=
  match o with
  | PBegin multi => do x <- up_begin w st multi;
                    let '(ok, l, p, st, w, cs) := (x : bool * Z * bool * pk * W * list pk_call) in Some (ResBegin ok l p, st, w, cs)
  | PNext buf => do x <- up_next w st buf;
                 let '(s, out, st, w, cs) := (x : pk_status * list Z * pk * W * list pk_call) in Some (ResNext s out, st, w, cs)
  | PChunk buf => do x <- up_get_chunk w st buf;
                  let '(b, out, st, w, cs) := (x : bool * list Z * pk * W * list pk_call) in Some (ResChunk b out, st, w, cs)
  | PAbort => do w <- so_reset so w; Some (ResUnit, pk_abort st, w, [])                        (* :178-184, :307-309 *)
  | PMask m => do w <- so_reset so w; Some (ResUnit, pk_set_active_sources st m, w, [])        (* :173-176 *)
  | PAvail => do x <- up_avail w st; let '(b, w, cs) := (x : bool * W * list pk_call) in Some (ResAvail b, st, w, cs)
  | PPush _ _ => None
  end.

(** ** Histories: calls of the packetizer's interface, and everything else the application does. *)
Context {O R : Type}.
Variable app : W -> O -> option (R * W).
Inductive up_op := UCall (o : pk_op) | UApp (o : O).
Inductive up_res := URCall (r : pk_res) (cs : list pk_call) | URApp (r : R).
Definition up_step (w : W) (st : pk) (o : up_op) : option (up_res * pk * W) :=
  match o with
  | UCall o => do x <- up_call w st o; let '(r, st, w, cs) := (x : pk_res * pk * W * list pk_call) in Some (URCall r cs, st, w)
  | UApp o => do x <- app w o; let (r, w) := (x : R * W) in Some (URApp r, st, w)
  end.
Fixpoint up_run (w : W) (st : pk) (ops : list up_op) : option (list up_res * pk * W) :=
  match ops with
  | [] => Some ([], st, w)
  | o :: r => do x <- up_step w st o; let '(res, st, w) := (x : up_res * pk * W) in
              do y <- up_run w st r; let '(rs, st, w) := (y : list up_res * pk * W) in Some (res :: rs, st, w)
  end.
End Uplink.
Arguments UCall {O}. Arguments UApp {O}. Arguments URCall {R}. Arguments URApp {R}.
