(** Model of components/core/src/memfault_log_data_source.c: the upload message made from the RAM
    log (the bookkeeping of triggers is in Log.v). *)
From Verif Require Import Base CircularBuffer Log Cbor SerializerHelper.

(** memfault_log_data_source.c:102-145 (prv_serialize_msg_callback), for one block [buf] of a
    message; [tse]: MEMFAULT_LOG_TIMESTAMPS_ENABLE.  The timestamp is copied from the block in
    memory order, little endian as saved (Log.v, [le32]). *)
Definition lds_text (hdr : Z) (e : cbor_enc) (buf : list Z) : bool * cbor_enc :=
  eprog_run e (e_all (OpUnsigned (hdr_level hdr) ::                           (* :127 *)
                      if hdr_type hdr =? 0                                    (* :137 *)
                      then [OpStringBegin (zlen buf); OpJoin buf]             (* :140-141 *)
                      else [OpBytes buf])).                                   (* :143 *)
Definition lds_block (tse : bool) (hdr : Z) (e : cbor_enc) (buf : list Z) : bool * cbor_enc :=
  if tse then
    if hdr_ts hdr then                                                        (* :110 *)
      match buf with
      | b0 :: b1 :: b2 :: b3 :: rest =>
          let (ok, e) := cbor_encode_unsigned e (b0 + 256 * b1 + 65536 * b2 + 16777216 * b3) in (* :114-116, :121 *)
          if ok then lds_text hdr e rest else (false, e)
      | _ => (false, e)                                                       (* :111-113 *)
      end
    else let (ok, e) := cbor_encode_unsigned e 0 in                           (* :118, :121 *)
         if ok then lds_text hdr e buf else (false, e)
  else lds_text hdr e buf.
Definition lds_blocks (tse : bool) (hdr : Z) (e : cbor_enc) (calls : list (Z * list Z)) : cbor_enc :=
  fold_left (fun e b => snd (lds_block tse hdr e (snd b))) calls e.

(** memfault_log.c:204-209 with that callback. *)
Definition lds_copy_msg (tse : bool) (c : cbuf) (off hdr len : Z) (e : cbor_enc) : option (bool * cbor_enc) :=
  do r <- cb_read_with_callback c (u32 (off + 2)) len
            (fun made _ buf => fst (lds_block tse hdr (lds_blocks tse hdr e made) buf));
  Some (fst r, lds_blocks tse hdr e (snd r)).

(** memfault_log_data_source.c:224-229: a write starting after [stop] sets should_stop_encoding
    ([None]: the encoder only computes the size). *)
Definition lds_stopped (stop : option Z) (e : cbor_enc) : bool :=
  match stop with Some n => existsb (fun w => n <? fst w) (ce_writes e) | None => false end.

(** memfault_log_data_source.c:147-162; the context is the encoder, has_encoding_error and
    num_encoded_logs. *)
Definition lds_encode_cb (tse : bool) (num : Z) (stop : option Z) (c : cbuf) (a : cbor_enc * bool * Z) (off hdr len : Z)
  : option (bool * cbuf * (cbor_enc * bool * Z)) :=
  let '(e, err, cnt) := a in
  if lds_stopped stop e then Some (false, c, a)                               (* :149 *)
  else if hdr_sent hdr then Some (true, c, a)                                 (* :152 *)
  else do r <- lds_copy_msg tse c off hdr len e;                              (* :153 *)
       let cnt := u32 (cnt + 1) in
       Some (negb (cnt =? num), c, (snd r, err || negb (fst r), cnt)).        (* :157 *)

(** memfault_log_data_source.c:164-189 *)
Definition lds_encode (env : senv) (tse : bool) (s : lg) (stop : option Z) (e : cbor_enc) : option (bool * cbor_enc) :=
  let (ok, e) := eprog_run e
    (e_and (e_metadata_with_time env (if tse then 6 else 4) (lg_time s))      (* :176 *)
           (e_all [OpUnsigned 4; OpArray (u32 ((if tse then 3 else 2) * lg_num s))])) in (* :180-184 *)
  if ok then do x <- log_iterate (log_iter_fuel (lg_cb s)) (lds_encode_cb tse (lg_num s) stop) (lg_cb s) (e, false, 0) 0; (* :187 *)
             let '(_, (e, err, _), _) := x in Some (err, e)
  else Some (false, e).

(** memfault_log_data_source.c:198-210 (and serializer_helper.c:241-247): the size announced. *)
Definition lds_has (env : senv) (tse : bool) (s : lg) : option (option Z) :=
  if lg_trig s then do x <- lds_encode env tse s None cbor_size_only_init; Some (Some (cbor_deinit (snd x)))
  else Some None.

(** memfault_log_data_source.c:220-240 (prv_encoder_callback) for one write; [d] is the destination
    and the number of bytes written so far. *)
Definition lds_write (offset : Z) (d : list Z * Z) (w : Z * list Z) : option (list Z * Z) :=
  let (buf, written) := d in
  let (src, data) := w in
  let dest_end := u32 (offset + zlen buf) in                                  (* :224 *)
  if dest_end <? src then Some d                                              (* :226 *)
  else
    let start := Z.max src offset in                                          (* :231 *)
    let stop := Z.min (u32 (src + zlen data)) dest_end in                     (* :230, :232 *)
    if stop <=? start then Some d                                             (* :233 *)
    else do part <- read_at data (start - src) (stop - start);
         do buf <- splice buf (start - offset) part;                          (* :237 *)
         Some (buf, u32 (written + (stop - start))).                          (* :239 *)
Fixpoint lds_writes (offset : Z) (d : list Z * Z) (ws : list (Z * list Z)) : option (list Z * Z) :=
  match ws with [] => Some d | w :: r => do d <- lds_write offset d w; lds_writes offset d r end.

(** memfault_log_data_source.c:242-261; [buf] is the memory to fill.  The calls of the encoder to
    its callback are replayed after the encoding; should_stop_encoding, the only thing the
    callback tells the encoder, is [lds_stopped]. *)
Definition lds_read (env : senv) (tse : bool) (s : lg) (offset : Z) (buf : list Z) : option (bool * list Z) :=
  do x <- lds_encode env tse s (Some (u32 (offset + zlen buf))) (cbor_init 4294967295);
  do d <- lds_writes offset (buf, 0) (ce_writes (snd x));
  Some (zlen buf =? snd d, fst d).
