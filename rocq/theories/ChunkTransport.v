(** Model of components/util/src/memfault_chunk_transport.c *)
From Verif Require Import Base Varint Crc16.

(** include/memfault/util/chunk_transport.h:39-61.  The [read_msg] callback is an argument of
    the functions below: [rd offset len] returns the bytes it stores in the buffer, [None] when
    asked for bytes the message does not have. *)
Record chunk_ctx := mk_ct {
  ct_total : Z; ct_multi : bool;                       (* inputs *)
  ct_single : Z; ct_offset : Z; ct_crc : Z }.          (* outputs *)

(** The context a caller starts from (designated initializer, outputs zero). *)
Definition ct_start (total : Z) (multi : bool) : chunk_ctx := mk_ct total multi 0 0 0.

(** memfault_chunk_transport.c:35-61 *)
Definition ct_hdr (md continuation : bool) : Z :=
  let hdr := Z.lor (u8 (Z.shiftl (Z.b2z continuation) 7)) (u8 (Z.shiftl (Z.b2z md) 6)) in
  if negb continuation then Z.lor hdr (Z.shiftl 1 3) else hdr.

(** memfault_chunk_transport.c:68-70, [uint32_t] arithmetic wraps. *)
Definition ct_single_size (c : chunk_ctx) : Z := u32 (1 + 2 + ct_total c).

(** Outcome of one call: return value, output buffer, [*out_buf_len], the requests made to
    [read_msg] and the context. *)
Record chunk_out := mk_co {
  co_more : bool; co_buf : list Z; co_len : Z; co_reads : list (Z * Z); co_ctx : chunk_ctx }.

(** memfault_chunk_transport.c:83-130: header and bookkeeping before the data.  Result: buffer,
    [more_data], [bytes_to_read], [chunk_msg_start_offset], context.  Every store is checked
    against [buf]; [size_t] arithmetic wraps. *)
Definition ct_head (c : chunk_ctx) (buf : list Z) (out_len : Z)
  : option (list Z * bool * Z * Z * chunk_ctx) :=
  if ct_offset c =? 0 then                                             (* :86, :91 *)
    do vi <- varint_u32 (ct_total c);
    do buf <- splice buf 1 vi;                                         (* :92 *)
    let single := ct_single_size c in                                  (* :93 *)
    let more := out_len <? single in                                   (* :94 *)
    let md := more && negb (ct_multi c) in                             (* :96 *)
    let c := mk_ct (ct_total c) (ct_multi c) single (ct_offset c) (ct_crc c) in  (* :99 *)
    do buf <- put buf 0 (ct_hdr md false);                             (* :101 *)
    if md then Some (buf, more, u32 (out_len - 1 - zlen vi), 1 + zlen vi, c)     (* :103-105 *)
    else if ct_multi c then Some (buf, more, Z.min (u32 (out_len - 1)) (ct_total c), 1, c) (* :106 *)
    else Some (buf, more, ct_total c, 1, c)                            (* :109 *)
  else if ct_multi c then                                              (* :111 *)
    let rem := u32 (ct_total c - ct_offset c) in
    let n := Z.min out_len rem in
    Some (buf, u32 (out_len - n) <? 2, n, 0, c)                        (* :112-115 *)
  else
    do vi <- varint_u32 (ct_offset c);
    do buf <- splice buf 1 vi;                                         (* :117 *)
    let rem := u32 (ct_total c - ct_offset c) in                       (* :118 *)
    let space := u32 (out_len - 1 - zlen vi) in                        (* :120 *)
    let n := Z.min space rem in                                        (* :121 *)
    let more := u32 (space - n) <? 2 in                                (* :122-123 *)
    do buf <- put buf 0 (ct_hdr more true);                            (* :124-128 *)
    Some (buf, more, n, 1 + zlen vi, c).                               (* :129 *)

(** memfault_chunk_transport.c:132-172: data, CRC and scrubbing. *)
Definition ct_body (rd : Z -> Z -> option (list Z)) (out_len : Z) (buf : list Z) (more : bool)
  (n start : Z) (c : chunk_ctx) : option chunk_out :=
  let off := ct_offset c in
  do d <-
    (if negb (n =? 0) then                                             (* :132 *)
       do d <- rd off n;
       do buf <- splice buf start d;                                   (* :133-134 *)
       do crc <- crc16_compute (ct_crc c) d;                           (* :135-136 *)
       Some (buf, crc, u32 (start + n))                                (* :137 *)
     else Some (buf, ct_crc c, start));
  let '(buf, crc, start) := d in
  do w <-
    (if negb more then                                                 (* :140 *)
       do buf <- put buf start (Z.land crc 255);                       (* :144 *)
       do buf <- put buf (start + 1) (Z.land (Z.shiftr crc 8) 255);    (* :145 *)
       Some (buf, start + 2)                                           (* :146 *)
     else Some (buf, start));
  let (buf, written) := w in
  let c := mk_ct (ct_total c) (ct_multi c) (ct_single c) (u32 (off + n)) crc in  (* :149 *)
  let space := u32 (out_len - written) in                              (* :151 *)
  do buf <- (if negb (space =? 0) then splice buf written (fill space 186) else Some buf);  (* :152-167 *)
  Some (mk_co more buf written (if n =? 0 then [] else [(off, n)]) c). (* :170-172 *)

(** memfault_chunk_transport.c:72-173.  [buf] is the memory behind [out_buf] (at least
    [out_len] bytes). *)
Definition ct_next (rd : Z -> Z -> option (list Z)) (c : chunk_ctx) (buf : list Z) (out_len : Z)
  : option chunk_out :=
  if out_len <? 9 then Some (mk_co true buf 0 [] c)                    (* :75-78 *)
  else
    do h <- ct_head c buf out_len;
    let '(buf, more, n, start, c) := h in
    ct_body rd out_len buf more n start c.

(** memfault_chunk_transport.c:175-182 *)
Definition ct_info (c : chunk_ctx) : chunk_ctx :=
  if negb (ct_offset c =? 0) then c
  else mk_ct (ct_total c) (ct_multi c) (ct_single_size c) (ct_offset c) (ct_crc c).

(** A caller draining a message: one call per buffer until a call returns false (documented at
    chunk_transport.h:63-73).  Result: what each call left in [buf[0 .. *out_buf_len)], whether
    the message was finished, the requests to [read_msg] and the context. *)
Fixpoint ct_drain (rd : Z -> Z -> option (list Z)) (c : chunk_ctx) (bufs : list (list Z))
  : option (list (list Z) * bool * list (Z * Z) * chunk_ctx) :=
  match bufs with
  | [] => Some ([], false, [], c)
  | b :: r =>
      do o <- ct_next rd c b (zlen b);
      let out := take (co_len o) (co_buf o) in
      if co_more o then
        do x <- ct_drain rd (co_ctx o) r;
        let '(outs, fin, reads, c) := x in Some (out :: outs, fin, co_reads o ++ reads, c)
      else Some ([out], true, co_reads o, co_ctx o)
  end.
