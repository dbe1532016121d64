(** Model of components/util/src/memfault_minimal_cbor.c *)
From Verif Require Import Base.

(** include/memfault/util/cbor.h:169-181.  The write callback and its context are replaced by
    the log of the calls made to it, oldest first: (offset, bytes). *)
Record cbor_enc := mk_ce {
  ce_size_only : bool; ce_len : Z; ce_size : Z; ce_writes : list (Z * list Z) }.

(** memfault_minimal_cbor.c:43-52 with a write callback. *)
Definition cbor_init (buf_len : Z) : cbor_enc := mk_ce false buf_len 0 [].
(** memfault_minimal_cbor.c:54-56 *)
Definition cbor_size_only_init : cbor_enc := mk_ce true 0 0 [].
(** memfault_minimal_cbor.c:58-62, the returned size. *)
Definition cbor_deinit (e : cbor_enc) : Z := ce_size e.

(** memfault_minimal_cbor.c:64-84; [size_t] additions wrap. *)
Definition cbor_add (e : cbor_enc) (data : list Z) : bool * cbor_enc :=
  if zlen data =? 0 then (true, e)                                       (* :66 *)
  else if ce_size_only e then
    (true, mk_ce true (ce_len e) (u32 (ce_size e + zlen data)) (ce_writes e))  (* :71-75 *)
  else if ce_len e <? u32 (ce_size e + zlen data) then (false, e)        (* :77 *)
  else (true, mk_ce false (ce_len e) (u32 (ce_size e + zlen data))
                    (ce_writes e ++ [(ce_size e, data)])).               (* :81-83 *)

(** memfault_minimal_cbor.c:37 *)
Definition cbor_mt (mt : Z) : Z := u8 (Z.shiftl (Z.land mt 7) 5).

(** memfault_minimal_cbor.c:86-113, the bytes put in [tmp_buf]. *)
Definition cbor_head (major_type val : Z) : list Z :=
  let mt := cbor_mt major_type in
  if val <? 24 then [u8 (mt + u8 val)]                                   (* :93 *)
  else if val <=? 255 then [u8 (mt + 24); Z.land val 255]                (* :96 *)
  else if val <=? 65535 then [u8 (mt + 25); Z.land (Z.shiftr val 8) 255; Z.land val 255]  (* :99 *)
  else [u8 (mt + 26); Z.land (Z.shiftr val 24) 255; Z.land (Z.shiftr val 16) 255;
        Z.land (Z.shiftr val 8) 255; Z.land val 255].                    (* :103 *)
(** memfault_minimal_cbor.c:86-113 *)
Definition cbor_uint (e : cbor_enc) (major_type val : Z) : bool * cbor_enc :=
  cbor_add e (cbor_head major_type val).

(** memfault_minimal_cbor.c:115-120 *)
Definition cbor_be64 (val : Z) : list Z :=
  map (fun shift => Z.land (Z.shiftr val shift) 255) [56; 48; 40; 32; 24; 16; 8; 0].

(** memfault_minimal_cbor.c:124-142 *)
Definition cbor_encode_long_signed (e : cbor_enc) (value : Z) : bool * cbor_enc :=
  let ui := Z.shiftr value 63 in                                         (* :127 *)
  let mt := Z.land ui 1 in                                               (* :129 *)
  let ui := Z.lxor ui value in                                           (* :130 *)
  if ui <=? 4294967295 then cbor_uint e mt (u32 ui)                      (* :132 *)
  else cbor_add e (Z.lor (cbor_mt mt) 27 :: cbor_be64 (u64 ui)).         (* :136-141 *)

(** memfault_minimal_cbor.c:144-151 *)
Definition cbor_encode_double_bits (e : cbor_enc) (val : Z) : bool * cbor_enc :=
  cbor_add e (Z.lor (cbor_mt 7) 27 :: cbor_be64 val).

(** memfault_minimal_cbor.c:153-155 *)
Definition cbor_encode_unsigned (e : cbor_enc) (value : Z) : bool * cbor_enc := cbor_uint e 0 value.
(** memfault_minimal_cbor.c:157-160 *)
Definition cbor_join (e : cbor_enc) (data : list Z) : bool * cbor_enc := cbor_add e data.
(** memfault_minimal_cbor.c:162-171 *)
Definition cbor_encode_signed (e : cbor_enc) (value : Z) : bool * cbor_enc :=
  let ui := Z.shiftr value 31 in
  let mt := Z.land ui 1 in
  let ui := Z.lxor ui value in
  cbor_uint e mt (u32 ui).
(** memfault_minimal_cbor.c:173-177 and :183-187 ([&&]: the content is only attempted when the
    head was accepted; [strlen] is the length of the list). *)
Definition cbor_string_like (e : cbor_enc) (mt : Z) (buf : list Z) : bool * cbor_enc :=
  let (ok, e) := cbor_uint e mt (u32 (zlen buf)) in
  if ok then cbor_add e buf else (false, e).
Definition cbor_encode_bytes (e : cbor_enc) (buf : list Z) : bool * cbor_enc := cbor_string_like e 2 buf.
(** memfault_minimal_cbor.c:179-181 *)
Definition cbor_encode_bytes_begin (e : cbor_enc) (n : Z) : bool * cbor_enc := cbor_uint e 2 n.
(** memfault_minimal_cbor.c:183-187 *)
Definition cbor_encode_string (e : cbor_enc) (s : list Z) : bool * cbor_enc := cbor_string_like e 3 s.
(** memfault_minimal_cbor.c:189-191 *)
Definition cbor_encode_string_begin (e : cbor_enc) (n : Z) : bool * cbor_enc := cbor_uint e 3 n.
(** memfault_minimal_cbor.c:193-195 *)
Definition cbor_encode_dict_begin (e : cbor_enc) (n : Z) : bool * cbor_enc := cbor_uint e 5 n.
(** memfault_minimal_cbor.c:197-199 *)
Definition cbor_encode_array_begin (e : cbor_enc) (n : Z) : bool * cbor_enc := cbor_uint e 4 n.
(** memfault_minimal_cbor.c:40-41 and :201-204 *)
Definition cbor_encode_null (e : cbor_enc) : bool * cbor_enc := cbor_add e [Z.lor (cbor_mt 7) 22].

(** One call of the encoder API. *)
Inductive cbor_op :=
| OpUnsigned (v : Z) | OpSigned (v : Z) | OpLong (v : Z) | OpDouble (bits : Z)
| OpJoin (data : list Z) | OpBytes (b : list Z) | OpBytesBegin (n : Z)
| OpString (s : list Z) | OpStringBegin (n : Z) | OpDict (n : Z) | OpArray (n : Z) | OpNull.

(** Dispatch to the functions above. *)
Definition cbor_do (e : cbor_enc) (o : cbor_op) : bool * cbor_enc :=
  match o with
  | OpUnsigned v => cbor_encode_unsigned e v
  | OpSigned v => cbor_encode_signed e v
  | OpLong v => cbor_encode_long_signed e v
  | OpDouble v => cbor_encode_double_bits e v
  | OpJoin d => cbor_join e d
  | OpBytes b => cbor_encode_bytes e b
  | OpBytesBegin n => cbor_encode_bytes_begin e n
  | OpString s => cbor_encode_string e s
  | OpStringBegin n => cbor_encode_string_begin e n
  | OpDict n => cbor_encode_dict_begin e n
  | OpArray n => cbor_encode_array_begin e n
  | OpNull => cbor_encode_null e
  end.

(** Calls made one after the other whatever they return. *)
Fixpoint cbor_calls (e : cbor_enc) (ops : list cbor_op) : list bool * cbor_enc :=
  match ops with
  | [] => ([], e)
  | o :: r => let (b, e1) := cbor_do e o in
              let (bs, e2) := cbor_calls e1 r in (b :: bs, e2)
  end.
(** Calls chained with [&&], as every serializer of the SDK does. *)
Fixpoint cbor_seq (e : cbor_enc) (ops : list cbor_op) : bool * cbor_enc :=
  match ops with
  | [] => (true, e)
  | o :: r => let (b, e1) := cbor_do e o in
              if b then cbor_seq e1 r else (false, e1)
  end.
(** Everything handed to the write callback so far. *)
Definition ce_output (e : cbor_enc) : list Z := concat (map snd (ce_writes e)).

(** memfault_minimal_cbor.c:206-210 applied to every call of the log. *)
Fixpoint memcpy_writes (buf : list Z) (ws : list (Z * list Z)) : option (list Z) :=
  match ws with
  | [] => Some buf
  | (off, d) :: r => do buf <- splice buf off d; memcpy_writes buf r
  end.
