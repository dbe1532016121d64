(** Property theorems C12-C13: CBOR encoder. *)
From Coq Require Import String.
From Verif Require Import Base Cbor CborSpec CborDoc CborProofs.

(** C12: any document (nested to any depth) serialized through the API, call by call, into a
    buffer of length [L]: it succeeds exactly when the size-only pass fits, and then an RFC 7049
    reader recovers exactly the document whatever bytes follow. *)
Theorem C12_cbor_document_round_trip : forall d L,
  doc_ok d -> is_u32 L -> calls_bound (doc_ops d) < 4294967296 ->
  exists e0 b e, cbor_seq cbor_size_only_init (doc_ops d) = (true, e0) /\
    cbor_seq (cbor_init L) (doc_ops d) = (b, e) /\ (b = true <-> cbor_deinit e0 <= L) /\
    cbor_deinit e = zlen (ce_output e) /\
    (b = true -> cbor_deinit e = cbor_deinit e0 /\
       forall rest, cbor_read (ce_output e ++ rest) = Some (doc_value d, rest)).
Proof. exact cbor_document. Qed.
Print Assumptions C12_cbor_document_round_trip.
Example C12_case :
  let d := DMap [(DString (str "a"), DArray [DUnsigned 4294967295; DSigned (-500); DLong (-9223372036854775808); DNull]);
                 (DUnsigned 7, DBytesIn [[1; 2]; []; [255]]); (DSigned (-1), DDouble 4611686018427387904)] in
  doc_ok d /\ calls_bound (doc_ops d) < 4294967296 /\
  let (b, e) := cbor_seq (cbor_init 64) (doc_ops d) in
  b = true /\ cbor_read (ce_output e) = Some (doc_value d, []).
Proof. vm_compute. repeat split; congruence. Qed.

(** C12: no encoding an RFC reader accepts for the same integer is shorter. *)
Theorem C12_cbor_integers_shortest : forall o v L e alt rest,
  (o = OpUnsigned v /\ is_u32 v) \/ (o = OpSigned v /\ is_s32 v) \/ (o = OpLong v /\ is_s64 v) ->
  is_u32 L -> cbor_do (cbor_init L) o = (true, e) -> bytes alt -> bytes rest ->
  cbor_read (alt ++ rest) = Some (IInt v, rest) -> zlen (ce_output e) <= zlen alt.
Proof. exact int_shortest_out. Qed.
Print Assumptions C12_cbor_integers_shortest.

(** C12: the length of strings, arrays and maps is announced in the shortest head too. *)
Theorem C12_cbor_lengths_shortest : forall o mt n L e,
  op_head o = Some (mt, n) -> is_u32 n -> is_u32 L -> zlen (op_data o) < 4294967287 ->
  cbor_do (cbor_init L) o = (true, e) ->
  exists h, ce_output e = h ++ op_data o /\
    (forall rest, exists ai, read_head (h ++ rest) = Some (mt, ai, n, rest)) /\
    (forall alt rest ai, bytes alt -> read_head (alt ++ rest) = Some (mt, ai, n, rest) -> zlen h <= zlen alt).
Proof. exact head_shortest_out. Qed.
Print Assumptions C12_cbor_lengths_shortest.
Example C12_shortest_case :
  (let (b, e) := cbor_do (cbor_init 9) (OpLong 256) in b = true /\ ce_output e = [25; 1; 0]) /\
  cbor_read [27; 0; 0; 0; 0; 0; 0; 1; 0] = Some (IInt 256, []) /\
  (let (b, e) := cbor_do (cbor_init 9) (OpString (str "hi")) in b = true /\ ce_output e = [98; 104; 105]) /\
  op_head (OpString (str "hi")) = Some (3, 2).
Proof. vm_compute. repeat split; reflexivity. Qed.

(** C13: any sequence of calls, whatever each returned, against a buffer of length [L] and
    against the size-only encoder. *)
Theorem C13_cbor_bounds : forall ops L, is_u32 L -> calls_bound ops < 4294967296 ->
  exists bs e bs0 e0, cbor_calls (cbor_init L) ops = (bs, e) /\ cbor_calls cbor_size_only_init ops = (bs0, e0) /\
    contiguous 0 (ce_writes e) /\ zlen (ce_output e) = cbor_deinit e /\ cbor_deinit e <= L /\
    forallb (fun b => b) bs0 = true /\ ce_writes e0 = [] /\
    (forallb (fun b => b) bs = true <-> cbor_deinit e0 <= L) /\
    (cbor_deinit e0 <= L -> cbor_deinit e = cbor_deinit e0).
Proof. exact cbor_bounds. Qed.
Print Assumptions C13_cbor_bounds.

(** C13: after any calls, one more call succeeds exactly when its size (by the size-only
    encoder) still fits; it never exceeds the buffer and never touches earlier writes. *)
Theorem C13_cbor_call_fits : forall ops o L bs e, is_u32 L -> calls_bound (ops ++ [o]) < 4294967296 ->
  cbor_calls (cbor_init L) ops = (bs, e) ->
  exists b e' e0, cbor_do e o = (b, e') /\ cbor_do cbor_size_only_init o = (true, e0) /\
    (b = true <-> cbor_deinit e + cbor_deinit e0 <= L) /\
    (b = true -> cbor_deinit e' = cbor_deinit e + cbor_deinit e0) /\
    cbor_deinit e' <= L /\ contiguous 0 (ce_writes e') /\ exists ws, ce_writes e' = ce_writes e ++ ws.
Proof. exact cbor_call_fits. Qed.
Print Assumptions C13_cbor_call_fits.
Example C13_case :
  let ops := [OpDict 1; OpString (str "abc"); OpUnsigned 1000; OpNull] in
  calls_bound ops < 4294967296 /\
  (let (bs, e) := cbor_calls (cbor_init 9) ops in bs = [true; true; true; true] /\ cbor_deinit e = 9) /\
  (let (bs, e) := cbor_calls (cbor_init 7) ops in bs = [true; true; false; true] /\ cbor_deinit e = 6) /\
  cbor_deinit (snd (cbor_calls cbor_size_only_init ops)) = 9.
Proof. vm_compute. repeat split; congruence. Qed.
