(** Properties of the chunk transport (C14, C15, C16). *)
From Verif Require Import Base Crc16 Crc16Spec ChunkTransport ChunkSpec ChunkProofs.

(** C14: whatever buffers (of whatever sizes) the caller drains a message with, a receiver that
    only knows the wire format gets the message and its CRC back from the chunks produced. *)
Theorem C14_chunks_reassemble : forall msg bufs outs reads c,
  bytes msg -> zlen msg < 4294967293 -> Forall (fun b => zlen b < 4294967296) bufs ->
  ct_drain (read_at msg) (ct_start (zlen msg) false) bufs = Some (outs, true, reads, c) ->
  exists crc, receive (filter (fun o => negb (zlen o =? 0)) outs) = Some (msg, crc) /\ is_crc 0 msg crc.
Proof. exact chunks_reassemble. Qed.
Print Assumptions C14_chunks_reassemble.

Example C14_case :
  exists outs reads c,
  ct_drain (read_at [1;2;3;4;5;6;7;8;9;10]) (ct_start 10 false) [fill 9 0; fill 4 0; fill 9 0] = Some (outs, true, reads, c)
  /\ map zlen outs = [9; 0; 7] /\ reads = [(0, 7); (7, 3)].
Proof. vm_compute. eauto 10. Qed.

(** C15: no call ever leaves the buffer or the message, in any state a caller can reach, and the
    message is requested in order, every byte once. *)
Theorem C15_drain_never_fails : forall msg multi bufs,
  bytes msg -> zlen msg < 4294967293 -> Forall (fun b => zlen b < 4294967296) bufs ->
  exists outs fin reads c,
    ct_drain (read_at msg) (ct_start (zlen msg) multi) bufs = Some (outs, fin, reads, c) /\
    covers 0 (ct_offset c) reads /\ 0 <= ct_offset c <= zlen msg /\
    (fin = true -> ct_offset c = zlen msg) /\
    Forall2 (fun o b => zlen o <= zlen b) outs (take (zlen outs) bufs).
Proof. exact drain_never_fails. Qed.
Print Assumptions C15_drain_never_fails.

(** The caller's memory past [*out_buf_len] is untouched, the unused tail of the buffer is
    overwritten by the fill pattern, and too small a buffer changes nothing. *)
Theorem C15_call_stays_in_buffer : forall msg multi bufs outs reads c buf n,
  bytes msg -> zlen msg < 4294967293 -> Forall (fun b => zlen b < 4294967296) bufs ->
  ct_drain (read_at msg) (ct_start (zlen msg) multi) bufs = Some (outs, false, reads, c) ->
  0 <= n <= zlen buf -> n < 4294967296 ->
  exists o, ct_next (read_at msg) c buf n = Some o /\
    0 <= co_len o <= n /\ zlen (co_buf o) = zlen buf /\ drop n (co_buf o) = drop n buf /\
    (n < 9 -> co_more o = true /\ co_len o = 0 /\ co_buf o = buf /\ co_ctx o = c /\ co_reads o = []) /\
    (9 <= n -> 0 < co_len o /\ forall i, co_len o <= i < n -> get (co_buf o) i = Some 186).
Proof. exact call_stays_in_buffer. Qed.
Print Assumptions C15_call_stays_in_buffer.

(** Draining terminates: one more usable buffer than the message has bytes is always enough. *)
Theorem C15_terminates : forall msg multi bufs,
  bytes msg -> zlen msg < 4294967293 -> Forall (fun b => zlen b < 4294967296) bufs ->
  zlen msg < zlen (filter (fun b => 9 <=? zlen b) bufs) ->
  exists outs reads c, ct_drain (read_at msg) (ct_start (zlen msg) multi) bufs = Some (outs, true, reads, c).
Proof. exact drain_terminates. Qed.
Print Assumptions C15_terminates.

Example C15_case : exists r,
  ct_drain (read_at [1;2;3]) (ct_start 3 true) [fill 3 7; fill 9 7; fill 9 7; fill 9 7] = Some ([[]; 8 :: [1;2;3] ++ r], true, [(0, 3)], mk_ct 3 true 6 3 24881).
Proof. vm_compute. eauto. Qed.

(** C15 does not hold for every message length a [uint32_t] can hold: at 2^32-3 bytes the size of
    the single chunk wraps and the first call writes past the end of every smaller buffer. *)
Theorem C15_huge_message_refuted :
  exists msg, bytes msg /\ zlen msg < 4294967296 /\
    forall buf, 9 <= zlen buf < 4294967293 ->
      ct_next (read_at msg) (ct_start (zlen msg) false) buf (zlen buf) = None.
Proof. exact huge_message. Qed.
Print Assumptions C15_huge_message_refuted.

(** C16: in multi-call mode the pieces concatenate to one chunk: the very bytes that normal mode
    produces in a single call with a large enough buffer, of exactly the announced length. *)
Theorem C16_multi_call_is_one_chunk : forall msg bufs outs reads c,
  bytes msg -> zlen msg < 4294967293 -> Forall (fun b => zlen b < 4294967296) bufs ->
  ct_drain (read_at msg) (ct_start (zlen msg) true) bufs = Some (outs, true, reads, c) ->
  (exists crc, receive [concat outs] = Some (msg, crc) /\ is_crc 0 msg crc) /\
  zlen (concat outs) = ct_single c /\
  ct_single (ct_info (ct_start (zlen msg) true)) = ct_single c /\
  (forall buf, 3 + zlen msg <= zlen buf -> 9 <= zlen buf < 4294967296 ->
     exists reads' c', ct_drain (read_at msg) (ct_start (zlen msg) false) [buf] = Some ([concat outs], true, reads', c')).
Proof. exact multi_call_is_one_chunk. Qed.
Print Assumptions C16_multi_call_is_one_chunk.

Example C16_case :
  exists outs reads c,
  ct_drain (read_at [1;2;3;4;5;6;7;8;9;10]) (ct_start 10 true) [fill 9 0; fill 4 0; fill 9 0] = Some (outs, true, reads, c)
  /\ map zlen outs = [9; 0; 4] /\ ct_single c = 13.
Proof. vm_compute. eauto 10. Qed.
