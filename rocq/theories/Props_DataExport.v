(** Properties of the data export (C34). *)
From Coq Require Import String.
From Verif Require Import Base Base64 Base64Spec Crc16Spec ChunkSpec Packetizer PacketizerSpec DataExport DataExportSpec DataExportProofs.

(** Any chunk that fits, any configured maximum, whatever the array held: the text is written inside
    the array, NUL terminated, and is read back as the chunk. *)
Theorem C34_exported_line_is_read_back : forall max junk chunk,
  bytes chunk -> zlen chunk <= max -> b64_enc_len max <= INT_MAX -> zlen junk = export_buf_len max ->
  exists buf, export_chunk max junk chunk = Some buf /\ zlen buf = zlen junk /\ carries buf chunk.
Proof. exact export_line_correct. Qed.
Print Assumptions C34_exported_line_is_read_back.

(** A longer chunk trips the assertion before anything is written. *)
Theorem C34_too_long_is_refused : forall max junk chunk,
  max < zlen chunk -> export_chunk max junk chunk = None.
Proof. exact export_too_long. Qed.
Print Assumptions C34_too_long_is_refused.

(** memfault_data_export_dump_chunks stops after at most [work] + 1 attempts.  The chunks its lines carry
    fall into one group per queued message, each group is received as exactly that message, and the
    sources are then empty. *)
Theorem C34_dump_exports_everything : forall max cfg w mask stacks,
  9 <= max -> b64_enc_len max <= INT_MAX -> queues_ok cfg w -> is_u32 mask ->
  Forall (fun p => zlen (fst p) = max /\ zlen (snd p) = export_buf_len max) stacks ->
  work (backlog cfg mask w) < zlen stacks ->
  exists lines chunks groups st w',
    dump max cfg w (pk_set_active_sources pk_init mask) stacks = Some (lines, st, w') /\
    Forall2 carries lines chunks /\ chunks = concat groups /\
    Forall2 (fun g p => exists crc, receive g = Some (p, crc) /\ is_crc 0 p crc) groups (backlog cfg mask w) /\
    (forall s, q_of w' s = if enabled mask s then [] else q_of w s).
Proof. exact dump_everything. Qed.
Print Assumptions C34_dump_exports_everything.

(** The lines can be picked out of a log holding other lines. *)
Theorem C34_chunks_are_extracted_from_a_log : forall lines ls log chunks,
  Forall2 carries lines chunks -> Forall2 (fun b s => c_string b = Some s) lines ls ->
  mixed ls log -> extract log = chunks.
Proof. exact extracted. Qed.
Print Assumptions C34_chunks_are_extracted_from_a_log.

(** After memfault_packetizer_begin in multi-call mode, the dump returns with data left: it consumes a
    piece of the message without printing it. *)
Theorem C34_dump_after_multi_call_begin_refuted : ~ (forall max cfg w ops rs st w1 stacks lines st' w',
  9 <= max -> b64_enc_len max <= INT_MAX -> queues_ok cfg w -> Forall (op_ok cfg) ops ->
  pk_run cfg w pk_init ops = Some (rs, st, w1) ->
  Forall (fun p => zlen (fst p) = max /\ zlen (snd p) = export_buf_len max) stacks ->
  dump max cfg w1 st stacks = Some (lines, st', w') ->
  nothing_to_send w' (pk_mask st')).
Proof. exact dump_mid_multi. Qed.
Print Assumptions C34_dump_after_multi_call_begin_refuted.

(** Maximum 12, two events: three lines, the last one the short event. *)
Example C34_case :
  let w := mk_q [] [[1; 2; 3; 4; 5; 6; 7; 8; 9; 10]; [11]] [] [] in
  exists lines st,
    dump 12 (mk_cfg [] None) w pk_init (repeat (fill 12 7, fill 21 7) 5) = Some (lines, st, mk_q [] [] [] []) /\
    map c_string lines = [ Some (str "MC:SAsCAQIDBAUGBwgJ:"); Some (str "MC:gAoK+G0=:"); Some (str "MC:CAILCdc=:") ] /\
    extract [str "boot"; str "MC:SAsCAQIDBAUGBwgJ:"; str "MC:oops"; str "MC:CAILCdc=:"]
      = [[72; 11; 2; 1; 2; 3; 4; 5; 6; 7; 8; 9]; [8; 2; 11; 9; 215]].
Proof. vm_compute. eauto 10. Qed.
