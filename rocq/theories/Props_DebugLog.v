(** C118: what the debug logs of the ports show. *)
From Coq Require Import String.
From Verif Require Import Base Base64 DataExport DataExportSpec Log DebugLog DebugLogSpec DebugLogProofs.

(** Every text is put out once, with its level, as far as its first 127 characters; on every port, and
    whatever the buffer held before. *)
Theorem C118_line : forall p junk level text, ~ In 0 text -> 0 <= level <= 3 ->
  exists e, plat_log p junk level text = [e] /\ reads e = Some (level, shortened text).
Proof. exact line_ok. Qed.
Print Assumptions C118_line.

(** A text put out as it is: only a line end is added; on Zephyr it is shortened too. *)
Theorem C118_raw : forall p junk text, ~ In 0 text ->
  exists e, (e = [10] \/ e = [13; 10]) /\
    plat_raw p junk text = match p with ZephyrLog | ZephyrPrintk => shortened text | _ => text end ++ e.
Proof. exact raw_ok. Qed.
Print Assumptions C118_raw.

(** Chunks of up to 90 bytes, as exported by default, can be read from the console of every port. *)
Theorem C118_exported : forall p junk max ejunk chunk,
  bytes chunk -> zlen chunk <= max -> b64_enc_len max <= INT_MAX -> zlen ejunk = export_buf_len max -> zlen chunk <= 90 ->
  exists buf e s, export_chunk max ejunk chunk = Some buf /\ export_logged p junk buf = [e] /\
    reads e = Some (1, s) /\ read_line s = Some chunk.
Proof. exact export_ok. Qed.
Print Assumptions C118_exported.

(** Longer ones, for which MEMFAULT_DATA_EXPORT_CHUNK_MAX_LEN has to be set, are all lost: the end of the
    line is cut off, and nothing tells. *)
Theorem C118_longer_chunks_refuted : forall p junk max ejunk chunk,
  bytes chunk -> zlen chunk <= max -> b64_enc_len max <= INT_MAX -> zlen ejunk = export_buf_len max -> 90 < zlen chunk ->
  exists buf e s, export_chunk max ejunk chunk = Some buf /\ export_logged p junk buf = [e] /\
    reads e = Some (1, s) /\ read_line s = None.
Proof. exact export_lost. Qed.
Print Assumptions C118_longer_chunks_refuted.

(** A level that is not one of the four: Zephyr shows it as an error, the others drop the line. *)
Theorem C118_unknown_level : forall p junk level text, ~ In 0 text -> ~ 0 <= level <= 3 ->
  match p with
  | ZephyrLog => plat_log p junk level text = [Handed 1 (str "mflt") (str "??? " ++ shortened text)]
  | ZephyrPrintk => plat_log p junk level text = [Printed (str "<err> mflt: ??? " ++ shortened text ++ [10])]
  | _ => plat_log p junk level text = []
  end.
Proof.
  intros p junk level text N L.
  assert (A : letter level = None) by (unfold letter; repeat (ifz; try lia); reflexivity).
  assert (B : os_level level = None) by (unfold os_level; repeat (ifz; try lia); reflexivity).
  destruct p; unfold plat_log; rewrite ?A, ?B, ?(dbg_ok _ _ N); reflexivity.
Qed.
Print Assumptions C118_unknown_level.

(** Exporting is logging, so that where the SDK's own logs are saved, exporting changes what is saved: here
    the chunk takes the place of the only log, which is dropped. *)
Definition c118_read (s : lg) : option (list Z) :=
  do x <- log_read 80 false s; do r <- fst (x : option rlog * lg); Some (r_text r).
Theorem C118_export_leaves_logs_refuted : exists s0 s chunk ejunk buf s',
  log_boot (fill 64 0) 64 0 = Some (Some s0) /\ log_save 80 s0 3 0 None (str "battery failed") = Some (true, s) /\
  c118_read s = Some (str "battery failed") /\
  export_chunk 80 ejunk chunk = Some buf /\ zlen chunk = 36 /\ export_saved 80 s buf = Some s' /\
  c118_read s' = Some (str "... 1 messages dropped ...").
Proof.
  eexists _, _, (fill 36 1), (fill (export_buf_len 80) 0), _, _.
  split; [vm_compute; reflexivity|]. split; [vm_compute; reflexivity|]. split; [vm_compute; reflexivity|].
  split; [vm_compute; reflexivity|]. split; [vm_compute; reflexivity|]. split; [vm_compute; reflexivity|].
  vm_compute. reflexivity.
Qed.
Print Assumptions C118_export_leaves_logs_refuted.

Example C118_case :
  plat_log Da145 (fill 128 170) 2 (str "low") = [Printed (str "[W] MFLT: low" ++ [13; 10])] /\
  plat_log ZephyrPrintk (fill 128 170) 0 (fill 200 65) = [Printed (str "<dbg> mflt: " ++ fill 127 65 ++ [10])] /\
  plat_log EspIdf (fill 128 170) 3 (str "no") = [Handed 1 (str "mflt") (str "no")].
Proof. vm_compute. repeat split. Qed.
