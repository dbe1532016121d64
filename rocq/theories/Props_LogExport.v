(** Property C62: the export of saved logs. *)
From Coq Require Import String.
From Verif Require Import Base Base64 Base64Spec CircularBuffer CircularBufferProofs Log LogSpec LogProofs DataExportSpec LogExport LogExportSpec LogExportProofs.

(** After any history of saves, reads and uploads (in which no log was evicted after an upload and
    before it was read), the export hands the application every log held and not read, oldest first,
    preceded by the notice when logs were lost: each exactly once.  A compact log is handed over as
    lines "ML:...:" whose base64 pieces, decoded and put together, are the log's bytes; the array is
    never overrun, whatever it held.  Afterwards there is nothing left to read. *)
Theorem C62_export_hands_over_every_unread_log cfg ts_enabled storage min ops rs h max stacks :
  0 < zlen storage < 2147483648 -> 4 <= cfg <= 255 -> Forall (log_op_ok ts_enabled) ops ->
  hist_run cfg (zlen storage) (hist_init min) ops = Some (rs, h) -> h_sane h = true ->
  0 < max -> b64_enc_len max <= INT_MAX ->
  Forall (fun j => zlen j = log_export_buf_len max) stacks -> zlen (pending cfg (zlen storage) h) < zlen stacks ->
  exists s s1 s2 s3 calls,
    log_boot storage (zlen storage) min = Some (Some s) /\ log_run cfg ts_enabled s ops = Some (rs, s1) /\
    log_export_logs cfg ts_enabled max s1 stacks = Some (concat calls, s2) /\
    Forall2 (exports_log max) (pending cfg (zlen storage) h) calls /\
    log_read cfg ts_enabled s2 = Some (None, s3).
Proof. exact (log_export_history cfg ts_enabled storage min ops rs h max stacks). Qed.
Print Assumptions C62_export_hands_over_every_unread_log.

(** One log, of any length. *)
Theorem C62_one_log max junk l :
  r_type l = 0 \/ r_type l = 1 /\ bytes (r_text l) /\ zlen (r_text l) < 4294967296 ->
  0 < max -> b64_enc_len max <= INT_MAX -> zlen junk = log_export_buf_len max ->
  exists cs, log_export_log max junk l = Some cs /\ exports_log max l cs.
Proof. exact (export_log_ok max junk l). Qed.
Print Assumptions C62_one_log.

(** A compact log of no bytes is not handed over at all: the application cannot tell it was there. *)
Theorem C62_every_log_gets_a_line_refuted :
  exists l junk, zlen junk = log_export_buf_len 80 /\ r_type l = 1 /\ log_export_log 80 junk l = Some [].
Proof. exists (mk_rlog 2 1 0 []), (fill (log_export_buf_len 80) 0). repeat split. Qed.
Print Assumptions C62_every_log_gets_a_line_refuted.

(** A text log is handed over with its length, but as a C string it ends at its first NUL: the default
    memfault_log_export_msg ("%s") prints less than was saved. *)
Theorem C62_text_printed_whole_refuted :
  exists l junk c, zlen junk = log_export_buf_len 80 /\ r_type l = 0 /\ log_export_log 80 junk l = Some [c] /\
    c_string (lc_mem c) <> Some (r_text l).
Proof.
  exists (mk_rlog 2 0 0 [65; 0; 66]), (fill (log_export_buf_len 80) 0). eexists.
  repeat split. vm_compute. discriminate.
Qed.
Print Assumptions C62_text_printed_whole_refuted.

(** A text log and a compact log of five bytes, exported in pieces of three. *)
Example C62_case :
  let ops := [LSave 1 0 None (str "hello"); LSave 3 1 None [1; 2; 255; 4; 5]] in
  (do s <- log_boot (fill 64 0) 64 1; do s <- s; do x <- log_run 128 true s ops;
   do y <- log_export_logs 128 true 3 (snd x) [fill 9 170; fill 9 170; fill 9 170]; Some (fst y))
  = Some [mk_log_call 1 (str "hello" ++ [0]) 5; mk_log_call 3 (str "ML:AQL/:" ++ [0]) 8; mk_log_call 3 (str "ML:BAU=:" ++ [0]) 8]
  /\ pending 128 64 (match hist_run 128 64 (hist_init 1) ops with Some (_, h) => h | None => hist_init 1 end)
     = [mk_rlog 1 0 0 (str "hello"); mk_rlog 3 1 0 [1; 2; 255; 4; 5]]
  /\ log_line (str "ML:BAU=:") = Some [4; 5].
Proof. vm_compute. repeat split. Qed.
