(** Model of components/core/src/memfault_data_export.c: chunks as lines of text. *)
From Coq Require Import String.
From Verif Require Import Base Base64 Packetizer.

(** components/include/memfault/core/data_export.h:78-82, MEMFAULT_DATA_EXPORT_BASE64_CHUNK_MAX_LEN for
    MEMFAULT_DATA_EXPORT_CHUNK_MAX_LEN = [max]. *)
Definition export_buf_len (max : Z) : Z := 3 + b64_enc_len max + 1 + 1.

(** memfault_data_export.c:21-42.  [junk] is what the uninitialised array [base64] holds.  Result: the
    array as handed to memfault_data_export_base64_encoded_chunk.  [None]: the assertion fails, or an
    access outside the array. *)
Definition export_chunk (max : Z) (junk chunk : list Z) : option (list Z) :=
  if max <? zlen chunk then None                                        (* :22 *)
  else
    do b <- splice junk 0 (str "MC:");                                  (* :26 *)
    let write_offset := 3 in                                            (* :29 *)
    do e <- base64_encode chunk (drop write_offset b);                  (* :31 *)
    let b := take write_offset b ++ e in
    let write_offset := write_offset + b64_enc_len (zlen chunk) in      (* :32 *)
    do b <- splice b write_offset (str ":");                            (* :34 *)
    put b (write_offset + 1) 0.                                         (* :37-39 *)

(** memfault_data_export.c:50-61, one attempt.  [buf]: what the array of MEMFAULT_DATA_EXPORT_CHUNK_MAX_LEN
    bytes holds before the call. *)
Definition try_send (max : Z) (cfg : pk_cfg) (w : queues) (st : pk) (buf junk : list Z)
  : option (option (list Z) * pk * queues) :=
  do x <- pk_get_chunk cfg w st buf;
  let '(available, out, st, w, _) := x in
  if negb available then Some (None, st, w)                             (* :56 *)
  else do line <- export_chunk max junk out; Some (Some line, st, w).   (* :60 *)

(** memfault_data_export.c:64-66, memfault_data_export_dump_chunks.  [stacks]: the contents of the two
    uninitialised arrays in each attempt.  [None]: a failure as above, or still running after
    [length stacks] attempts. *)
Fixpoint dump (max : Z) (cfg : pk_cfg) (w : queues) (st : pk) (stacks : list (list Z * list Z))
  : option (list (list Z) * pk * queues) :=
  match stacks with
  | [] => None
  | (buf, junk) :: r =>
      do x <- try_send max cfg w st buf junk;
      let '(line, st, w) := x in
      match line with
      | None => Some ([], st, w)
      | Some l => do y <- dump max cfg w st r;
                  let '(ls, st, w) := y in Some (l :: ls, st, w)
      end
  end.
