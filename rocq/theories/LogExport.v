(** Model of components/core/src/memfault_log.c:288-364: saved logs as lines of text. *)
From Coq Require Import String.
From Verif Require Import Base Base64 CircularBuffer Log.

(** components/include/memfault/core/log.h:37-48, MEMFAULT_LOG_EXPORT_BASE64_CHUNK_MAX_LEN for
    MEMFAULT_LOG_EXPORT_CHUNK_MAX_LEN = [max] (default_config.h: 80). *)
Definition log_export_buf_len (max : Z) : Z := 3 + b64_enc_len max + 1 + 1.

(** A call of memfault_log_export_msg, memfault_log.c:288-291: level, the memory the message pointer
    leads to, the length. *)
Record log_call := mk_log_call { lc_level : Z; lc_mem : list Z; lc_len : Z }.

(** memfault_log.c:301-323, the loop for a compact log.  [b]: the array [base64], uninitialised at
    first; [off]: log_read_offset.  [None]: an access outside the array or the message, or out of fuel.
    The memory behind each message pointer is the array at the time of the call. *)
Fixpoint log_export_compact (fuel : nat) (max level : Z) (msg b : list Z) (off : Z) : option (list log_call) :=
  if off <? zlen msg then                                               (* :301 *)
    match fuel with
    | O => None
    | S fuel =>
        do b <- splice b 0 (str "ML:");                                 (* :302-303 *)
        let len := Z.min (u32 (zlen msg - off)) max in                  (* :305-306 *)
        let write_offset := 3 in                                        (* :307 *)
        do piece <- read_at msg off len;
        do e <- base64_encode piece (drop write_offset b);              (* :309 *)
        let b := take write_offset b ++ e in
        let off := u32 (off + len) in                                   (* :310 *)
        let write_offset := write_offset + b64_enc_len len in           (* :311 *)
        do b <- splice b write_offset (str ":");                        (* :313-314 *)
        let write_offset := write_offset + 1 in                         (* :315 *)
        do b <- put b write_offset 0;                                   (* :317 *)
        do r <- log_export_compact fuel max level msg b off;
        Some (mk_log_call level b write_offset :: r)                    (* :319 *)
    end
  else Some [].

(** memfault_log.c:293-329.  The message of a log that was read ends with a NUL (memfault_log.c:245 and
    :257). *)
Definition log_export_log (max : Z) (junk : list Z) (l : rlog) : option (list log_call) :=
  if r_type l =? 1 then                                                 (* :300, kMemfaultLogRecordType_Compact *)
    log_export_compact (Datatypes.S (Z.to_nat (zlen (r_text l)))) max (r_level l) (r_text l) junk 0
  else if r_type l =? 0 then                                            (* :322-324 *)
    Some [mk_log_call (r_level l) (r_text l ++ [0]) (zlen (r_text l))]
  else Some [].                                                         (* :325-327 *)

(** memfault_log.c:331-364.  [stacks]: the array of each call of memfault_log_export_log before it is
    written.  [None]: as above, or still running after [length stacks] reads. *)
Fixpoint log_export_logs (cfg : log_cfg) (ts_enabled : bool) (max : Z) (s : lg) (stacks : list (list Z))
  : option (list log_call * lg) :=
  match stacks with
  | [] => None
  | junk :: r =>
      do x <- log_read cfg ts_enabled s;                                (* :356 *)
      match x with
      | (None, s) => Some ([], s)                                       (* :357-359 *)
      | (Some l, s) =>
          do c <- log_export_log max junk l;                            (* :361 *)
          do y <- log_export_logs cfg ts_enabled max s r;
          let (cs, s) := y in Some (c ++ cs, s)
      end
  end.
