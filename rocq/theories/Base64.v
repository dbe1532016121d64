(** Model of components/util/src/memfault_base64.c *)
From Coq Require Import String.
From Verif Require Import Base.

(** memfault_base64.c:12 *)
Definition b64_table : list Z :=
  str "ABCDEFGHIJKLMNOPQRSTUVWXYZabcdefghijklmnopqrstuvwxyz0123456789+/".

(** memfault_base64.c:11-15; [None] would be a read past the table. *)
Definition b64_char (word offset : Z) : option Z :=
  get b64_table (Z.land (Z.shiftr word (offset * 6)) 63).

(** components/include/memfault/util/base64.h: MEMFAULT_BASE64_ENCODE_LEN(n) =
    4 * ((n + 2) / 3) *)
Definition b64_enc_len (n : Z) : Z := 4 * ((n + 2) / 3).

Definition INT_MAX : Z := 2147483647. (* <limits.h>, 32-bit int *)

(** memfault_base64.c:17-34: one iteration per recursive call.  [n] is [buf_len].
    [None]: out-of-bounds access, [int] overflow of [curr_idx], or fuel exhausted. *)
Fixpoint b64_fwd (fuel : nat) (inp : list Z) (n bin_idx curr_idx : Z) (out : list Z)
  : option (list Z) :=
  match fuel with
  | O => None
  | S f =>
      if bin_idx <? n then                                                (* :23 *)
        do byte0 <- get inp bin_idx;                                      (* :24 *)
        do byte1 <- (if bin_idx + 1 <? n then get inp (bin_idx + 1) else Some 0); (* :25 *)
        do byte2 <- (if bin_idx + 2 <? n then get inp (bin_idx + 2) else Some 0); (* :26 *)
        let triple := Z.shiftl byte0 16 + Z.shiftl byte1 8 + byte2 in     (* :27 *)
        if INT_MAX <? curr_idx + 4 then None else
        do c0 <- b64_char triple 3;                                       (* :29 *)
        do out <- put out curr_idx c0;
        do c1 <- b64_char triple 2;                                       (* :30 *)
        do out <- put out (curr_idx + 1) c1;
        do c2 <- (if bin_idx + 1 <? n then b64_char triple 1 else Some 61); (* :31 *)
        do out <- put out (curr_idx + 2) c2;
        do c3 <- (if bin_idx + 2 <? n then b64_char triple 0 else Some 61); (* :32 *)
        do out <- put out (curr_idx + 3) c3;
        b64_fwd f inp n (bin_idx + 3) (curr_idx + 4) out
      else Some out
  end.

(** memfault_base64.c:17-34.  [buf] is the whole input, [out] the caller's output buffer;
    returns the output buffer afterwards. *)
Definition base64_encode (buf out : list Z) : option (list Z) :=
  b64_fwd (S (length buf)) buf (zlen buf) 0 0 out.

(** memfault_base64.c:52-62, the in-place loop over one shared buffer. *)
Fixpoint b64_bwd (fuel : nat) (buf : list Z) (n bin_idx curr_idx : Z) : option (list Z) :=
  match fuel with
  | O => None
  | S f =>
      if 0 <=? bin_idx then                                               (* :52 *)
        do byte0 <- get buf bin_idx;                                      (* :53 *)
        do byte1 <- (if bin_idx + 1 <? n then get buf (bin_idx + 1) else Some 0); (* :54 *)
        do byte2 <- (if bin_idx + 2 <? n then get buf (bin_idx + 2) else Some 0); (* :55 *)
        let triple := Z.shiftl byte0 16 + Z.shiftl byte1 8 + byte2 in     (* :56 *)
        do c3 <- (if bin_idx + 2 <? n then b64_char triple 0 else Some 61); (* :58 *)
        do buf <- put buf curr_idx c3;
        do c2 <- (if bin_idx + 1 <? n then b64_char triple 1 else Some 61); (* :59 *)
        do buf <- put buf (curr_idx - 1) c2;
        do c1 <- b64_char triple 2;                                       (* :60 *)
        do buf <- put buf (curr_idx - 2) c1;
        do c0 <- b64_char triple 3;                                       (* :61 *)
        do buf <- put buf (curr_idx - 3) c0;
        b64_bwd f buf n (bin_idx - 3) (curr_idx - 4)
      else Some buf
  end.

(** memfault_base64.c:36-63.  [buf] is the caller's whole buffer, [bin_len] bytes of which
    hold the binary data.  [s32]/[u32] are the casts of :41, :45, :52. *)
Definition base64_encode_inplace (buf : list Z) (bin_len : Z) : option (list Z) :=
  let remainder := bin_len mod 3 in                                       (* :40 *)
  let start_idx := u32 (if remainder =? 0 then bin_len - 3 else bin_len - remainder) in (* :41 *)
  let encoded_len := b64_enc_len bin_len in                               (* :44 *)
  b64_bwd (S (Z.to_nat bin_len)) buf bin_len (s32 start_idx) (s32 encoded_len - 1).
