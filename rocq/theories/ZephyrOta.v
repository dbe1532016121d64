(** Model of the OTA client of ports/zephyr/common/memfault_platform_http.c: waiting for a response header,
    the response with the download URL, and the download.

    The network is that of ZephyrHttp.v.  The answers of calloc and of the handler's callbacks are
    arbitrary; the handler's may depend on all calls so far.
    Simplifications: log output is omitted; the buffer of the caller is not modelled beyond its length. *)
From Verif Require Import Base HttpUtils HttpRequest ZephyrHttp.

(** prv_wait_for_http_response_header, :458-497, with a buffer of [cap] bytes: the context and the bytes of
    the body already received, or a failure.  The fuel is never used up. *)
Fixpoint head_loop (fuel : nat) (h : hctx) (r : list rx) (cap : Z) : option (option (hctx * list Z) * list rx) :=
  match fuel with
  | O => None
  | S fuel =>
      match read_socket r cap with
      | (None, r) => Some (None, r)                                              (* :465 *)
      | (Some d, r) =>
          do x <- parse_http h d true;                                           (* :469 *)
          let (fin, h) := (x : bool * hctx) in
          if negb fin then head_loop fuel h r cap
          else if negb (h_err h =? 0) then Some (None, r)                        (* :475 *)
          else if 400 <=? h_status h then Some (None, r)                         (* :489 *)
          else Some (Some (h, drop (h_done h) d), r)                             (* :482-487 *)
      end
  end.
Definition wait_header (r : list rx) (cap : Z) : option (option (hctx * list Z) * list rx) :=
  head_loop (S (rx_size r)) h_init r cap.

(** ** The download URL *)
(** :601-607: the memory, the offset; the fuel is never used up. *)
Fixpoint url_loop (fuel : nat) (clen : Z) (buf : list Z) (off : Z) (r : list rx) : option (option (list Z) * list rx) :=
  match fuel with
  | O => None
  | S fuel =>
      if off =? clen then Some (Some buf, r)
      else match read_socket r (u32 (clen - off)) with
           | (None, r) => Some (None, r)
           | (Some d, r) => do buf <- splice buf off d; url_loop fuel clen buf (u32 (off + zlen d)) r
           end
  end.
Inductive url_res := UrlError | UpToDate | Url (mem : list Z).
(** prv_parse_new_ota_payload_url_response, :574-614; [alloc]: whether prv_calloc can provide so many bytes.
    Also: how much it was asked for, if it was.  [None]: a write outside the memory. *)
Definition url_response (alloc : Z -> bool) (r : list rx) : option (url_res * option Z) :=
  do x <- wait_header r 32;
  match x with
  | (None, _) => Some (UrlError, None)
  | (Some (h, got), r) =>
      if negb (h_status h =? 200) then Some (UpToDate, None)                     (* :583 *)
      else
        let n := u32 (h_clen h + 1) in
        if negb (alloc n) then Some (UrlError, Some n)
        else
          do buf <- splice (fill n 0) 0 got;                                     (* :596-598 *)
          do y <- url_loop (S (rx_size r)) (h_clen h) buf (zlen got) r;
          Some (match fst y with Some buf => Url buf | None => UrlError end, Some n)
  end.

(** ** The download *)
Inductive h_call := HUpdate (size : Z) | HData (d : list Z) | HComplete.
(** :519-532; [ans]: the answer of a callback, given all calls up to and including this one *)
Fixpoint install_loop (ans : list h_call -> bool) (cap clen : Z) (fuel : nat) (off : Z) (log : list h_call) (r : list rx)
  : option (bool * list h_call * list rx) :=
  match fuel with
  | O => None
  | S fuel =>
      if off =? clen then Some (ans (log ++ [HComplete]), log ++ [HComplete], r)  (* :532 *)
      else match read_socket r (Z.min (u32 (clen - off)) cap) with
           | (None, r) => Some (false, log, r)                                   (* :521 *)
           | (Some d, r) =>
               let log := log ++ [HData d] in
               if negb (ans log) then Some (false, log, r)                       (* :525 *)
               else install_loop ans cap clen fuel (u32 (off + zlen d)) log r
           end
  end.
(** prv_install_ota_payload, :499-533; [cap]: handler->buf_len *)
Definition install (ans : list h_call -> bool) (cap : Z) (r : list rx) : option (bool * list h_call * list rx) :=
  do x <- wait_header r cap;
  match x with
  | (None, r) => Some (false, [], r)
  | (Some (h, got), r) =>
      let log := [HUpdate (h_clen h)] in
      if negb (ans log) then Some (false, log, r)                                (* :510 *)
      else
        let log2 := if zlen got =? 0 then log else log ++ [HData got] in
        if negb (zlen got =? 0) && negb (ans log2) then Some (false, log2, r)    (* :514 *)
        else install_loop ans cap (h_clen h) (S (rx_size r)) (zlen got) log2 r
  end.
