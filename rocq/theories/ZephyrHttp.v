(** Model of the upload path of ports/zephyr/common/memfault_platform_http.c.

    The network is a script of answers: what each attempt to send or to receive gives; a script that is used
    up stands for a poll that times out (:284-295).  What is sent on the connection is recorded.  Executions
    that never leave a loop (EAGAIN for ever) are not modelled.  The packetizer is the one of Uplink.v, the
    request header and the response parser those of HttpRequest.v and HttpUtils.v.
    Simplifications: the stack buffers have the same contents at each call; log output is omitted. *)
From Verif Require Import Base Packetizer Uplink HttpUtils HttpRequest.

(** An attempt to send: so many bytes taken (never more than offered), EAGAIN, or a failure of poll() or
    send() (:303-319, :178). *)
Inductive tx := TxTake (n : Z) | TxAgain | TxFail.
(** An attempt to receive: data has arrived (what does not fit the buffer stays), EAGAIN, or a failure of
    poll() or recv(), or the connection is closed (:418-434).  A closed connection with errno still EAGAIN
    from an earlier call counts as EAGAIN, as in the code. *)
Inductive rx := RxData (d : list Z) | RxAgain | RxFail.

(** prv_send_data, :176-180: one blocking send(); all of the data or a failure: result, bytes sent *)
Definition send_data (t : list tx) (m : list Z) : bool * list Z * list tx :=
  match t with
  | TxTake n :: t => (zlen m <=? n, take n m, t)
  | _ :: t => (false, [], t)
  | [] => (false, [], [])
  end.
(** The messages of a request, up to the first that is not sent completely (HttpRequest.v, [writes]). *)
Fixpoint send_msgs (t : list tx) (ms : list (list Z)) : bool * list Z * list tx :=
  match ms with
  | [] => (true, [], t)
  | m :: r => let '(b, s, t) := send_data t m in
              if b then let '(b, s', t) := send_msgs t r in (b, s ++ s', t) else (false, s, t)
  end.
(** prv_try_send, :297-322: result, bytes sent *)
Fixpoint try_send (t : list tx) (buf : list Z) : bool * list Z * list tx :=
  if zlen buf =? 0 then (true, [], t)                                      (* :299 *)
  else match t with
       | [] => (false, [], [])                                             (* :304 *)
       | TxTake n :: t =>
           if n <=? 0 then (false, [], t)                                  (* :313-318 *)
           else let '(b, s, t) := try_send t (drop n buf) in (b, take n buf ++ s, t)
       | TxAgain :: t => try_send t buf                                    (* :314 *)
       | TxFail :: t => (false, [], t)
       end.

(** prv_read_socket_data, :417-435, with a buffer of [cap] bytes: [None]: false; [Some []]: EAGAIN *)
Definition read_socket (r : list rx) (cap : Z) : option (list Z) * list rx :=
  match r with
  | [] => (None, [])
  | RxAgain :: r => (Some [], r)
  | RxFail :: r => (None, r)
  | RxData d :: r =>
      let got := take (Z.min cap (zlen d)) d in
      if zlen got =? 0 then (None, r)                                      (* :424 *)
      else (Some got, if cap <? zlen d then RxData (drop cap d) :: r else r)
  end.
(** Every read uses up part of the script. *)
Fixpoint rx_size (r : list rx) : nat :=
  match r with [] => O | RxData d :: r => S (length d + rx_size r) | _ :: r => S (rx_size r) end.

(** prv_wait_for_http_response, :437-456; the fuel is never used up. *)
Fixpoint wait_loop (fuel : nat) (h : hctx) (r : list rx) : option (bool * list rx) :=
  match fuel with
  | O => None
  | S fuel =>
      match read_socket r 32 with
      | (None, r) => Some (false, r)
      | (Some d, r) =>
          do x <- parse_http h d false;
          let (fin, h) := (x : bool * hctx) in
          if fin then Some (true, r) else wait_loop fuel h r
      end
  end.
Definition wait_response (r : list rx) : option (bool * list rx) := wait_loop (S (rx_size r)) h_init r.

(** Build and device configuration: CONFIG_MEMFAULT_HTTP_MAX_POST_SIZE (0: none),
    CONFIG_MEMFAULT_RAM_BACKED_COREDUMP_SIZE (0: not RAM backed), serial number, host, project key. *)
Record z_cfg := mk_zc { zc_post : Z; zc_cd : Z; zc_serial : list Z; zc_host : list Z; zc_key : list Z }.

(** A connection: what the network will answer, what was sent, ctx->bytes_sent, and (not part of the code)
    whether memfault_http_start_chunk_post always succeeded: its result is ignored (:360, :388, :825). *)
Record conn := mk_cn { cn_tx : list tx; cn_rx : list rx; cn_out : list Z; cn_bytes : Z; cn_hdr : bool }.

Section Upload.
Context {W : Type}.
Variables (so : sources W) (cfg : up_cfg) (zc : z_cfg) (junk : list Z).

(** :360, :388, :825.  [start_chunk_post] writes the same messages whatever the answers, up to the first refused. *)
Definition start_post (c : conn) (len : Z) : conn :=
  let (b, ms) := start_chunk_post (fun _ => true) (zc_serial zc) (zc_host zc) (zc_key zc) len in
  let '(ok, s, t) := send_msgs (cn_tx c) ms in
  mk_cn t (cn_rx c) (cn_out c ++ s) (cn_bytes c) (cn_hdr c && (b && ok)).
(** :362, :398, :827 *)
Definition send_body (c : conn) (buf : list Z) : bool * conn :=
  let '(b, s, t) := try_send (cn_tx c) buf in (b, mk_cn t (cn_rx c) (cn_out c ++ s) (cn_bytes c) (cn_hdr c)).
Definition count_sent (c : conn) (buf : list Z) : conn :=                        (* :369, :405 *)
  mk_cn (cn_tx c) (cn_rx c) (cn_out c) (u32 (cn_bytes c + zlen buf)) (cn_hdr c).

(** :390-410; the fuel is never used up: sending a piece uses up part of the script. *)
Fixpoint send_pieces (fuel : nat) (w : W) (st : pk) (c : conn) : option (Z * pk * W * conn) :=
  match fuel with
  | O => None
  | S fuel =>
      do x <- up_next so cfg w st junk;
      let '(status, out, st, w, _) := (x : pk_status * list Z * pk * W * list pk_call) in
      match status with
      | NoMoreData => Some (1, st, w, c)
      | _ =>
          let (b, c) := send_body c out in
          if negb b then do w <- so_reset so w; Some (-1, pk_abort st, w, c)
          else
            let c := count_sent c out in
            match status with EndOfChunk => Some (1, st, w, c) | _ => send_pieces fuel w st c end
      end
  end.
(** prv_send_next_msg, :347-415 *)
Definition send_next (w : W) (st : pk) (c : conn) : option (Z * pk * W * conn) :=
  if negb (zc_post zc =? 0) then
    do x <- up_get_chunk so cfg w st junk;
    let '(ok, out, st, w, _) := (x : bool * list Z * pk * W * list pk_call) in
    if negb ok then Some (0, st, w, c)
    else
      let c := start_post c (zlen out) in
      let (b, c) := send_body c out in
      if negb b then do w <- so_reset so w; Some (-1, pk_abort st, w, c)
      else Some (1, st, w, count_sent c out)
  else
    do x <- up_begin so cfg w st true;
    let '(ok, len, _, st, w, _) := (x : bool * Z * bool * pk * W * list pk_call) in
    if negb ok then Some (0, st, w, c)
    else
      let c := start_post c len in
      send_pieces (S (length (cn_tx c))) w st c.

(** memfault_zephyr_port_http_upload_sdk_data, :792-818; [n]: max_messages_to_send *)
Fixpoint upload_loop (n : nat) (w : W) (st : pk) (c : conn) : option (Z * pk * W * conn) :=
  match n with
  | O => Some (0, st, w, c)
  | S n =>
      do x <- send_next w st c;
      let '(rv, st, w, c) := (x : Z * pk * W * conn) in
      if rv =? 0 then Some (0, st, w, c)                                   (* :805 *)
      else if rv <? 0 then Some (-1, st, w, c)                             (* :808 *)
      else
        do y <- wait_response (cn_rx c);
        let (ok, r) := (y : bool * list rx) in
        let c := mk_cn (cn_tx c) r (cn_out c) (cn_bytes c) (cn_hdr c) in
        if ok then upload_loop n w st c else Some (-1, st, w, c)           (* :812-815 *)
  end.
Definition max_messages : Z :=                                             (* :793-800 *)
  if negb (zc_post zc =? 0) && negb (zc_cd zc =? 0) then Z.max 5 (zc_cd zc / zc_post zc) else 5.
Definition upload (w : W) (st : pk) (c : conn) : option (Z * pk * W * conn) :=
  upload_loop (Z.to_nat max_messages) w st c.

(** memfault_zephyr_port_http_post_chunk, :820-836, on a connected socket *)
Definition post_chunk (c : conn) (data : list Z) : option (Z * conn) :=
  let (b, c) := send_body (start_post c (zlen data)) data in
  if negb b then Some (-2, c)
  else
    do y <- wait_response (cn_rx c);
    let (ok, r) := (y : bool * list rx) in
    Some (if ok then 0 else -3, mk_cn (cn_tx c) r (cn_out c) (cn_bytes c) (cn_hdr c)).

(** ** Histories: uploads, each on a new connection, and everything else the application does. *)
Definition new_conn (t : list tx) (r : list rx) : conn := mk_cn t r [] 0 true.
Context {O R : Type}.
Variable app : W -> O -> option (R * W).
Inductive z_op := ZUp (t : list tx) (r : list rx) | ZApp (o : O).
Inductive z_res := ZRUp (rv : Z) (c : conn) | ZRApp (r : R).
Definition z_step (w : W) (st : pk) (o : z_op) : option (z_res * pk * W) :=
  match o with
  | ZUp t r => do x <- upload w st (new_conn t r); let '(rv, st, w, c) := (x : Z * pk * W * conn) in Some (ZRUp rv c, st, w)
  | ZApp o => do x <- app w o; let (r, w) := (x : R * W) in Some (ZRApp r, st, w)
  end.
Fixpoint z_run (w : W) (st : pk) (ops : list z_op) : option (list z_res * pk * W) :=
  match ops with
  | [] => Some ([], st, w)
  | o :: r => do x <- z_step w st o; let '(res, st, w) := (x : z_res * pk * W) in
              do y <- z_run w st r; let '(rs, st, w) := (y : list z_res * pk * W) in Some (res :: rs, st, w)
  end.
End Upload.
Arguments ZUp {O}. Arguments ZApp {O}. Arguments ZRUp {R}. Arguments ZRApp {R}.
