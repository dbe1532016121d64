(** Model of the posts of the HTTP clients of the mbedTLS port (ports/mbedtls/memfault_platform_http_client.c,
    cited as M:) and of the PSoC 6 port (ports/cypress/psoc6/memfault_platform_http.c, cited as P:).

    The network is a script of answers, as in ZephyrHttp.v: what each attempt to send or to receive gives.  A
    script that is used up stands for an error of the connection; executions that never leave a loop are those
    that use up every script (see [mbed_send], [wait_loop]).
    Simplifications: the stack buffer has the same contents at each call; log output is omitted; the PSoC 6
    handler of a dropped connection (P:39-43) runs between two calls, not in the middle of one. *)
From Verif Require Import Base Packetizer Uplink HttpUtils HttpRequest ZephyrHttp.

Inductive client := Psoc6 | Mbed.

(** prv_try_send of the PSoC 6, P:110-125: result, bytes sent; a send of nothing is a failure. *)
Fixpoint psoc_send (t : list tx) (buf : list Z) : bool * list Z * list tx :=
  if zlen buf =? 0 then (true, [], t)
  else match t with
       | [] => (false, [], [])
       | TxTake n :: t =>
           if n <=? 0 then (false, [], t)                                  (* P:121-122 *)
           else let '(b, s, t) := psoc_send t (drop n buf) in (b, take n buf ++ s, t)
       | _ :: t => (false, [], t)
       end.
(** prv_try_send of mbedTLS, M:223-236: each write starts at the beginning of the buffer (M:226), and idx may
    step over the length.  [TxTake n]: what mbedtls_ssl_write() returns, never more than it was given;
    WANT_WRITE and errors are negative. *)
Fixpoint mbed_send (t : list tx) (idx : Z) (buf : list Z) : bool * list Z * list tx :=
  if idx =? zlen buf then (true, [], t)
  else match t with
       | [] => (false, [], [])
       | TxTake n :: t =>
           if n <? 0 then (false, [], t)
           else let k := Z.min n (zlen buf) in
                let '(b, s, t) := mbed_send t (u32 (idx + k)) buf in (b, take k buf ++ s, t)
       | _ :: t => (false, [], t)
       end.
Definition link_send (p : client) (t : list tx) (buf : list Z) : bool * list Z * list tx :=
  match p with Psoc6 => psoc_send t buf | Mbed => mbed_send t 0 buf end.
(** The messages of a request, up to the first that fails (HttpRequest.v, [writes]; M:238-241, P:127-130). *)
Fixpoint link_msgs (p : client) (t : list tx) (ms : list (list Z)) : bool * list Z * list tx :=
  match ms with
  | [] => (true, [], t)
  | m :: r => let '(b, s, t) := link_send p t m in
              if b then let '(b, s', t) := link_msgs p t r in (b, s ++ s', t) else (false, s, t)
  end.

(** prv_read_socket_data, P:132-138, M:243-256: [None]: false.  mbedTLS: WANT_READ, and the 0 of a connection
    closed by the server, count as having read nothing. *)
Definition link_read (p : client) (r : list rx) (cap : Z) : option (list Z) * list rx :=
  match r with
  | [] => (None, [])
  | RxAgain :: r => (match p with Psoc6 => None | Mbed => Some [] end, r)
  | RxFail :: r => (None, r)
  | RxData d :: r => (Some (take cap d), if cap <? zlen d then RxData (drop cap d) :: r else r)
  end.
(** prv_wait_for_http_response, P:148-167, M:258-277: the status code, or -1; the fuel is never used up. *)
Fixpoint wait_code_loop (p : client) (fuel : nat) (h : hctx) (r : list rx) : option (Z * list rx) :=
  match fuel with
  | O => None
  | S fuel =>
      match link_read p r 32 with
      | (None, r) => Some (-1, r)
      | (Some d, r) =>
          do x <- parse_http h d false;
          let (fin, h) := (x : bool * hctx) in
          if fin then Some (h_status h, r) else wait_code_loop p fuel h r
      end
  end.
Definition wait_code (p : client) (r : list rx) : option (Z * list rx) := wait_code_loop p (S (rx_size r)) h_init r.

(** Serial number, host and project key *)
Record l_cfg := mk_lc { lc_serial : list Z; lc_host : list Z; lc_key : list Z }.

Section Post.
Context {W : Type}.
Variables (p : client) (so : sources W) (cfg : up_cfg) (lc : l_cfg) (junk : list Z).

(** M:299, P:189: the result is ignored; [cn_hdr] remembers it (not part of the code). *)
Definition l_start (c : conn) (len : Z) : conn :=
  let (b, ms) := start_chunk_post (fun _ => true) (lc_serial lc) (lc_host lc) (lc_key lc) len in
  let '(ok, s, t) := link_msgs p (cn_tx c) ms in
  mk_cn t (cn_rx c) (cn_out c ++ s) (cn_bytes c) (cn_hdr c && (b && ok)).
Definition l_body (c : conn) (buf : list Z) : bool * conn :=               (* M:311, P:201 *)
  let '(b, s, t) := link_send p (cn_tx c) buf in (b, mk_cn t (cn_rx c) (cn_out c ++ s) (cn_bytes c) (cn_hdr c)).
(** M:301-320, P:191-210: [false]: a piece could not be sent; the fuel is never used up. *)
Fixpoint l_pieces (fuel : nat) (w : W) (st : pk) (c : conn) : option (bool * pk * W * conn) :=
  match fuel with
  | O => None
  | S fuel =>
      do x <- up_next so cfg w st junk;
      let '(status, out, st, w, _) := (x : pk_status * list Z * pk * W * list pk_call) in
      match status with
      | NoMoreData => Some (true, st, w, c)
      | _ =>
          let (b, c) := l_body c out in
          if negb b then do w <- so_reset so w; Some (false, pk_abort st, w, c)
          else match status with EndOfChunk => Some (true, st, w, c) | _ => l_pieces fuel w st c end
      end
  end.
(** memfault_platform_http_client_post_data on an active client, M:286-331, P:176-221: the result, the status
    given to the callback, and what is left *)
Definition l_post (w : W) (st : pk) (c : conn) : option (Z * option Z * pk * W * conn) :=
  do x <- up_begin so cfg w st true;
  let '(ok, len, _, st, w, _) := (x : bool * Z * bool * pk * W * list pk_call) in
  if negb ok then Some (1, None, st, w, c)                                 (* kMfltPostDataStatus_NoDataFound *)
  else
    let c := l_start c len in
    do y <- l_pieces (S (length (cn_tx c))) w st c;
    let '(b, st, w, c) := (y : bool * pk * W * conn) in
    if negb b then Some (0, None, st, w, c)                                (* return false *)
    else
      do z <- wait_code p (cn_rx c);
      let (code, r) := (z : Z * list rx) in
      Some (match p with Psoc6 => 0 | Mbed => if code =? 202 then 0 else code end, Some code, st, w,
            mk_cn (cn_tx c) r (cn_out c) (cn_bytes c) (cn_hdr c)).

(** ** Histories: the client is created (a connection with its scripts), posts, is destroyed or dropped by the
    server, and everything else the application does. *)
Context {O R : Type}.
Variable app : W -> O -> option (R * W).
Inductive l_op := LOpen (t : list tx) (r : list rx) | LClose | LPost | LApp (o : O).
Inductive l_res := LROpen | LRClose | LRPost (rv : Z) (cb : option Z) (c : conn) | LRApp (r : R).
Definition link := option (list tx * list rx).
Definition l_step (w : W) (st : pk) (l : link) (o : l_op) : option (l_res * pk * W * link) :=
  match o with
  | LOpen t r => Some (LROpen, st, w, Some (t, r))
  | LClose => Some (LRClose, st, w, None)
  | LPost =>
      match l with
      | None => Some (LRPost (-1) None (new_conn [] []), st, w, None)      (* M:282-284, P:172-174 *)
      | Some (t, r) =>
          do x <- l_post w st (new_conn t r);
          let '(rv, cb, st, w, c) := (x : Z * option Z * pk * W * conn) in Some (LRPost rv cb c, st, w, Some (cn_tx c, cn_rx c))
      end
  | LApp o => do x <- app w o; let (r, w) := (x : R * W) in Some (LRApp r, st, w, l)
  end.
Fixpoint l_run (w : W) (st : pk) (l : link) (ops : list l_op) : option (list l_res * pk * W * link) :=
  match ops with
  | [] => Some ([], st, w, l)
  | o :: r => do x <- l_step w st l o; let '(res, st, w, l) := (x : l_res * pk * W * link) in
              do y <- l_run w st l r; let '(rs, st, w, l) := (y : list l_res * pk * W * link) in Some (res :: rs, st, w, l)
  end.
End Post.
Arguments LOpen {O}. Arguments LClose {O}. Arguments LPost {O}. Arguments LApp {O}.
Arguments LROpen {R}. Arguments LRClose {R}. Arguments LRPost {R}. Arguments LRApp {R}.
