(** Model of the sockets of ports/zephyr/common/memfault_platform_http.c: opening, closing, and the API
    functions that use them.

    The network stack is the functions [os_*]: its answer to a call, given all calls so far; the calls are
    recorded.  What is sent and received over a connection is in ZephyrHttp.v and ZephyrOta.v.
    Simplifications: host names are not passed on; configuring a socket is one call with one answer
    (:221-271), negative if it failed; memory for the URL is recorded like the sockets. *)
From Verif Require Import Base HttpUtils HttpRequest ZephyrHttp ZephyrOta.

(** A call of the stack or the allocator with its answer: getaddrinfo, freeaddrinfo, socket, the options,
    connect, close, calloc, free. *)
Inductive ev := EAddr (rv : Z) | EAddrFree | ESock (fd : Z) | EConf (fd rv : Z) | EConn (fd rv : Z) | EClose (fd : Z)
  | EAlloc (n : Z) (ok : bool) | EFree.
Record os := mk_os { os_addr : list ev -> Z; os_sock : list ev -> Z; os_conf : list ev -> Z; os_conn : list ev -> Z; os_alloc : list ev -> Z -> bool }.

Section Sock.
Variable o : os.
(** prv_create_socket, :205-219: the result, whether *res is set, the calls *)
Definition create_sock (l : list ev) (res : bool) : Z * bool * list ev :=
  let rv := os_addr o l in let l := l ++ [EAddr rv] in
  if negb (rv =? 0) then (rv, res, l)
  else let fd := os_sock o l in (fd, true, l ++ [ESock fd]).
Definition conf_sock (l : list ev) (fd : Z) : Z * list ev :=                     (* :261-271 *)
  let rv := os_conf o l in (rv, l ++ [EConf fd rv]).
Definition conn_sock (l : list ev) (fd : Z) : Z * list ev :=                     (* :273-282 *)
  let rv := os_conn o l in
  (rv, l ++ [EConn fd rv] ++ (if rv <? 0 then [EClose fd] else [])).
(** prv_open_socket, :324-341 *)
Definition open_sock (l : list ev) (res : bool) : Z * bool * list ev :=
  let '(fd, res, l) := create_sock l res in
  if fd <? 0 then (-1, res, l)
  else
    let (rv, l) := conf_sock l fd in
    if rv <? 0 then (-1, res, l ++ [EClose fd])
    else let (rv, l) := conn_sock l fd in
         if rv <? 0 then (-1, res, l) else (fd, res, l).

(** sMemfaultHttpContext: sock_fd, whether res is set *)
Record hc := mk_hc { hc_fd : Z; hc_res : bool }.
(** memfault_zephyr_port_http_close_socket, :776-786 *)
Definition http_close (c : hc) (l : list ev) : hc * list ev :=
  (mk_hc (-1) false, l ++ (if 0 <=? hc_fd c then [EClose (hc_fd c)] else []) ++ (if hc_res c then [EAddrFree] else [])).
(** memfault_zephyr_port_http_open_socket, :722-738 *)
Definition http_open (c : hc) (l : list ev) : Z * hc * list ev :=
  let (c, l) := http_close c l in
  let '(fd, res, l) := open_sock l (hc_res c) in
  if fd <? 0 then let (c, l) := http_close (mk_hc fd res) l in (-1, c, l) else (0, mk_hc fd res, l).
(** memfault_zephyr_port_http_create_socket, :740-754 *)
Definition http_create (c : hc) (l : list ev) : Z * hc * list ev :=
  let (c, l) := http_close c l in
  let '(fd, res, l) := create_sock l (hc_res c) in
  if fd <? 0 then let (c, l) := http_close (mk_hc fd res) l in (-1, c, l) else (0, mk_hc fd res, l).
(** memfault_zephyr_port_http_configure_socket, :756-765 *)
Definition http_configure (c : hc) (l : list ev) : Z * hc * list ev :=
  let (rv, l) := conf_sock l (hc_fd c) in
  if rv <? 0 then let (c, l) := http_close c l in (rv, c, l) else (rv, c, l).
(** memfault_zephyr_port_http_connect_socket, :767-774 *)
Definition http_connect (c : hc) (l : list ev) : Z * hc * list ev :=
  let (rv, l) := conn_sock l (hc_fd c) in
  if rv <? 0 then let (c, l) := http_close c l in (rv, c, l) else (rv, c, l).
(** memfault_zephyr_port_post_data_return_size, :688-715: whether there is data; [up]: what
    memfault_zephyr_port_http_upload_sdk_data returns and counts *)
Definition post_data (avail : bool) (up : Z * Z) (l : list ev) : Z * list ev :=
  if negb avail then (0, l)
  else
    let '(rv, c, l) := http_open (mk_hc (-1) false) l in
    let rv := if rv =? 0 then fst up else rv in
    let l := if rv =? 0 then snd (http_close c l) else l in
    ((if rv =? 0 then snd up else rv), l).

(** ** The OTA update *)
(** :638-645, :563-570 *)
Definition cleanup (fd : Z) (res : bool) : list ev :=
  (if 0 <=? fd then [EClose fd] else []) ++ (if res then [EAddrFree] else []).
(** A connection: what the network answers to sends and receives *)
Record net := mk_net { n_tx : list tx; n_rx : list rx }.
(** Identity of the device, API host and key, for the request of HttpRequest.v *)
Record o_cfg := mk_oc { oc_serial : list Z; oc_hwver : list Z; oc_swtype : list Z; oc_swver : list Z; oc_host : list Z; oc_key : list Z }.
Definition send_request (t : list tx) (q : bool * list (list Z)) : bool * list Z :=
  let (b, ms) := q in let '(ok, s, _) := send_msgs t ms in (b && ok, s).
(** prv_check_for_ota_update, :620-647: the result, the URL's memory, what was sent, the calls.  [None]: a
    write outside of memory.  The memory is freed where an error occurs (:612). *)
Definition check_ota (oc : o_cfg) (junk : list Z) (n : net) (l : list ev) : option (bool * option (list Z) * list Z * list ev) :=
  let '(fd, res, l) := open_sock l false in
  if fd <? 0 then Some (false, None, [], l ++ cleanup fd res)
  else
    do q <- get_latest_url (fun _ => true) junk (oc_serial oc) (oc_hwver oc) (oc_swtype oc) (oc_swver oc) (oc_host oc) (oc_key oc);
    let (b, s) := send_request (n_tx n) q in
    if negb b then Some (false, None, s, l ++ cleanup fd res)
    else
      do x <- url_response (os_alloc o l) (n_rx n);
      let (u, asked) := (x : url_res * option Z) in
      let l := l ++ match asked with
                    | Some k => EAlloc k (os_alloc o l k) :: match u with UrlError => if os_alloc o l k then [EFree] else [] | _ => [] end   (* :588, :612 *)
                    | None => [] end in
      Some (match u with UrlError => false | _ => true end, match u with Url m => Some m | _ => None end, s, l ++ cleanup fd res).
(** prv_fetch_ota_payload, :535-572: the result, what was sent, the calls of the handler *)
Definition fetch_ota (ans : list h_call -> bool) (cap : Z) (n : net) (url : list Z) (l : list ev) : option (bool * list Z * list h_call * list ev) :=
  do i <- parse_uri url (zlen url);
  match i with
  | None => Some (false, [], [], l)
  | Some i =>
      do host <- read_at url (u_host i) (u_host_len i);                          (* :547-549 *)
      let '(fd, res, l) := open_sock l false in
      if fd <? 0 then Some (false, [], [], l ++ cleanup fd res)
      else
        do q <- get_ota_payload (fun _ => true) url;
        let (b, s) := send_request (n_tx n) q in
        if negb b then Some (false, s, [], l ++ cleanup fd res)
        else
          do x <- install ans cap (n_rx n);
          let '(ok, log, _) := (x : bool * list h_call * list rx) in
          Some (ok, s, log, l ++ cleanup fd res)
  end.
(** memfault_zephyr_port_ota_update, :668-686: the result, what was sent on the two connections, the calls
    of the handler, the calls of the stack; strlen(url) stops at the first NUL (:539) *)
Definition ota_update (oc : o_cfg) (junk : list Z) (ans : list h_call -> bool) (cap : Z) (n1 n2 : net) (l : list ev)
  : option (Z * (list Z * list Z) * list h_call * list ev) :=
  do x <- check_ota oc junk n1 l;
  let '(ok, url, s1, l) := (x : bool * option (list Z) * list Z * list ev) in
  if negb ok then Some (-1, (s1, []), [], l)
  else match url with
       | None => Some (0, (s1, []), [], l)
       | Some mem =>
           do y <- fetch_ota ans cap n2 (cstr mem) l;
           let '(ok, s2, log, l) := (y : bool * list Z * list h_call * list ev) in
           Some ((if ok then 1 else -1), (s1, s2), log, l ++ [EFree])
       end.
(** memfault_zephyr_port_get_download_url and _release_download_url, :649-666 *)
Definition get_download_url (oc : o_cfg) (junk : list Z) (n : net) (l : list ev) : option (Z * option (list Z) * list Z * list ev) :=
  do x <- check_ota oc junk n l;
  let '(ok, url, s, l) := (x : bool * option (list Z) * list Z * list ev) in
  Some ((if negb ok then -1 else match url with None => 0 | Some _ => 1 end), url, s, l).
Definition release_download_url (url : option (list Z)) (l : list ev) : list ev :=
  match url with Some _ => l ++ [EFree] | None => l end.                          (* free(NULL) does nothing *)

(** Histories of the socket functions on one context *)
Inductive s_op := SOpen | SCreate | SConfigure | SConnect | SClose.
Definition s_step (op : s_op) (c : hc) (l : list ev) : Z * hc * list ev :=
  match op with
  | SOpen => http_open c l | SCreate => http_create c l | SConfigure => http_configure c l | SConnect => http_connect c l
  | SClose => let (c, l) := http_close c l in (0, c, l)
  end.
Fixpoint s_run (ops : list s_op) (c : hc) (l : list ev) : list Z * hc * list ev :=
  match ops with
  | [] => ([], c, l)
  | op :: r => let '(rv, c, l) := s_step op c l in let '(rvs, c, l) := s_run r c l in (rv :: rvs, c, l)
  end.
End Sock.
