(** Model of the uploads of ports/esp_idf/memfault/common/memfault_platform_http_client.c, with
    memfault_platform_http_client_buffer.c of the same directory and components/http/src/memfault_http_client.c
    and memfault_http_client_post_chunk.c.

    ESP-IDF's HTTP client is a script: the answer to each esp_http_client_perform(); when the script is used
    up, connecting fails.  What is handed to it is recorded.  The packetizer is the one of Uplink.v.
    Simplifications: the buffer has the same contents at each call; header fields that are set and log output
    are omitted; the device information does not change during an upload. *)
From Coq Require Import String.
From Verif Require Import Base Packetizer Uplink.

(** MEMFAULT_PLATFORM_SPECIFIC_ERROR, components/include/memfault/core/errors.h:51-52; the overflow wraps. *)
Definition platform_error (e : Z) : Z := s32 (-1000 - Z.land (Z.abs e) 0x7fffffff).

(** snprintf() into a buffer of [n] bytes: the text in it *)
Definition printed (n : Z) (s : list Z) : list Z := take (n - 1) s.

(** g_mflt_http_client_config and the device information *)
Record e_cfg := mk_ec { ec_plain : bool; ec_chunks : list Z; ec_device : list Z;
  ec_serial : list Z; ec_hwver : list Z; ec_swtype : list Z; ec_swver : list Z }.
(** MEMFAULT_HTTP_GET_SCHEME, components/include/memfault/http/http_client.h:88-89 *)
Definition scheme (c : e_cfg) : list Z := if ec_plain c then str "http" else str "https".
(** memfault_http_build_url, memfault_http_client.c:20-29: result, text in the buffer of 128 bytes *)
Definition build_url (c : e_cfg) (subpath : list Z) : bool * list Z :=
  let s := scheme c ++ str "://" ++ ec_chunks c ++ str "/api/v0/" ++ subpath ++ str "/" ++ ec_serial c in
  (zlen s <? 128, printed 128 s).

(** One esp_http_client_perform(): the error, the status of the response *)
Record perf := mk_pf { pf_err : Z; pf_status : Z }.
Definition no_connection : perf := mk_pf 0x7002 0.                   (* ESP_ERR_HTTP_CONNECT *)
Record post := mk_po { po_url : list Z; po_body : list Z; po_answer : perf }.

(** Calls that take and give back something: the heap and HTTP clients *)
Inductive ev := EMalloc (n : Z) (ok : bool) | EFree | EInit (ok : bool) | ECleanup.

(** memfault_http_client_allocate_chunk_buffer, memfault_platform_http_client_buffer.c:24-42, from [size] on,
    with [mem n] what malloc(n) gives.  The fuel is never used up: the size is halved. *)
Fixpoint alloc_loop (fuel : nat) (mem : Z -> option (list Z)) (size : Z) : option (list Z) * list ev :=
  match fuel with
  | O => (None, [])
  | S fuel =>
      if 1024 <? size then                                                 (* :32; http_client.h:18 *)
        match mem size with
        | Some b => (Some b, [EMalloc size true])
        | None => let (b, l) := alloc_loop fuel mem (size / 2) in (b, EMalloc size false :: l)
        end
      else (None, [])
  end.
Definition alloc_buffer (mem : Z -> option (list Z)) (most : Z) : option (list Z) * list ev :=
  alloc_loop (S (Z.to_nat (Z.log2 most))) mem most.

(** A network interface: esp_netif_is_netif_up(), the result of esp_netif_get_ip_info(), the address *)
Record netif := mk_nif { ni_up : bool; ni_err : Z; ni_addr : Z }.
(** memfault_esp_port_netif_connected, :439-461 *)
Fixpoint netif_connected (l : list netif) : bool :=
  match l with
  | [] => false
  | i :: l => if negb (ni_up i) then netif_connected l
              else if (ni_err i =? 0) && negb (ni_addr i =? 0) then true else netif_connected l
  end.

(** What an upload meets: the interfaces, whether esp_http_client_init() gives a client, the heap, the answers,
    the status of a client that has had no response. *)
Record e_env := mk_ee { ee_net : list netif; ee_init : bool; ee_mem : Z -> option (list Z); ee_perf : list perf; ee_status : Z }.

Section Esp.
Context {W : Type}.
Variables (so : sources W) (cfg : up_cfg) (ec : e_cfg) (most : Z).          (* most: MEMFAULT_HTTP_CLIENT_MAX_BUFFER_SIZE *)

(** prv_post_chunks, :85-113: result, count of bytes, status of the last response, posts *)
Fixpoint post_chunks (ps : list perf) (url buf : list Z) (w : W) (st : pk) (sent status : Z)
    : option (Z * Z * Z * list post * pk * W) :=
  do x <- up_get_chunk so cfg w st buf;                                    (* :96 *)
  let '(ok, out, st, w, _) := (x : bool * list Z * pk * W * list pk_call) in
  if negb ok then Some (0, sent, status, [], st, w)
  else
    let sent := u32 (sent + zlen out) in                                   (* :101 *)
    match ps with
    | [] => Some (platform_error (pf_err no_connection), sent, status, [mk_po url out no_connection], st, w)
    | p :: ps =>
        if negb (pf_err p =? 0) then Some (platform_error (pf_err p), sent, status, [mk_po url out p], st, w)   (* :107-109 *)
        else
          do y <- post_chunks ps url buf w st sent (pf_status p);
          let '(rv, sent, status, l, st, w) := (y : Z * Z * Z * list post * pk * W) in
          Some (rv, sent, status, mk_po url out p :: l, st, w)
    end.

(** What an upload returned and did: result, g_chunk_bytes_sent (if set), the sync counted (memfault_metrics_connectivity_record_memfault_sync_success
    or _failure), posts, calls *)
Record e_out := mk_eo { eo_rv : Z; eo_bytes : option Z; eo_sync : option bool; eo_posts : list post; eo_evs : list ev }.

(** memfault_platform_http_client_post_data, :383-425, with a client *)
Definition platform_post (e : e_env) (w : W) (st : pk) : option (e_out * pk * W) :=
  do x <- up_avail so cfg w st;
  let '(avail, w, _) := (x : bool * W * list pk_call) in
  if negb avail then Some (mk_eo 0 None None [] [], st, w)                 (* :386-388 *)
  else
    match alloc_buffer (ee_mem e) most with
    | (None, l) => Some (mk_eo (-1) None None [] l, st, w)                 (* :394-397 *)
    | (Some buf, l) =>
        let url := snd (build_url ec (str "chunks")) in                    (* :401: the result is ignored *)
        do y <- post_chunks (ee_perf e) url buf w st 0 (ee_status e);
        let '(rv, sent, status, ps, st, w) := (y : Z * Z * Z * list post * pk * W) in
        let l := l ++ [EFree] in
        if negb (rv =? 0) then Some (mk_eo rv (Some sent) None ps l, st, w)   (* :408-411 *)
        else
          let status := u16 status in                                      (* :147-149, :414 *)
          Some (mk_eo (if (status =? 200) || (status =? 202) then 0 else -1) (Some sent) None ps l, st, w)
    end.

(** memfault_esp_port_http_client_post_data, :465-512 *)
Definition port_post (e : e_env) (w : W) (st : pk) : option (e_out * pk * W) :=
  if negb (netif_connected (ee_net e)) then Some (mk_eo (-1) None None [] [], st, w)
  else
    do x <- up_avail so cfg w st;
    let '(avail, w, _) := (x : bool * W * list pk_call) in
    if negb avail then Some (mk_eo 0 None None [] [], st, w)               (* :472-475 *)
    else if negb (ee_init e) then Some (mk_eo (-1) None (Some false) [] [EInit false], st, w)
    else
      do y <- platform_post e w st;
      let '(o, st, w) := (y : e_out * pk * W) in
      let sync := if eo_rv o =? 0 then Some true else if eo_rv o =? 1 then None else Some false in   (* :488-506 *)
      Some (mk_eo (eo_rv o) (eo_bytes o) sync (eo_posts o) ([EInit true] ++ eo_evs o ++ [ECleanup]), st, w).

(** memfault_http_client_post_chunk, memfault_http_client_post_chunk.c:14-37, on this port *)
Definition client_post_chunk (e : e_env) (w : W) (st : pk) : option (e_out * pk * W) :=
  do x <- up_avail so cfg w st;
  let '(avail, w, _) := (x : bool * W * list pk_call) in
  if negb avail then Some (mk_eo 1 None None [] [], st, w)
  else if negb (ee_init e) then Some (mk_eo (-1) None None [] [EInit false], st, w)
  else
    do y <- platform_post e w st;
    let '(o, st, w) := (y : e_out * pk * W) in
    Some (mk_eo (eo_rv o) (eo_bytes o) None (eo_posts o) ([EInit true] ++ eo_evs o ++ [ECleanup]), st, w).

(** ** Histories: uploads, through either function, and everything else the application does. *)
Context {O R : Type}.
Variable app : W -> O -> option (R * W).
Inductive e_op := EUp (e : e_env) | EChunk (e : e_env) | EApp (o : O).
Inductive e_res := ERUp (o : e_out) | ERApp (r : R).
Definition e_step (w : W) (st : pk) (o : e_op) : option (e_res * pk * W) :=
  match o with
  | EUp e => do x <- port_post e w st; let '(o, st, w) := (x : e_out * pk * W) in Some (ERUp o, st, w)
  | EChunk e => do x <- client_post_chunk e w st; let '(o, st, w) := (x : e_out * pk * W) in Some (ERUp o, st, w)
  | EApp o => do x <- app w o; let (r, w) := (x : R * W) in Some (ERApp r, st, w)
  end.
Fixpoint e_run (w : W) (st : pk) (ops : list e_op) : option (list e_res * pk * W) :=
  match ops with
  | [] => Some ([], st, w)
  | o :: r => do x <- e_step w st o; let '(res, st, w) := (x : e_res * pk * W) in
              do y <- e_run w st r; let '(rs, st, w) := (y : list e_res * pk * W) in Some (res :: rs, st, w)
  end.
End Esp.
Arguments EUp {O}. Arguments EChunk {O}. Arguments EApp {O}. Arguments ERUp {R}. Arguments ERApp {R}.
