(** Model of the uploads of ports/esp8266_sdk/memfault/memfault_platform_http_client.c (H below), with
    memfault_platform_http_client_buffer.c of the same directory (B) and components/http/src/memfault_http_client.c
    and memfault_http_client_post_chunk.c.

    The HTTP client of the ESP8266 SDK is a script, as in EspHttp.v: the answer to each
    esp_http_client_perform(); when the script is used up, connecting fails.  Whether esp_http_client_init()
    gives a client is asked per attempt.  The loop over chunks, H:78-103, is [post_chunks] of EspHttp.v: the
    same but for the count of bytes, which is dropped here.
    Simplifications: as in EspHttp.v; esp_http_client_cleanup() succeeds (its result is used by nobody). *)
From Coq Require Import String.
From Verif Require Import Base Packetizer Uplink EspHttp.

(** memfault_http_client_allocate_chunk_buffer, B:19-38, from [size] on, with [mem n] what malloc(n) gives.
    The fuel is never used up: the size is halved.  512: MEMFAULT_HTTP_CLIENT_MIN_BUFFER_SIZE,
    include/memfault/esp8266_port/http_client.h:21. *)
Fixpoint alloc8_loop (fuel : nat) (mem : Z -> option (list Z)) (size : Z) : option (list Z) * list ev :=
  match fuel with
  | O => (None, [])
  | S fuel =>
      if 512 <? size then                                                  (* B:27 *)
        match mem size with
        | Some b => (Some b, [EMalloc size true])
        | None => let (b, l) := alloc8_loop fuel mem (size / 2) in (b, EMalloc size false :: l)
        end
      else (None, [])
  end.
Definition alloc8 (mem : Z -> option (list Z)) (most : Z) : option (list Z) * list ev :=
  alloc8_loop (S (Z.to_nat (Z.log2 most))) mem most.

(** MEMFAULT_ROOT_CERTS_..., H:115-117: the roots, in the order they are tried *)
Inductive root := DigicertG2 | Amazon1 | DigicertCA.
Definition roots : list root := [DigicertG2; Amazon1; DigicertCA].
(** A GET with which a root is tried: URL, root (cert_pem), answer *)
Record get8 := mk_g8 { g8_url : list Z; g8_root : option root; g8_answer : perf }.

(** What an upload meets: esp_wifi_sta_get_ap_info() gives ESP_OK, esp_http_client_init() of the i-th attempt
    gives a client, the heap, the answers, the status of a client that has had no response. *)
Record env8 := mk_e8 { e8_wifi : bool; e8_init : Z -> bool; e8_mem : Z -> option (list Z); e8_perf : list perf; e8_status : Z }.

(** The loop of memfault_platform_http_client_create, H:121-141, from the i-th root on: a client, the rest of the
    script, the GETs, the calls.  None: esp_http_client_set_header() is called with NULL, H:132. *)
Fixpoint try_roots (plain : bool) (init : Z -> bool) (ps : list perf) (url : list Z) (i : Z) (l : list root)
    : option (bool * list perf * list get8 * list ev) :=
  match l with
  | [] => Some (false, ps, [], [])                                         (* H:143 *)
  | r :: l =>
      if negb (init i) then None
      else
        let p := match ps with p :: _ => p | [] => no_connection end in
        let ps := match ps with _ :: ps => ps | [] => [] end in
        let g := mk_g8 url (if plain then None else Some r) p in           (* H:126-127 *)
        if pf_err p =? 0 then Some (true, ps, [g], [EInit true])           (* H:135-138 *)
        else
          do y <- try_roots plain init ps url (i + 1) l;
          let '(ok, ps, gs, l) := (y : bool * list perf * list get8 * list ev) in
          Some (ok, ps, g :: gs, EInit true :: ECleanup :: l)              (* H:140 *)
  end.

Section Esp8266.
Context {W : Type}.
Variables (so : sources W) (cfg : up_cfg) (ec : e_cfg) (most : Z).          (* most: CONFIG_MEMFAULT_HTTP_CLIENT_BUFFER_SIZE *)

(** memfault_platform_http_client_create, H:107-144 *)
Definition create8 (e : env8) : option (bool * list perf * list get8 * list ev) :=
  try_roots (ec_plain ec) (e8_init e) (e8_perf e) (snd (build_url ec [])) 0 roots.

(** What an upload returned and did: result, the status the callback was given, GETs, posts, calls *)
Record out8 := mk_o8 { o8_rv : Z; o8_told : option Z; o8_gets : list get8; o8_posts : list post; o8_evs : list ev }.

(** memfault_platform_http_client_post_data, H:169-207, with a client and [ps] left of the script.  The callback
    is prv_handle_post_data_response, memfault_http_client.c:35-51, which only logs. *)
Definition platform_post8 (e : env8) (ps : list perf) (w : W) (st : pk) : option (out8 * pk * W) :=
  do x <- up_avail so cfg w st;
  let '(avail, w, _) := (x : bool * W * list pk_call) in
  if negb avail then Some (mk_o8 0 None [] [] [], st, w)                   (* H:172-174 *)
  else
    match alloc8 (e8_mem e) most with
    | (None, l) => Some (mk_o8 (-1) None [] [] l, st, w)                   (* H:180-183 *)
    | (Some buf, l) =>
        let url := snd (build_url ec (str "chunks")) in                    (* H:187: the result is ignored *)
        do y <- post_chunks so cfg ps url buf w st 0 (e8_status e);
        let '(rv, _, status, ps, st, w) := (y : Z * Z * Z * list post * pk * W) in
        let l := l ++ [EFree] in
        if negb (rv =? 0) then Some (mk_o8 rv None [] ps l, st, w)         (* H:194-197 *)
        else Some (mk_o8 0 (Some (u16 status)) [] ps l, st, w)             (* H:156-158, :199-206 *)
    end.

(** memfault_http_client_post_data and memfault_http_client_destroy with a client, or none *)
Definition with_client8 (e : env8) (w : W) (st : pk) : option (out8 * pk * W) :=
  do c <- create8 e;
  let '(ok, ps, gs, l) := (c : bool * list perf * list get8 * list ev) in
  if negb ok then Some (mk_o8 (-1) None gs [] l, st, w)
  else
    do y <- platform_post8 e ps w st;
    let '(o, st, w) := (y : out8 * pk * W) in
    Some (mk_o8 (o8_rv o) (o8_told o) gs (o8_posts o) (l ++ o8_evs o ++ [ECleanup]), st, w).

(** memfault_esp_port_http_client_post_data, H:221-246 *)
Definition port_post8 (e : env8) (w : W) (st : pk) : option (out8 * pk * W) :=
  if negb (e8_wifi e) then Some (mk_o8 (-1) None [] [] [], st, w)
  else
    do x <- up_avail so cfg w st;
    let '(avail, w, _) := (x : bool * W * list pk_call) in
    if negb avail then Some (mk_o8 0 None [] [] [], st, w)                 (* H:227-229 *)
    else with_client8 e w st.

(** memfault_http_client_post_chunk, memfault_http_client_post_chunk.c:14-37, on this port *)
Definition client_post8 (e : env8) (w : W) (st : pk) : option (out8 * pk * W) :=
  do x <- up_avail so cfg w st;
  let '(avail, w, _) := (x : bool * W * list pk_call) in
  if negb avail then Some (mk_o8 1 None [] [] [], st, w)
  else with_client8 e w st.

(** ** Histories: uploads, through either function, and everything else the application does. *)
Context {O R : Type}.
Variable app : W -> O -> option (R * W).
Inductive op8 := Up8 (port : bool) (e : env8) | App8 (o : O).
Inductive res8 := RUp8 (o : out8) | RApp8 (r : R).
Definition step8 (w : W) (st : pk) (o : op8) : option (res8 * pk * W) :=
  match o with
  | Up8 port e => do x <- (if port then port_post8 e w st else client_post8 e w st); let '(o, st, w) := (x : out8 * pk * W) in Some (RUp8 o, st, w)
  | App8 o => do x <- app w o; let (r, w) := (x : R * W) in Some (RApp8 r, st, w)
  end.
Fixpoint run8 (w : W) (st : pk) (ops : list op8) : option (list res8 * pk * W) :=
  match ops with
  | [] => Some ([], st, w)
  | o :: r => do x <- step8 w st o; let '(res, st, w) := (x : res8 * pk * W) in
              do y <- run8 w st r; let '(rs, st, w) := (y : list res8 * pk * W) in Some (res :: rs, st, w)
  end.
End Esp8266.
Arguments Up8 {O}. Arguments App8 {O}. Arguments RUp8 {R}. Arguments RApp8 {R}.
