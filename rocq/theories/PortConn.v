(** Model of creating and destroying the HTTP clients of the mbedTLS port
    (ports/mbedtls/memfault_platform_http_client.c with MEMFAULT_PORT_MBEDTLS_USE_LWIP, cited as M:) and of the
    PSoC 6 port (ports/cypress/psoc6/memfault_platform_http.c, cited as P:).

    The libraries are scripts of answers; what is acquired and released is recorded.
    Simplifications: addresses, ports, host names and certificates are left out; a handshake that never ends is
    not modelled (its script ends with a result); an addrinfo list counts as one resource. *)
From Verif Require Import Base.

(** ** mbedTLS *)
(** The contexts of the client, M:92-102 *)
Inductive ctx := CSsl | CConf | CDrbg | CCert | CEntropy.
Inductive ev := Init (c : ctx) | Free (c : ctx) | SOpen (fd : Z) | SClose (fd : Z) | Addr | AddrFree.

(** What the libraries answer during one create: results are 0 for success; getaddrinfo() gives a result and
    says if there is a list; [m_shake]: the results of mbedtls_ssl_handshake(), [None]: WANT_READ or WANT_WRITE. *)
Record m_ans := mk_ma { m_seed : Z; m_parse : Z; m_gai : Z; m_list : bool; m_fd : Z; m_conn : Z; m_defaults : Z; m_setup : Z; m_name : Z; m_shake : list (option Z) }.

(** mbedtls_net_connect, M:42-66: result, fd, what happened *)
Definition net_connect (a : m_ans) (fd : Z) : Z * Z * list ev :=
  if negb (m_gai a =? 0) || negb (m_list a) then (m_gai a, fd, if m_list a then [Addr] else [])   (* M:51-54 *)
  else if m_fd a <? 0 then (-1, m_fd a, [Addr])                                    (* M:56-60 *)
  else (m_conn a, m_fd a, [Addr; SOpen (m_fd a); AddrFree]).                       (* M:62-65 *)
(** mbedtls_net_free, M:78-89 *)
Definition net_free (fd : Z) : list ev := if fd =? -1 then [] else [SClose fd].
(** prv_teardown_mbedtls, M:111-118; the fd is -1 then *)
Definition teardown (fd : Z) : list ev := net_free fd ++ [Free CCert; Free CSsl; Free CConf; Free CDrbg; Free CEntropy].
(** M:183-196: the first result that is not WANT_READ or WANT_WRITE *)
Fixpoint handshake (l : list (option Z)) : Z := match l with [] => -1 | None :: l => handshake l | Some r :: _ => r end.

(** memfault_platform_http_client_create, M:120-204: client or NULL, active, fd *)
Definition m_create (a : m_ans) (active : bool) (fd : Z) : bool * bool * Z * list ev :=
  if active then (false, true, fd, [])                                             (* M:121-124 *)
  else
    let log := [Init CSsl; Init CConf; Init CDrbg; Init CCert; Init CEntropy] in   (* M:126-132; fd -1 *)
    let cleanup fd log := (false, false, -1, log ++ teardown fd) in                (* M:201-203 *)
    if negb (m_seed a =? 0) then cleanup (-1) log                                  (* M:139-142 *)
    else if negb (m_parse a =? 0) then cleanup (-1) log                            (* M:146-149 *)
    else
      let '(_, fd, l) := net_connect a (-1) in                                     (* M:154-158: only logged *)
      let log := log ++ l in
      if negb (m_defaults a =? 0) then cleanup fd log                              (* M:161-164 *)
      else if negb (m_name a =? 0) then cleanup fd log                             (* M:170-179: m_setup only logged *)
      else if negb (handshake (m_shake a) =? 0) then cleanup fd log                (* M:183-196 *)
      else (true, true, fd, log).                                                  (* M:198-199 *)
(** memfault_platform_http_client_destroy, M:206-215 *)
Definition m_destroy (active : bool) (fd : Z) : Z * bool * Z * list ev :=
  if negb active then (-1, false, fd, []) else (0, false, -1, teardown fd).

Inductive m_op := MCreate (a : m_ans) | MDestroy.
Inductive m_res := MRCreate (ok : bool) | MRDestroy (rv : Z).
Definition m_step (active : bool) (fd : Z) (o : m_op) : m_res * bool * Z * list ev :=
  match o with
  | MCreate a => let '(ok, active, fd, l) := m_create a active fd in (MRCreate ok, active, fd, l)
  | MDestroy => let '(rv, active, fd, l) := m_destroy active fd in (MRDestroy rv, active, fd, l)
  end.
Fixpoint m_run (active : bool) (fd : Z) (ops : list m_op) : list m_res * bool * Z * list ev :=
  match ops with
  | [] => ([], active, fd, [])
  | o :: r => let '(x, active, fd, l) := m_step active fd o in
              let '(xs, active, fd, l') := m_run active fd r in (x :: xs, active, fd, l ++ l')
  end.

(** ** PSoC 6 *)
(** What the secure sockets library answers during one create: true for success. *)
Record p_ans := mk_pa { p_dns : bool; p_sock : bool; p_callback : bool; p_verify : bool; p_conn : bool }.
(** The sockets are numbered as they are created. *)
Record p_cl := mk_pl { pl_active : bool; pl_handle : Z; pl_open : list Z; pl_next : Z; pl_checked : bool }.
(** cy_socket_delete *)
Definition sock_delete (h : Z) (l : list Z) : list Z := filter (fun x => negb (x =? h)) l.
(** prv_teardown_connection, P:28-37: the result of the disconnect is only logged. *)
Definition p_teardown (c : p_cl) : p_cl := mk_pl false (pl_handle c) (sock_delete (pl_handle c) (pl_open c)) (pl_next c) false.
(** memfault_platform_http_client_create with prv_open_socket, P:45-108; [pl_checked] (not part of the code): the
    connection is open and the server's certificate is required to be valid (P:66-72: a failure is only logged). *)
Definition p_create (a : p_ans) (c : p_cl) : bool * p_cl :=
  if pl_active c then (false, c)                                                   (* P:83-86 *)
  else if negb (p_dns a) then (false, mk_pl false 0 (pl_open c) (pl_next c) false) (* P:88-99 *)
  else if negb (p_sock a) then (false, mk_pl false 0 (pl_open c) (pl_next c) false)      (* P:46-52 *)
  else
    let h := pl_next c in
    let c := mk_pl false h (h :: pl_open c) (h + 1) false in
    if negb (p_callback a) then (false, c)                                         (* P:60-64 *)
    else if negb (p_conn a) then (false, c)                                        (* P:74-79, P:102-104 *)
    else (true, mk_pl true h (pl_open c) (pl_next c) (p_verify a)).
(** memfault_platform_http_client_destroy, P:224-231 *)
Definition p_destroy (c : p_cl) : Z * p_cl := if negb (pl_active c) then (-1, c) else (0, p_teardown c).

Inductive p_op := PCreate (a : p_ans) | PDestroy | PDrop.
(** PDrop: the server drops the connection, prv_disconnect_handler, P:39-43; only an open connection can be. *)
Definition p_step (c : p_cl) (o : p_op) : p_cl :=
  match o with
  | PCreate a => snd (p_create a c)
  | PDestroy => snd (p_destroy c)
  | PDrop => if pl_active c then p_teardown c else c
  end.
Definition p_run (c : p_cl) (ops : list p_op) : p_cl := fold_left p_step ops c.
Definition p_boot : p_cl := mk_pl false 0 [] 1 false.
