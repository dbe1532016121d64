(** Specification of what the HTTP clients of the mbedTLS and PSoC 6 ports hold. *)
From Verif Require Import Base PortConn.

Definition same_ctx (a b : ctx) : bool :=
  match a, b with CSsl, CSsl | CConf, CConf | CDrbg, CDrbg | CCert, CCert | CEntropy, CEntropy => true | _, _ => false end.
(** What is held: contexts initialised and not freed, open sockets, lists of addresses.  [None]: a context is
    initialised twice or freed without need, a socket is opened while it is open or closed without being open, a
    list is freed that is not there. *)
Record holds := mk_holds { h_ctx : list ctx; h_socks : list Z; h_addrs : Z }.
Definition does (h : holds) (e : ev) : option holds :=
  match e with
  | Init c => if existsb (same_ctx c) (h_ctx h) then None else Some (mk_holds (c :: h_ctx h) (h_socks h) (h_addrs h))
  | Free c => if existsb (same_ctx c) (h_ctx h) then Some (mk_holds (filter (fun x => negb (same_ctx c x)) (h_ctx h)) (h_socks h) (h_addrs h)) else None
  | SOpen fd => if existsb (Z.eqb fd) (h_socks h) then None else Some (mk_holds (h_ctx h) (fd :: h_socks h) (h_addrs h))
  | SClose fd => if existsb (Z.eqb fd) (h_socks h) then Some (mk_holds (h_ctx h) (filter (fun x => negb (fd =? x)) (h_socks h)) (h_addrs h)) else None
  | Addr => Some (mk_holds (h_ctx h) (h_socks h) (h_addrs h + 1))
  | AddrFree => if h_addrs h <? 1 then None else Some (mk_holds (h_ctx h) (h_socks h) (h_addrs h - 1))
  end.
Fixpoint replay (h : holds) (log : list ev) : option holds :=
  match log with [] => Some h | e :: r => match does h e with None => None | Some h => replay h r end end.
Definition holds_nothing : holds := mk_holds [] [] 0.

(** getaddrinfo() leaves no list when it fails; socket() returns a descriptor or -1. *)
Definition m_lawful (o : m_op) : Prop :=
  match o with MCreate a => (m_gai a <> 0 -> m_list a = false) /\ -1 <= m_fd a | MDestroy => True end.
(** The creates in which no socket could be made *)
Definition no_socket (o : m_op) : bool := match o with MCreate a => m_fd a <? 0 | MDestroy => false end.

(** The creates that fail after the socket was made *)
Definition half_open (o : p_op) : bool := match o with PCreate a => p_sock a && negb (p_callback a && p_conn a) | _ => false end.
