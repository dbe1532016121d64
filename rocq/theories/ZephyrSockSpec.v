(** Specification of the sockets: what is held after a sequence of calls. *)
From Verif Require Import Base HttpUtilsSpec HttpRequestSpec ZephyrHttp ZephyrSock.

(** Open sockets, address lists, blocks of memory *)
Record held := mk_held { d_fds : list Z; d_addrs : Z; d_mem : Z }.
Fixpoint remove_one (x : Z) (l : list Z) : option (list Z) :=
  match l with
  | [] => None
  | y :: r => if x =? y then Some r else option_map (cons y) (remove_one x r)
  end.
(** [None]: something not held is given back. *)
Definition after1 (s : held) (e : ev) : option held :=
  match e with
  | EAddr rv => Some (if rv =? 0 then mk_held (d_fds s) (d_addrs s + 1) (d_mem s) else s)
  | EAddrFree => if d_addrs s <=? 0 then None else Some (mk_held (d_fds s) (d_addrs s - 1) (d_mem s))
  | ESock fd => Some (if 0 <=? fd then mk_held (fd :: d_fds s) (d_addrs s) (d_mem s) else s)
  | EClose fd => option_map (fun r => mk_held r (d_addrs s) (d_mem s)) (remove_one fd (d_fds s))
  | EAlloc _ ok => Some (if ok then mk_held (d_fds s) (d_addrs s) (d_mem s + 1) else s)
  | EFree => if d_mem s <=? 0 then None else Some (mk_held (d_fds s) (d_addrs s) (d_mem s - 1))
  | EConf _ _ | EConn _ _ => Some s
  end.
Fixpoint after (s : held) (l : list ev) : option held :=
  match l with [] => Some s | e :: r => match after1 s e with Some s => after s r | None => None end end.
(** Whatever is held before, the same is held afterwards, and nothing was given back twice. *)
Definition balanced (l : list ev) : Prop := forall s, 0 <= d_addrs s -> 0 <= d_mem s -> after s l = Some s.
(** What a context holds, on top of [s] *)
Definition holding (c : hc) (s : held) : held :=
  mk_held (if 0 <=? hc_fd c then hc_fd c :: d_fds s else d_fds s) (d_addrs s + if hc_res c then 1 else 0) (d_mem s).
(** getaddrinfo reports errors with negative numbers, as Zephyr's does. *)
Definition addr_errors (o : os) : Prop := forall l, os_addr o l <= 0.
