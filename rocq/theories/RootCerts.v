(** Root certificates of the Zephyr port: how they are put into the storage of the modem or of
    Zephyr's TLS credentials, and the options of the TLS socket that use them.
    ports/zephyr/common/memfault_platform_http.c:112-174, 221-259
    ports/zephyr/ncs/src/memfault_nrf91_root_cert_storage.c:17-67
    ports/zephyr/common/memfault_tls_root_cert_storage.c:39-49 *)
From Coq Require Import ZArith List Bool.
From Verif Require Import Base.
Import ListNotations.
Open Scope Z_scope.

(** Identifiers: include/memfault/ports/zephyr/root_cert_storage.h:22-31 and
    deprecated_root_cert.h:16-23. *)
Definition id_g2 : Z := 1001.
Definition id_amazon : Z := 1002.
Definition id_ca : Z := 1003.
Definition id_max : Z := 1004.
Definition id_dep_first : Z := 1004.
Definition id_dep_max : Z := 1005.

(** Calls made on the storage underneath. *)
Inductive cert_op : Type :=
| OExists (id : Z)
| OCmp (id : Z) (data : list Z)
| OWrite (id : Z) (data : list Z)
| ODelete (id : Z)
| OAdd (id : Z) (data : list Z).

(** The storage underneath (the modem's key management of nrfxlib, or Zephyr's table of TLS
    credentials; neither is in /repo): the credentials of the CA type by identifier, the calls made
    so far, and the error codes that the coming calls give ([0]: the call works; an exhausted list
    means that all work). A call that gives an error changes nothing (simplification). *)
Record certs : Type := mk_certs {
  ce_at : Z -> option (list Z);
  ce_ops : list cert_op;
  ce_errs : list Z
}.

Definition set_at (f : Z -> option (list Z)) (id : Z) (v : option (list Z)) : Z -> option (list Z) :=
  fun j => if j =? id then v else f j.

(** One call on the storage underneath: its error code, and the call is logged. *)
Definition op_err (s : certs) (o : cert_op) : Z * certs :=
  match ce_errs s with
  | [] => (0, mk_certs (ce_at s) (ce_ops s ++ [o]) [])
  | e :: r => (e, mk_certs (ce_at s) (ce_ops s ++ [o]) r)
  end.

Definition put_at (s : certs) (id : Z) (v : option (list Z)) : certs :=
  mk_certs (set_at (ce_at s) id v) (ce_ops s) (ce_errs s).

(** [modem_key_mgmt_exists]: error code and the flag written through the pointer. *)
Definition modem_exists (s : certs) (id : Z) : Z * bool * certs :=
  let '(e, s') := op_err s (OExists id) in
  (e, match ce_at s id with Some _ => true | None => false end, s').

(** [modem_key_mgmt_cmp]: 0 if the stored credential equals the data, 1 if not, or an error. *)
Definition modem_cmp (s : certs) (id : Z) (data : list Z) : Z * certs :=
  let '(e, s') := op_err s (OCmp id data) in
  if e =? 0 then
    (match ce_at s id with
     | Some d => if list_eq_dec Z.eq_dec d data then 0 else 1
     | None => -2
     end, s')
  else (e, s').

(** [modem_key_mgmt_write] *)
Definition modem_write (s : certs) (id : Z) (data : list Z) : Z * certs :=
  let '(e, s') := op_err s (OWrite id data) in
  if e =? 0 then (0, put_at s' id (Some data)) else (e, s').

(** [modem_key_mgmt_delete] *)
Definition modem_delete (s : certs) (id : Z) : Z * certs :=
  let '(e, s') := op_err s (ODelete id) in
  if e =? 0 then (0, put_at s' id None) else (e, s').

(** [strlen] on an array: the text before the first zero; [None] if the array has none (it reads
    past its end). *)
Fixpoint c_text (a : list Z) : option (list Z) :=
  match a with
  | [] => None
  | b :: r => if b =? 0 then Some [] else match c_text r with Some t => Some (b :: t) | None => None end
  end.

(** [memfault_root_cert_storage_add] of the nRF91: memfault_nrf91_root_cert_storage.c:17-45. The
    array [cert] is all the memory that may be read. *)
Definition nrf_add (s : certs) (id : Z) (cert : list Z) (len : Z) : option (Z * certs) :=
  let '(e, found, s1) := modem_exists s id in              (* :21 *)
  if negb (e =? 0) then Some (e, s1)                       (* :23-26 *)
  else
    do r <- (if found then                                  (* :28 *)
               do d <- read_at cert 0 (u32 (len - 1)) ;     (* :29 *)
               let '(c, s2) := modem_cmp s1 id d in Some (c =? 0, s2)
             else Some (false, s1)) ;
    let '(same, s2) := r in
    if same then Some (0, s2)                              (* :30-33 *)
    else
      do t <- c_text cert ;                                (* :39 *)
      Some (modem_write s2 id t).

(** [memfault_root_cert_storage_remove] of the nRF91: memfault_nrf91_root_cert_storage.c:47-67. *)
Definition nrf_remove (s : certs) (id : Z) : Z * certs :=
  let '(e, found, s1) := modem_exists s id in
  if negb (e =? 0) then (e, s1)
  else if negb found then (0, s1)
  else modem_delete s1 id.

(** Zephyr's [tls_credential_add] (subsys/net/lib/tls_credentials, not in /repo): -EEXIST when a
    credential with this identifier and type is there already. *)
Definition eexist : Z := -17.
Definition tls_add (s : certs) (id : Z) (cert : list Z) (len : Z) : option (Z * certs) :=
  do d <- read_at cert 0 len ;
  let '(e, s') := op_err s (OAdd id d) in
  if negb (e =? 0) then Some (e, s')
  else match ce_at s id with
       | Some _ => Some (eexist, s')
       | None => Some (0, put_at s' id (Some d))
       end.

(** memfault_tls_root_cert_storage.c:46-49: does nothing. *)
Definition tls_remove (s : certs) (id : Z) : Z * certs := (0, s).

(** The three certificates of the build, as arrays (memfault_platform_http.c:113-131: the length
    given is the size of the array, for PEM with its final zero). *)
Record cert_set : Type := mk_cert_set { cs_g2 : list Z; cs_amazon : list Z; cs_ca : list Z }.

(** Conversion to [bool]: the result of [prv_install_cert] (:133). *)
Definition to_bool (z : Z) : Z := if z =? 0 then 0 else 1.

Section Install.
  Variable add : certs -> Z -> list Z -> Z -> option (Z * certs).
  Variable remove : certs -> Z -> Z * certs.
  Variable cs : cert_set.

  (** [prv_install_cert]: memfault_platform_http.c:133-157. *)
  Definition install_cert (s : certs) (id : Z) : option (Z * certs) :=
    if id =? id_ca then
      do r <- add s id (cs_ca cs) (zlen (cs_ca cs)) ; Some (to_bool (fst r), snd r)
    else if id =? id_g2 then
      do r <- add s id (cs_g2 cs) (zlen (cs_g2 cs)) ; Some (to_bool (fst r), snd r)
    else if id =? id_amazon then
      do r <- add s id (cs_amazon cs) (zlen (cs_amazon cs)) ; Some (to_bool (fst r), snd r)
    else Some (to_bool (-1), s).

  (** The loop over the deprecated identifiers, :160-163; results are ignored. *)
  Fixpoint remove_loop (n : nat) (s : certs) (id : Z) : certs :=
    match n with
    | 0%nat => s
    | S m => if id <? id_dep_max then remove_loop m (snd (remove s id)) (id + 1) else s
    end.

  (** The loop over the identifiers in use, :165-171. *)
  Fixpoint install_loop (n : nat) (s : certs) (id : Z) : option (Z * certs) :=
    match n with
    | 0%nat => Some (0, s)
    | S m =>
        if id <? id_max then
          do r <- install_cert s id ;
          if negb (fst r =? 0) then Some r else install_loop m (snd r) (id + 1)
        else Some (0, s)
    end.

  (** [memfault_zephyr_port_install_root_certs]: memfault_platform_http.c:159-174. The fuel covers
      both ranges of identifiers. *)
  Definition install_root_certs (s : certs) : option (Z * certs) :=
    install_loop 10 (remove_loop 10 s id_dep_first) id_g2.
End Install.

(** Options given to the socket. *)
Inductive tls_opt : Type :=
| TagList (tags : list Z)
| PeerVerify (v : Z)
| NoCopy
| Hostname (data : list Z).

(** [setsockopt]: the option is logged; its result is the next of the script. *)
Definition set_opt (log : list tls_opt) (rcs : list Z) (o : tls_opt) : Z * list tls_opt * list Z :=
  match rcs with
  | [] => (0, log ++ [o], [])
  | r :: rest => (r, log ++ [o], rest)
  end.

(** [prv_configure_tls_socket]: memfault_platform_http.c:221-259. [der]: built with certificates in
    DER format and an operating system that has the no-copy option (:246). [host] has no zero. *)
Definition configure_tls (der : bool) (host : list Z) (rcs : list Z) : Z * list tls_opt :=
  let '(r1, l1, s1) := set_opt [] rcs (TagList [id_g2; id_amazon; id_ca]) in
  if negb (r1 =? 0) then (r1, l1) else
  let '(r2, l2, s2) := set_opt l1 s1 (PeerVerify 2) in
  if negb (r2 =? 0) then (r2, l2) else
  let '(r3, l3, s3) := if der then set_opt l2 s2 NoCopy else (0, l2, s2) in
  if negb (r3 =? 0) then (r3, l3) else
  let '(r4, l4, _) := set_opt l3 s3 (Hostname (host ++ [0])) in
  (r4, l4).
