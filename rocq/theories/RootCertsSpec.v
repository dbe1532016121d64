(** What installing the root certificates shall achieve. *)
From Coq Require Import ZArith List Bool.
From Verif Require Import Base RootCerts.
Import ListNotations.
Open Scope Z_scope.

(** A certificate as text: characters other than zero, and a final zero. *)
Definition pem (t cert : list Z) : Prop := cert = t ++ [0] /\ ~ In 0 t /\ is_u32 (zlen cert).

(** The identifiers used by the SDK, and the one to be removed. *)
Definition ours (id : Z) : Prop := 1001 <= id <= 1003.
Definition deprecated : Z := 1004.

(** Which certificate belongs to which identifier. *)
Definition wanted (g2 amazon ca : list Z) (id : Z) : option (list Z) :=
  if id =? 1001 then Some g2 else if id =? 1002 then Some amazon
  else if id =? 1003 then Some ca else None.

Definition holds_all (s : certs) (g2 amazon ca : list Z) : Prop :=
  ce_at s 1001 = Some g2 /\ ce_at s 1002 = Some amazon /\ ce_at s 1003 = Some ca.

(** The result: all in place, or an error at one of them, those before in place, those after
    untouched. *)
Definition outcome (before : Z -> option (list Z)) (s' : certs) (g2 am ca : list Z) (rv : Z) : Prop :=
  (rv = 0 /\ holds_all s' g2 am ca) \/
  (rv = 1 /\ exists k, ours k /\
     (forall id, 1001 <= id < k -> ce_at s' id = wanted g2 am ca id) /\
     (forall id, k <= id <= 1003 -> ce_at s' id = before id)).

(** A call that writes to the storage of the modem. *)
Definition changes (o : cert_op) : bool :=
  match o with OWrite _ _ => true | ODelete _ => true | OAdd _ _ => true | _ => false end.

(** The options a TLS socket of the SDK needs before it connects. *)
Definition secure (host : list Z) (opts : list tls_opt) : Prop :=
  (exists tags, In (TagList tags) opts /\ forall id, In id tags <-> ours id) /\
  In (PeerVerify 2) opts /\ In (Hostname (host ++ [0])) opts.
