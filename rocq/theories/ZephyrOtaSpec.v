(** Specification of the Zephyr OTA client. *)
From Verif Require Import Base HttpUtilsSpec ZephyrHttp ZephyrHttpSpec ZephyrOta.

(** The server sends this response, or the beginning of it. *)
Definition serves (r : list rx) (hd body missing : list Z) : Prop := rx_bytes r ++ missing = hd ++ body.
(** The connection does not fail. *)
Definition no_failure (r : list rx) : Prop :=
  Forall (fun x => match x with RxData d => d <> [] | RxAgain => True | RxFail => False end) r.

(** What the handler sees: nothing, or the size, then pieces of the payload in order, then, after all of
    it, the end.  Only the last call can have been refused. *)
Definition handled (ans : list h_call -> bool) (cap size : Z) (payload : list Z) (ok : bool) (log : list h_call) : Prop :=
  log = [] /\ ok = false \/
  exists pieces fin rest, log = HUpdate size :: map HData pieces ++ fin /\ payload = concat pieces ++ rest /\
    Forall (fun d => zlen d <= cap) pieces /\ (fin = [] \/ fin = [HComplete] /\ rest = []) /\
    (forall l c l', log = l ++ c :: l' -> l' <> [] -> ans (l ++ [c]) = true) /\
    (ok = true <-> fin = [HComplete] /\ ans log = true).
