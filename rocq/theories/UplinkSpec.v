(** Independent specification of the uplink: what a data source must do (data_packetizer_source.h), and
    what then arrives at the cloud.  The choice of the source and the pieces handed out are specified in
    PacketizerSpec.v, a chunk in ChunkSpec.v. *)
From Verif Require Import Base Crc16Spec ChunkSpec Packetizer PacketizerSpec Uplink.

(** The wire format: a coredump's message is already run-length encoded by its source. *)
Definition u_cfg (c : up_cfg) : pk_cfg := mk_cfg (uc_key c) (if uc_rle c then Some (fun m => m) else None).

(** ** The contract of the data sources.
    [A] is what the sources hold, seen from outside: [offer s a] is the message source [s] has to deliver
    next, [ask s a] and [mark s a] what is held after [s] was asked for a message, or its message was
    acknowledged.  [fine o]: the arguments of the application's call [o] are in range; [spec a o]: what the
    call returns and does ([None]: not allowed). *)
Record device (A O R : Type) := mk_dev {
  offer : src -> A -> option (list Z);
  ask : src -> A -> A;
  mark : src -> A -> A;
  fine : O -> Prop;
  spec : A -> O -> option (R * A) }.
Arguments offer {A O R}. Arguments ask {A O R}. Arguments mark {A O R}. Arguments fine {A O R}. Arguments spec {A O R}.

Section Contract.
Context {W A O R : Type}.
Variables (so : sources W) (cfg : up_cfg) (app : W -> O -> option (R * W)) (dev : device A O R).

(** [rel f w a]: the world [w] holds [a]; [f]: the message of a source is being read, up to a position. *)
Record keeps_contract (rel : option (src * Z) -> W -> A -> Prop) : Prop := {
  (* asking changes no offer *)
  k_ask : forall s s' a, offer dev s' (ask dev s a) = offer dev s' a;
  (* asked for a message, a source announces the length of the one it offers *)
  k_has : forall s w a, rel None w a ->
    exists w', so_has so s w = Some (option_map zlen (offer dev s a), w') /\ rel None w' (ask dev s a) /\
      (offer dev s a <> None -> rel (Some (s, 0)) w' (ask dev s a));
  (* the message is read in order *)
  k_read : forall s p w a m buf, rel (Some (s, p)) w a -> offer dev s a = Some m -> 0 <= p -> 0 < zlen buf ->
    p + zlen buf <= zlen m ->
    exists w', so_read so s w p buf = Some (true, take (zlen buf) (drop p m), w') /\ rel (Some (s, p + zlen buf)) w' a;
  k_mark : forall s p w a, rel (Some (s, p)) w a ->
    exists w1 w2, so_mark so s w = Some w1 /\ so_reset so w1 = Some w2 /\ rel None w2 (mark dev s a);
  k_reset : forall f w a, rel f w a -> exists w', so_reset so w = Some w' /\ rel None w' a;
  (* whatever the application does, the message being read stays *)
  k_app : forall f w a o r a', rel f w a -> fine dev o -> spec dev a o = Some (r, a') ->
    exists w', app w o = Some (r, w') /\ rel f w' a' /\
      match f with Some (s, _) => offer dev s a' = offer dev s a | None => True end;
  (* messages are bytes, and short enough for the chunk transport *)
  k_ok : forall f w a s m, rel f w a -> offer dev s a = Some m -> msg_ok (u_cfg cfg) s m }.

(** What the sources hold, as queues of at most one message. *)
Definition view (a : A) : queues :=
  let q s := match offer dev s a with Some m => [m] | None => [] end in
  mk_q (q SCoredump) (q SEvent) (q SLog) (q SCdr).
(** What calls to the sources do to what they hold. *)
Definition effect (a : A) (c : pk_call) : A :=
  match c with CHasMore s => ask dev s a | CMark s => mark dev s a | CRead _ _ _ => a end.
Definition effects (a : A) (cs : list pk_call) : A := fold_left effect cs a.

(** One step: a call of the packetizer's interface does what PacketizerSpec.v says for the messages
    offered at that moment; a call of the application does what [spec] says. *)
Inductive u_step : A -> Z -> option flight -> up_op -> up_res -> A -> Z -> option flight -> Prop :=
| U_call a mask fl o res cs q mask' fl' :
    s_step (u_cfg cfg) (mk_ss (view a) mask fl) o res cs (mk_ss q mask' fl') ->
    u_step a mask fl (UCall o) (URCall res cs) (effects a cs) mask' fl'
| U_app a mask fl o r a' :
    spec dev a o = Some (r, a') -> u_step a mask fl (UApp o) (URApp r) a' mask fl.
Inductive u_run : A -> Z -> option flight -> list up_op -> list up_res -> A -> Z -> option flight -> Prop :=
| UR_nil a mask fl : u_run a mask fl [] [] a mask fl
| UR_cons a mask fl o r a1 m1 f1 ops rs a2 m2 f2 :
    u_step a mask fl o r a1 m1 f1 -> u_run a1 m1 f1 ops rs a2 m2 f2 ->
    u_run a mask fl (o :: ops) (r :: rs) a2 m2 f2.

(** A history is played until the application makes a call that is not allowed: [ops1] are the calls played,
    [a] what the sources then hold. *)
Definition played (ops ops1 : list (@up_op O)) (a : A) : Prop :=
  exists ops2, ops = ops1 ++ ops2 /\ (ops2 = [] \/ exists o r, ops2 = UApp o :: r /\ spec dev a o = None).

(** ** What happened to what the sources hold. *)
Inductive deed := DAsk (s : src) | DSent (s : src) (m : list Z) | DApp (o : O) (r : R).
Inductive deeds : A -> list deed -> A -> Prop :=
| D_nil a : deeds a [] a
| D_ask a s t a' : deeds (ask dev s a) t a' -> deeds a (DAsk s :: t) a'
| D_sent a s m t a' : offer dev s a = Some m -> deeds (mark dev s a) t a' -> deeds a (DSent s m :: t) a'
| D_app a o r a1 t a' : spec dev a o = Some (r, a1) -> deeds a1 t a' -> deeds a (DApp o r :: t) a'.
Definition sent (t : list deed) : list (src * list Z) :=
  flat_map (fun d => match d with DSent s m => [(s, m)] | _ => [] end) t.
Definition app_deeds (t : list deed) : list (O * R) :=
  flat_map (fun d => match d with DApp o r => [(o, r)] | _ => [] end) t.

(** A measure of what is held: asking does not increase it, acknowledging a message decreases it. *)
Record shrinks (J : A -> Prop) (size : A -> Z) : Prop := {
  z_pos : forall a, J a -> 0 <= size a;
  z_ask : forall s a, J a -> J (ask dev s a) /\ size (ask dev s a) <= size a;
  z_mark : forall s a m, J a -> offer dev s a = Some m -> J (mark dev s a) /\ size (mark dev s a) < size a }.
End Contract.
Arguments DAsk {O R}. Arguments DSent {O R}. Arguments DApp {O R}.

(** The calls of the application in a history, with their results. *)
Fixpoint app_calls {O R} (ops : list (@up_op O)) (rs : list (@up_res R)) : list (O * R) :=
  match ops, rs with
  | UApp o :: ops, URApp r :: rs => (o, r) :: app_calls ops rs
  | _ :: ops, _ :: rs => app_calls ops rs
  | _, _ => []
  end.
(** The chunks handed out. *)
Definition chunks {R} (rs : list (@up_res R)) : list (list Z) :=
  flat_map (fun r => match r with URCall r _ => piece_of r | URApp _ => [] end) rs.
(** Histories with buffers of less than 4 GiB. *)
Definition up_ok {O} (fine : O -> Prop) (o : @up_op O) : Prop :=
  match o with UCall (PNext b | PChunk b) => zlen b < 4294967296 | UCall (PPush _ _) => False | UCall _ => True | UApp o => fine o end.
(** Histories that fetch whole chunks, with buffers of less than 4 GiB. *)
Definition by_chunk {O} (fine : O -> Prop) (o : @up_op O) : Prop :=
  match o with UCall (PChunk b) => zlen b < 4294967296 | UCall (PAbort | PMask _ | PAvail) => True | UCall _ => False | UApp o => fine o end.

(** ** The receiver of the stream of chunks.  State: total length and bytes so far of the message being
    received.  A first chunk starts a new message whatever came before; a continuation that does not fit
    is dropped with what came before. *)
Definition cloud_state := option (Z * list Z).
Definition cloud_step (st : cloud_state) (c : list Z) : cloud_state * list (list Z * Z) :=
  match parse_chunk c with
  | Some (mk_chunk false false None d (Some crc)) => (None, [(d, crc)])
  | Some (mk_chunk false true (Some total) d None) => (Some (total, d), [])
  | Some (mk_chunk true true (Some off) d None) =>
      match st with Some (t, acc) => if off =? zlen acc then (Some (t, acc ++ d), []) else (None, []) | None => (None, []) end
  | Some (mk_chunk true false (Some off) d (Some crc)) =>
      match st with
      | Some (t, acc) => (None, if (off =? zlen acc) && (zlen (acc ++ d) =? t) then [(acc ++ d, crc)] else [])
      | None => (None, [])
      end
  | _ => (None, [])
  end.
Fixpoint cloud (st : cloud_state) (cs : list (list Z)) : cloud_state * list (list Z * Z) :=
  match cs with
  | [] => (st, [])
  | c :: r => let (st, a) := cloud_step st c in let (st, b) := cloud st r in (st, a ++ b)
  end.
(** The messages received, each with a correct CRC, are those sent. *)
Definition received (cfg : up_cfg) (got : list (list Z * Z)) (msgs : list (src * list Z)) : Prop :=
  Forall2 (fun g m => fst g = wire (u_cfg cfg) (fst m) (snd m) /\ is_crc 0 (fst g) (snd g)) got msgs.
