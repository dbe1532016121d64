(** Specification of the ESP-IDF uploads: what the server is sent, and how that relates to what the device
    gives up.  The messages and their transfer in chunks are specified in UplinkSpec.v. *)
From Coq Require Import String.
From Verif Require Import Base Packetizer PacketizerSpec Uplink UplinkSpec EspHttp.

(** Where a device posts: https://HOST/api/v0/chunks/SERIAL *)
Definition chunks_url (plain : bool) (host serial : list Z) : list Z :=
  str (if plain then "http://" else "https://") ++ host ++ str "/api/v0/chunks/" ++ serial.

(** The request was carried out and the data accepted. *)
Definition carried_out (p : post) : Prop := pf_err (po_answer p) = 0.
Definition accepted (p : post) : Prop := carried_out p /\ (pf_status (po_answer p) = 200 \/ pf_status (po_answer p) = 202).
Fixpoint sum_len (l : list (list Z)) : Z := match l with [] => 0 | b :: l => zlen b + sum_len l end.

(** One upload, with buffers of at most [most] bytes.  Each post goes to [url] and holds a chunk; all but the
    last were carried out; the count of bytes is that of the bodies.  Success: nothing was posted, or the last
    post was accepted. *)
Definition esp_upload (url : list Z) (most : Z) (o : e_out) : Prop :=
  Forall (fun p => po_url p = url /\ 0 < zlen (po_body p) <= most) (eo_posts o) /\
  (forall l p, eo_posts o = l ++ [p] -> Forall carried_out l /\ (eo_rv o = 0 <-> accepted p)) /\
  (eo_posts o = [] -> eo_bytes o = None) /\
  (forall n, eo_bytes o = Some n -> n = u32 (sum_len (map po_body (eo_posts o)))).

(** The calls of an upload: whatever is taken is given back, once, and nothing else is given back.  State:
    buffers, clients held. *)
Fixpoint held_after (l : list ev) (bufs clients : Z) : option (Z * Z) :=
  match l with
  | [] => Some (bufs, clients)
  | EMalloc _ ok :: l => held_after l (if ok then bufs + 1 else bufs) clients
  | EFree :: l => if bufs =? 0 then None else held_after l (bufs - 1) clients
  | EInit ok :: l => held_after l bufs (if ok then clients + 1 else clients)
  | ECleanup :: l => if clients =? 0 then None else held_after l bufs (clients - 1)
  end.

(** ** Histories *)
Definition outs {R} (rs : list (@e_res R)) : list e_out := flat_map (fun r => match r with ERUp o => [o] | ERApp _ => [] end) rs.
Definition all_posts {R} (rs : list (@e_res R)) : list post := flat_map eo_posts (outs rs).
Fixpoint e_calls {O R} (ops : list (@e_op O)) (rs : list (@e_res R)) : list (O * R) :=
  match ops, rs with
  | EApp o :: ops, ERApp r :: rs => (o, r) :: e_calls ops rs
  | _ :: ops, _ :: rs => e_calls ops rs
  | _, _ => []
  end.
(** The bodies of the posts that were carried out: the server has these. *)
Definition server_has (l : list post) : list (list Z) := map po_body (filter (fun p => pf_err (po_answer p) =? 0) l).
(** Errors and statuses in range *)
Definition perf_ok (p : perf) : Prop := Z.abs (pf_err p) < 2 ^ 31 - 1000 /\ 0 <= pf_status p < 65536.
(** malloc(n) gives n bytes *)
Definition env_ok (e : e_env) : Prop :=
  (forall n b, ee_mem e n = Some b -> zlen b = n) /\ Forall perf_ok (ee_perf e) /\ 0 <= ee_status e < 65536.
Definition e_fine {O} (fine : O -> Prop) (o : @e_op O) : Prop := match o with EUp e | EChunk e => env_ok e | EApp o => fine o end.
Definition e_played {A O R} (dev : device A O R) (ops ops1 : list (@e_op O)) (a : A) : Prop :=
  exists ops2, ops = ops1 ++ ops2 /\ (ops2 = [] \/ exists o r, ops2 = EApp o :: r /\ spec dev a o = None).
