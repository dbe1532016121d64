(** Specification of the Zephyr uploads: what the server receives, and how that relates to what the device
    gives up.  The messages and their transfer in chunks are specified in UplinkSpec.v. *)
From Verif Require Import Base Packetizer PacketizerSpec Uplink UplinkSpec HttpUtilsSpec HttpRequestSpec ZephyrHttp.

(** A request that posts [body] *)
Definition posts (serial host key body req : list Z) : Prop :=
  exists ds, decimal_text (zlen body) ds /\ req = post_request serial host key ds ++ body.
(** A request that announces more than was sent *)
Definition unfinished (serial host key part : list Z) : Prop :=
  exists ds n b, decimal_text n ds /\ part = post_request serial host key ds ++ b /\ zlen b < n.
(** A stream of requests *)
Inductive stream (serial host key : list Z) : list (list Z) -> list Z -> Prop :=
| ST_nil : stream serial host key [] []
| ST_cons b bs req out : posts serial host key b req -> stream serial host key bs out ->
    stream serial host key (b :: bs) (req ++ out).

(** The total length of the bodies *)
Definition total (bodies : list (list Z)) : Z := fold_right (fun b n => zlen b + n) 0 bodies.

(** One upload: what it returned, sent and counted, against the bodies the server was sent completely, the
    messages [got] the server put together from them, and the messages [acked] the device gave up.
    Success: these are the same.  Failure: at most the last message given up was not sent; then its request
    is unfinished. *)
Definition upload_ok (cfg : up_cfg) (serial host key : list Z) (most rv : Z) (out : list Z) (count : Z)
    (bodies : list (list Z)) (got : list (list Z * Z)) (acked : list (src * list Z)) : Prop :=
  zlen bodies <= most /\ Forall (fun b => b <> []) bodies /\
  (rv = 0 /\ stream serial host key bodies out /\ count = u32 (total bodies) /\ received cfg got acked \/
   rv = -1 /\ exists done part, out = done ++ part /\ stream serial host key bodies done /\
     (part = [] /\ bodies <> [] /\ received cfg got acked \/
      unfinished serial host key part /\ (received cfg got acked \/ exists l m, acked = l ++ [m] /\ received cfg got l))).

(** What the server sends *)
Definition rx_bytes (r : list rx) : list Z := flat_map (fun x => match x with RxData d => d | _ => [] end) r.

(** ** Histories *)
(** Per upload: the bodies sent completely, the messages the server put together, the messages given up. *)
Record entry := mk_entry { e_bodies : list (list Z); e_got : list (list Z * Z); e_acked : list (src * list Z) }.
Definition uploads {R} (rs : list (@z_res R)) : list (Z * conn) :=
  flat_map (fun r => match r with ZRUp rv c => [(rv, c)] | ZRApp _ => [] end) rs.
Fixpoint z_calls {O R} (ops : list (@z_op O)) (rs : list (@z_res R)) : list (O * R) :=
  match ops, rs with
  | ZApp o :: ops, ZRApp r :: rs => (o, r) :: z_calls ops rs
  | _ :: ops, _ :: rs => z_calls ops rs
  | _, _ => []
  end.
(** The header of every request was written: the result the code ignores *)
Definition headers_written {R} (rs : list (@z_res R)) : Prop := Forall (fun u => cn_hdr (snd u) = true) (uploads rs).
(** The server answers with bytes, less than 2 GiB per connection; the application's calls are in range. *)
Definition z_fine {O} (fine : O -> Prop) (o : @z_op O) : Prop :=
  match o with ZUp _ r => bytes (rx_bytes r) /\ zlen (rx_bytes r) < 2 ^ 31 | ZApp o => fine o end.
(** A history is played until the application makes a call that is not allowed. *)
Definition z_played {A O R} (dev : device A O R) (ops ops1 : list (@z_op O)) (a : A) : Prop :=
  exists ops2, ops = ops1 ++ ops2 /\ (ops2 = [] \/ exists o r, ops2 = ZApp o :: r /\ spec dev a o = None).
