(** Specification of the posts of the mbedTLS and PSoC 6 clients.  What a request is, and how messages travel in
    chunks, is specified in ZephyrHttpSpec.v, HttpRequestSpec.v and UplinkSpec.v. *)
From Verif Require Import Base Packetizer PacketizerSpec Uplink UplinkSpec HttpRequestSpec ZephyrHttp ZephyrHttpSpec PortHttp.

(** Each write takes everything it is given: what the mbedTLS client relies on.  No message of a request and no
    piece of a body is longer than 128 bytes, the host or the key. *)
Definition whole_writes (lc : l_cfg) (t : list tx) : Prop :=
  Forall (fun x => match x with TxTake n => n < 0 \/ 128 <= n /\ zlen (lc_host lc) <= n /\ zlen (lc_key lc) <= n | _ => True end) t.
Definition suits (p : client) (lc : l_cfg) (t : list tx) : Prop :=
  match p with Psoc6 => True | Mbed => whole_writes lc t end.

(** What a post returns when the server answered with [code] (-1: it did not answer) *)
Definition verdict (p : client) (code : Z) : Z :=
  match p with Psoc6 => 0 | Mbed => if code =? 202 then 0 else code end.

(** One post: what it returned, the status passed to the callback, what was sent, against the bodies the
    server was sent completely, the messages [got] the server put together from them, and the messages [acked]
    the device gave up. *)
Inductive post_done (p : client) (cfg : up_cfg) (lc : l_cfg) :
  Z -> option Z -> list Z -> list (list Z) -> list (list Z * Z) -> list (src * list Z) -> Prop :=
| PD_idle rv : rv = 1 \/ rv = -1 -> post_done p cfg lc rv None [] [] [] []
| PD_posted code out body got m : posts (lc_serial lc) (lc_host lc) (lc_key lc) body out -> received cfg got [m] ->
    post_done p cfg lc (verdict p code) (Some code) out [body] got [m]
| PD_cut out acked : unfinished (lc_serial lc) (lc_host lc) (lc_key lc) out -> zlen acked <= 1 ->
    post_done p cfg lc 0 None out [] [] acked.

(** ** Histories *)
Definition l_posts {R} (rs : list (@l_res R)) : list (Z * option Z * conn) :=
  flat_map (fun r => match r with LRPost rv cb c => [(rv, cb, c)] | _ => [] end) rs.
Fixpoint l_calls {O R} (ops : list (@l_op O)) (rs : list (@l_res R)) : list (O * R) :=
  match ops, rs with
  | LApp o :: ops, LRApp r :: rs => (o, r) :: l_calls ops rs
  | _ :: ops, _ :: rs => l_calls ops rs
  | _, _ => []
  end.
(** The header of every request was written: the result the code ignores *)
Definition l_headers {R} (rs : list (@l_res R)) : Prop := Forall (fun u => cn_hdr (snd u) = true) (l_posts rs).
(** The server answers with bytes, less than 2 GiB per connection. *)
Definition l_fine {O} (p : client) (lc : l_cfg) (fine : O -> Prop) (o : @l_op O) : Prop :=
  match o with LOpen t r => suits p lc t /\ bytes (rx_bytes r) /\ zlen (rx_bytes r) < 2 ^ 31 | LApp o => fine o | _ => True end.
(** A history is played until the application makes a call that is not allowed. *)
Definition l_played {A O R} (dev : device A O R) (ops ops1 : list (@l_op O)) (a : A) : Prop :=
  exists ops2, ops = ops1 ++ ops2 /\ (ops2 = [] \/ exists o r, ops2 = LApp o :: r /\ spec dev a o = None).
