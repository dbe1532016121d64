(** Specification of the uploads of the ESP8266 port.  Posts and what the server has are those of EspHttpSpec.v,
    the messages and their transfer in chunks those of UplinkSpec.v. *)
From Coq Require Import String.
From Verif Require Import Base Packetizer PacketizerSpec Uplink UplinkSpec EspHttp EspHttpSpec Esp8266Http.

(** One upload, with buffers of at most [most] bytes.  Posts: each goes to [url] and holds a chunk; all but the
    last were carried out; the result is 0 if the last was, and the callback is told its status. *)
Definition upload8 (url : list Z) (most : Z) (o : out8) : Prop :=
  Forall (fun p => po_url p = url /\ 0 < zlen (po_body p) <= most) (o8_posts o) /\
  (forall l p, o8_posts o = l ++ [p] -> Forall carried_out l /\ (o8_rv o = 0 <-> carried_out p) /\ o8_rv o <= 0 /\
     o8_told o = (if o8_rv o =? 0 then Some (pf_status (po_answer p)) else None)) /\
  (o8_posts o = [] -> o8_told o = None).

(** The GETs: the roots in order, none without TLS, up to the first that works; without one, all. *)
Definition root_of (plain : bool) (r : root) : option root := if plain then None else Some r.
Definition got_on (g : get8) : Prop := pf_err (g8_answer g) = 0.
Definition probes (plain : bool) (url : list Z) (gs : list get8) : Prop :=
  Forall (fun g => g8_url g = url) gs /\
  exists l r, [DigicertG2; Amazon1; DigicertCA] = l ++ r /\ map g8_root gs = map (root_of plain) l /\
    (gs = [] \/ (exists gs' g, gs = gs' ++ [g] /\ got_on g /\ Forall (fun g => ~ got_on g) gs') \/ r = [] /\ Forall (fun g => ~ got_on g) gs).
(** Where they go: https://HOST/api/v0//SERIAL *)
Definition probe_url (plain : bool) (host serial : list Z) : list Z :=
  str (if plain then "http://" else "https://") ++ host ++ str "/api/v0//" ++ serial.

Definition outs8 {R} (rs : list (@res8 R)) : list out8 := flat_map (fun r => match r with RUp8 o => [o] | RApp8 _ => [] end) rs.
Definition all_posts8 {R} (rs : list (@res8 R)) : list post := flat_map o8_posts (outs8 rs).
Fixpoint calls8 {O R} (ops : list (@op8 O)) (rs : list (@res8 R)) : list (O * R) :=
  match ops, rs with
  | App8 o :: ops, RApp8 r :: rs => (o, r) :: calls8 ops rs
  | _ :: ops, _ :: rs => calls8 ops rs
  | _, _ => []
  end.
(** malloc(n) gives n bytes; clients are given; errors and statuses in range *)
Definition env8_ok (e : env8) : Prop :=
  (forall i, e8_init e i = true) /\ (forall n b, e8_mem e n = Some b -> zlen b = n) /\ Forall perf_ok (e8_perf e) /\ 0 <= e8_status e < 65536.
Definition fine8 {O} (fine : O -> Prop) (o : @op8 O) : Prop := match o with Up8 _ e => env8_ok e | App8 o => fine o end.
Definition played8 {A O R} (dev : device A O R) (ops ops1 : list (@op8 O)) (a : A) : Prop :=
  exists ops2, ops = ops1 ++ ops2 /\ (ops2 = [] \/ exists o r, ops2 = App8 o :: r /\ spec dev a o = None).
