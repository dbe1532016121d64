(** Specification of the HTTP requests. *)
From Coq Require Import String.
From Verif Require Import Base HttpUtils HttpUtilsSpec.

(** What a caller sees of a request [req] sent through a callback answering [ok]: either all of it
    went out and every call was accepted, or a prefix went out and some call was refused. *)
Definition sends (ok : nat -> bool) (req : list Z) (r : bool * list (list Z)) : Prop :=
  let (b, sent) := r in
  (b = true -> concat sent = req /\ forall i, (i < List.length sent)%nat -> ok i = true) /\
  (b = false -> (exists tail, req = concat sent ++ tail) /\ exists i, (i < List.length sent)%nat /\ ok i = false).

Definition eol : list Z := [13; 10].
Definition agent : list Z := str "User-Agent:MemfaultSDK/1.23.1".
(** The number as decimal digits without leading zeros *)
Definition decimal_text (v : Z) (ds : list Z) : Prop :=
  digits ds /\ dec_value ds = v /\ (ds = [48] \/ exists c r, ds = c :: r /\ c <> 48).

Definition post_request (serial host key ds : list Z) : list Z :=
  str "POST /api/v0/chunks/" ++ serial ++ str " HTTP/1.1" ++ eol ++
  str "Host:" ++ host ++ eol ++
  agent ++ eol ++
  str "Memfault-Project-Key:" ++ key ++ eol ++
  str "Content-Type:application/octet-stream" ++ eol ++
  str "Content-Length:" ++ ds ++ eol ++ eol.

Definition latest_request (serial hwver swtype swver host key : list Z) : list Z :=
  str "GET /api/v0/releases/latest/url?" ++
  str "&device_serial=" ++ serial ++ str "&hardware_version=" ++ hwver ++
  str "&software_type=" ++ swtype ++ str "&current_version=" ++ swver ++ str " HTTP/1.1" ++ eol ++
  str "Host:" ++ host ++ eol ++
  agent ++ eol ++
  str "Memfault-Project-Key:" ++ key ++ eol ++ eol.

Definition ota_request (path host : list Z) : list Z :=
  str "GET " ++ path ++ str " HTTP/1.1" ++ eol ++ str "Host:" ++ host ++ eol ++ agent ++ eol ++ eol.

(** A device value that can be sent as a query parameter *)
Definition param_fits (v : list Z) : Prop := v <> [] /\ encoded_len v <= 47.
Definition escaped (v e : list Z) : Prop :=
  pct_decode e = Some v /\ Forall (fun c => plain c = true \/ c = 37) e.

(** The texts a parsed URI refers to; the path defaults to "/". *)
Definition uri_host (url : list Z) (i : uri_info) : list Z := take (u_host_len i) (drop (u_host i) url).
Definition uri_path (url : list Z) (i : uri_info) : list Z :=
  match u_path i with Some (off, n) => take n (drop off url) | None => [47] end.
