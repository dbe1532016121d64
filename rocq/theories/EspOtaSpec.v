(** Specification of OTA updates on ESP-IDF: the query for the latest release, what is installed, what the
    application is told, and what is left allocated. *)
From Coq Require Import String.
From Verif Require Import Base HttpUtils HttpUtilsSpec HttpRequestSpec EspHttp EspHttpSpec EspOta.

(** The query *)
Definition latest_url (plain : bool) (host : list Z) (i : info) (version : list Z) : list Z :=
  str (if plain then "http://" else "https://") ++ host ++ str "/api/v0/releases/latest/url?device_serial=" ++ in_serial i ++
  str "&hardware_version=" ++ in_hwver i ++ str "&software_type=" ++ in_swtype i ++ str "&current_version=" ++ version.
(** Device information that can be queried: no reserved characters, but for the version, which is escaped and
    has to fit 47 characters then *)
Definition all_plain (l : list Z) : Prop := Forall (fun c => plain c = true) l.
Definition queryable (i : info) : Prop :=
  all_plain (in_serial i) /\ all_plain (in_hwver i) /\ all_plain (in_swtype i) /\ param_fits (in_swver i).
Definition info_ok (i : info) : Prop := bytes (in_serial i) /\ bytes (in_hwver i) /\ bytes (in_swtype i) /\ bytes (in_swver i).
(** The requests made *)
Definition asked (l : list oev) : list (list Z) := flat_map (fun e => match e with OOpen u _ => [u] | _ => [] end) l.

(** What the server sends, up to an error *)
Fixpoint served (r : list rd) : list Z := match r with RdData d :: r => d ++ served r | _ => [] end.
Definition fails (r : list rd) : Prop := exists e, In (RdErr e) r.
(** The text at the start of a response: up to a NUL *)
Inductive text_of : list Z -> list Z -> Prop :=
| T_end : text_of [] []
| T_nul l : text_of (0 :: l) []
| T_char c l t : c <> 0 -> text_of l t -> text_of (c :: l) (c :: t).

(** Errors have the sign ESP-IDF gives them, and are not among the largest; a content length is an int. *)
Definition err_ok (e : Z) : Prop := Z.abs e < 2 ^ 31 - 1000.
Definition q_ok (e : q_env) : Prop :=
  err_ok (qe_open e) /\ (qe_len e < 0 -> err_ok (qe_len e)) /\ qe_len e < 2 ^ 31 - 1 /\
  Forall (fun r => match r with RdErr x => x < 0 /\ err_ok x | RdData _ => True end) (qe_reads e).

(** Blocks and clients held *)
Fixpoint left_after (l : list oev) (blocks clients : Z) : option (Z * Z) :=
  match l with
  | [] => Some (blocks, clients)
  | OAlloc _ ok :: l => left_after l (if ok then blocks + 1 else blocks) clients
  | OFree :: l => if blocks =? 0 then None else left_after l (blocks - 1) clients
  | OInit ok :: l => left_after l blocks (if ok then clients + 1 else clients)
  | OCleanup :: l => if clients =? 0 then None else left_after l blocks (clients - 1)
  | OOpen _ _ :: l => if clients =? 0 then None else left_after l blocks clients
  end.

(** The outcome of a query: the link to a release, no release, or a failure. *)
Inductive outcome (e : q_env) : Z -> option (option (list Z)) -> Prop :=
| O_release t body : qe_status e = 200 -> zlen body = qe_len e -> (exists rest, served (qe_reads e) = body ++ rest) -> text_of body t ->
    outcome e 0 (Some (Some t))
| O_none : qe_status e = 204 -> outcome e 0 (Some None)
| O_failed rv u : rv < 0 -> (u = None <-> qe_init e = false) -> (u = None \/ u = Some None) -> outcome e rv u.

(** ** What the application is told: that there is an update; then, if it agrees, the update is installed; then,
    if that succeeds, that it is complete; finally, if it wants to know, the result. *)
Inductive told (h : handler) (ota : Z) : option (list Z) -> Z -> Z -> list call -> Prop :=
| TO_nothing rv : told h ota None rv rv []
| TO_declined u : ha_avail h = Some false -> told h ota (Some u) 0 1 [CAvailable]
| TO_failed u rv : ha_avail h = Some true -> ota <> 0 -> rv < 0 -> told h ota (Some u) 0 rv [CAvailable; CInstall u]
| TO_installed u : ha_avail h = Some true -> ota = 0 -> ha_complete h = Some true -> told h ota (Some u) 0 1 [CAvailable; CInstall u; CComplete]
| TO_refused u : ha_avail h = Some true -> ota = 0 -> ha_complete h = Some false -> told h ota (Some u) 0 (-1) [CAvailable; CInstall u; CComplete].
