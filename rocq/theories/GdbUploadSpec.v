(** What the uploads of the GDB script may hold, in terms of the requests sent and their answers. *)
From Coq Require Import String Ascii.
From Verif Require Import Base GdbUpload.
Open Scope string_scope. Open Scope list_scope. Open Scope Z_scope.

(** an option given on the command line stands for the setting *)
Definition chosen {A} (o : option A) (d : A) : A := match o with Some a => a | None => d end.
Definition chosen_opt {A} (o d : option A) : option A := match o with Some a => Some a | None => d end.

Definition success (p : resp) : Prop := 200 <= p_status p < 300.
(** the request was answered with success, and its data has [v] under [k] *)
Definition answered_with (e : entry) (k : string) (v : json) : Prop :=
  exists p l d, snd e = Some p /\ success p /\ p_json p = Some (JObj l) /\ look "data" l = Some (JObj d) /\ look k d = Some v.
(** the answer says that symbols are there to be downloaded *)
Definition says_has_symbols (e : entry) : Prop :=
  exists f b, answered_with e "symbol_file" (JObj f) /\ look "downloadable" f = Some b /\ truthy b = true.
Definition accepted (e : entry) : Prop := exists p, snd e = Some p /\ success p.

(** who is logged in and to which project *)
Definition logged_in (email password org project : option string) : Prop :=
  exists e p o j, email = Some e /\ password = Some p /\ org = Some o /\ project = Some j /\ e <> "" /\ p <> "" /\ o <> "" /\ j <> "".

(** the parts of a path, cut at '/' *)
Fixpoint parts (s cur : string) : list string :=
  match s with
  | EmptyString => [cur]
  | String c s => if (c =? "/")%char then cur :: parts s "" else parts s (cur ++ String c "")%string
  end.
Definition no_slash (s : string) : Prop := parts s "" = [s].
(** the settings a command runs with *)
Definition effective (o : options) (g : config) : config :=
  mk_config (chosen (o_ingress o) (g_ingress g)) (chosen (o_api o) (g_api g)) (chosen_opt (o_email o) (g_email g))
            (chosen_opt (o_password o) (g_password g)) (chosen_opt (o_org o) (g_org g)) (chosen_opt (o_project o) (g_project g)) (g_user g).
Definition in_project (g : config) : Prop := logged_in (g_email g) (g_password g) (g_org g) (g_project g).
(** the server's answers have the form they should: there is one, and if it says success it has what is asked for *)
Definition well_formed (split : string -> option (string * string)) (n : net) : Prop :=
  forall l q, exists p, n l q = Some p /\
    (success p -> q_auth q <> None -> exists o d, p_json p = Some (JObj o) /\ look "data" o = Some (JObj d) /\
       (exists t u bp, look "token" d = Some t /\ look "upload_url" d = Some (JStr u) /\ split u = Some bp) /\
       (look "symbol_file" d = None \/ look "symbol_file" d = Some JNull \/ exists f, look "symbol_file" d = Some (JObj f))).
