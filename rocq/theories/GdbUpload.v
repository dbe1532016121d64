(** Model of the uploads of scripts/memfault_gdb.py: the settings of a session (:85-104), the HTTP requests
    (:812-1024), the options shared by the commands (:1038-1086), `memfault login` (:1711-1737) and what
    `memfault coredump` sends (:1416-1490).

    The network is a function of the requests so far and the request; [None]: an exception other than
    HttpApiError (no connection, an address without a host).  Of the headers only the credentials and the
    project key are kept.  urlparse, md5 and the writing of the coredump (see GdbCoredump) are functions given
    from outside; what is printed is left out, but for the link at the end.  Text is [string]. *)
From Coq Require Import String Ascii.
From Verif Require Import Base GdbCoredump GdbTarget.
Open Scope string_scope. Open Scope list_scope. Open Scope Z_scope.

(** what json.loads gives *)
Inductive json := JNull | JBool (b : bool) | JNum (n : Z) | JStr (s : string) | JArr (l : list json) | JObj (l : list (string * json)).
Definition truthy (j : json) : bool :=
  match j with
  | JNull => false | JBool b => b | JNum n => negb (n =? 0) | JStr s => negb (s =? "")%string
  | JArr l => match l with [] => false | _ => true end
  | JObj l => match l with [] => false | _ => true end
  end.
Fixpoint look (k : string) (l : list (string * json)) : option json :=
  match l with [] => None | (n, j) :: l => if (n =? k)%string then Some j else look k l end.
(** j[k]; [None]: TypeError or KeyError *)
Definition item (k : string) (j : json) : option json := match j with JObj l => look k l | _ => None end.
(** j.get(k); [None]: AttributeError *)
Definition getk (k : string) (j : json) : option json :=
  match j with JObj l => Some (match look k l with Some v => v | None => JNull end) | _ => None end.

Inductive content := CNone | CBytes (l : list Z) | CSymbols (token : json) (type version : string).
Record req := mk_req { q_method : string; q_base : string; q_path : string; q_auth : option (string * string); q_key : option string; q_body : content }.
(** the status and the body as JSON, [None] when it is none, :838-842 *)
Record resp := mk_resp { p_status : Z; p_json : option json }.
Definition entry := (req * option resp)%type.
Definition net := list entry -> req -> option resp.

(** HttpApiError, any other exception, or a value *)
Inductive res (A : Type) := Val (a : A) | Api | Exn.
Arguments Val {A}. Arguments Api {A}. Arguments Exn {A}.
Definition prog (A : Type) := list entry -> list entry * res A.
Definition ret {A} (a : A) : prog A := fun l => (l, Val a).
Definition api_error {A} : prog A := fun l => (l, Api).
Definition raise {A} : prog A := fun l => (l, Exn).
Definition seq {A B} (p : prog A) (k : A -> prog B) : prog B :=
  fun l => match p l with (l, Val a) => k a l | (l, Api) => (l, Api) | (l, Exn) => (l, Exn) end.
Definition of_opt {A} (o : option A) : prog A := match o with Some a => ret a | None => raise end.

(** the settings, :85-104; [None]: the None of Python *)
Record config := mk_config { g_ingress : string; g_api : string; g_email : option string; g_password : option string;
                             g_org : option string; g_project : option string; g_user : json }.
Definition given (o : option string) : bool := match o with Some s => negb (s =? "")%string | None => false end.
(** :100-101 *)
Definition can_api (g : config) : bool := given (g_email g) && given (g_password g) && given (g_project g) && given (g_org g).
(** "{}".format(o) *)
Definition fmt (o : option string) : string := match o with Some s => s | None => "None" end.

Section Net.
Variable n : net.
(** :826-845 *)
Definition http (q : req) : prog resp := fun l => let r := n l q in (l ++ [(q, r)], match r with Some p => Val p | None => Exn end).
Definition ok2 (s : Z) : bool := negb ((s <? 200) || (s >=? 300)).
(** :861-863 *)
Definition check (p : resp) : prog unit := if ok2 (p_status p) then ret tt else api_error.
(** :848-853, :866-871; [raising]: should_raise *)
Definition http_api (g : config) (method path : string) (body : content) (raising : bool) : prog resp :=
  seq (http (mk_req method (g_api g) path (Some (fmt (g_email g), fmt (g_password g))) None body)) (fun p =>
  if raising then seq (check p) (fun _ => ret p) else ret p).
Definition data (p : resp) : prog json := of_opt (do j <- p_json p; item "data" j).
Definition project_path (g : config) : string := ("/api/v0/organizations/" ++ fmt (g_org g) ++ "/projects/" ++ fmt (g_project g))%string.
(** :909-921 *)
Definition prepared (g : config) : prog (json * json) :=
  seq (http_api g "POST" (project_path g ++ "/upload") CNone true) (fun p =>
  seq (data p) (fun d => seq (of_opt (item "token" d)) (fun t => seq (of_opt (item "upload_url" d)) (fun u => ret (t, u))))).
(** :924-939; [split]: urlparse and the two urlunparse of :926-928 *)
Definition upload_file (split : string -> option (string * string)) (g : config) (file : list Z) : prog json :=
  seq (prepared g) (fun tu =>
  seq (of_opt (match snd tu with JStr u => split u | _ => None end)) (fun bp =>
  seq (http (mk_req "PUT" (fst bp) (snd bp) None None (CBytes file))) (fun p =>
  seq (check p) (fun _ => ret (fst tu))))).
(** :942-960 *)
Definition upload_symbol_file (split : string -> option (string * string)) (g : config) (file : list Z) (type version : string) : prog unit :=
  seq (upload_file split g file) (fun t =>
  seq (http_api g "POST" (project_path g ++ "/symbols") (CSymbols t type version) true) (fun _ => ret tt)).
(** :964-969 *)
Definition version_path (g : config) (type version : string) : string :=
  (project_path g ++ "/software_types/" ++ type ++ "/software_versions/" ++ version)%string.
(** :963-974, :996-1003 *)
Definition has_symbols (g : config) (type version : string) : prog bool :=
  seq (http_api g "GET" (version_path g type version) CNone false) (fun p =>
  if negb (ok2 (p_status p)) then ret false
  else seq (data p) (fun d =>
       if negb (truthy d) then ret false
       else seq (of_opt (getk "symbol_file" d)) (fun f =>
            if negb (truthy f) then ret false
            else seq (of_opt (getk "downloadable" f)) (fun b => ret (truthy b))))).
(** :1006-1024, HttpApiError is caught around the upload only *)
Definition upload_symbols (split : string -> option (string * string)) (g : config) (file : list Z) (type version : string) : prog unit :=
  seq (has_symbols g type version) (fun has =>
  if has then ret tt
  else fun l => match upload_symbol_file split g file type version l with (l, Exn) => (l, Exn) | (l, _) => (l, Val tt) end).
(** :977-988; a key that is no text ends in an exception where it is put in a header *)
Definition project_key (g : config) : prog (option string) :=
  seq (http_api g "GET" (project_path g ++ "/api_key") CNone false) (fun p =>
  if negb (ok2 (p_status p)) then ret None
  else seq (data p) (fun d => seq (of_opt (item "api_key" d)) (fun k =>
       if negb (truthy k) then ret None else match k with JStr s => ret (Some s) | _ => raise end))).
(** :874-887 *)
Definition post_coredump (body : list Z) (key ingress : string) : prog Z :=
  seq (http (mk_req "POST" ingress "/api/v0/upload/coredump" None (Some key) (CBytes body))) (fun p => ret (p_status p)).

(** options shared by the commands, :1039-1070; [None]: not given *)
Record options := mk_opts { o_email : option string; o_password : option string; o_org : option string; o_project : option string;
                            o_ingress : option string; o_api : option string }.
Definition over (o d : option string) : option string := match o with Some s => Some s | None => d end.
Definition overs (o : option string) (d : string) : string := match o with Some s => s | None => d end.
Definition same_text (a b : option string) : bool :=
  match a, b with Some x, Some y => (x =? y)%string | None, None => true | _, _ => false end.
(** :904-906 *)
Definition auth_me (api : string) (email password : option string) : prog resp :=
  http (mk_req "GET" api "/auth/me" (Some (fmt email, fmt password)) None CNone).
(** :1072-1086.  [invoke] passes MEMFAULT_CONFIG itself as [config] (:1102), so one record [g] stands for both:
    the email compared at :1082 is the one written at :1076. *)
Definition populate (o : options) (g : config) : prog config :=
  let email := over (o_email o) (g_email g) in
  let g1 := mk_config (overs (o_ingress o) (g_ingress g)) (overs (o_api o) (g_api g)) email (over (o_password o) (g_password g))
                      (over (o_org o) (g_org g)) (over (o_project o) (g_project g)) (g_user g) in
  if same_text email (g_email g1) then ret g1
  else seq (auth_me (g_api g1) (g_email g1) (g_password g1)) (fun p =>
       seq (of_opt (do j <- p_json p; item "id" j)) (fun id =>
       ret (mk_config (g_ingress g1) (g_api g1) (g_email g1) (g_password g1) (g_org g1) (g_project g1) id))).

(** `memfault login`, :1711-1737; [api], [ingress]: the arguments or their defaults *)
Definition login (api ingress email password : string) (org project : option string) (g : config) : prog config :=
  seq (auth_me api (Some email) (Some password)) (fun p =>
  if ok2 (p_status p) then
    seq (of_opt (do j <- p_json p; item "id" j)) (fun id => ret (mk_config ingress api (Some email) (Some password) org project id))
  else ret g).

(** what `memfault coredump` is given: the options of its own, the file of symbols and the coredump for a
    software version ([None]: it could not be captured or written) *)
Record job := mk_job { j_key : option string; j_no_symbols : bool; j_type : string; j_version : string;
                       j_elf : list Z; j_captured : bool; j_core : string -> option (list Z) }.
Variable md5 : list Z -> string.
Variable split : string -> option (string * string).
(** :1447-1452 *)
Definition full_version (j : job) : string := (j_version j ++ "-md5+" ++ substring 0 8 (md5 (j_elf j)))%string.
(** :1425-1490 from the settings on, the arguments being right; the status of the upload, if it came to that *)
Definition send (j : job) (g : config) : prog (option Z) :=
  let api := can_api g in
  if negb api && negb (given (j_key j)) then ret None
  else if negb (j_captured j) then ret None
  else
    let v := full_version j in
    seq (if j_no_symbols j then ret tt else if api then upload_symbols split g (j_elf j) (j_type j) v else ret tt) (fun _ =>
    seq (if given (j_key j) then ret (j_key j) else project_key g) (fun k =>
    match k with
    | None => ret None
    | Some k => seq (of_opt (j_core j v)) (fun b => seq (post_coredump b k (g_ingress g)) (fun s => ret (Some s)))
    end)).
(** the whole command; [stored], [answer]: the permission, see GdbTarget *)
Definition coredump (stored : bool) (answer : list Z) (o : options) (j : job) (g : config) : prog (option Z * config) :=
  if negb (fst (permission stored answer)) then ret (None, g)
  else seq (populate o g) (fun g => seq (send j g) (fun s => ret (s, g))).
End Net.

(** s.replace(a, b), [a] not empty; [fuel]: the length of [s] *)
Fixpoint replace (fuel : nat) (a b s : string) : string :=
  match fuel with
  | O => s
  | S f => if starts a s then (b ++ replace f a b (substring (String.length a) (String.length s) s))%string
           else match s with EmptyString => EmptyString | String c s => String c (replace f a b s) end
  end.
Definition replace_all (a b s : string) : string := replace (String.length s) a b s.
(** :1144-1156, the link shown after an upload *)
Definition issues_url (g : config) : option string :=
  let u := g_ingress g in
  let tail := ("/organizations/" ++ fmt (g_org g) ++ "/projects/" ++ fmt (g_project g) ++ "/issues?live")%string in
  if inside "dev." u || inside "localhost" u then Some (u ++ tail)%string
  else if inside "ingress.try" u then Some (replace_all "ingress.try." "try." u ++ tail)%string
  else if inside "ingress." u then Some (replace_all "ingress." "app." u ++ tail)%string
  else None.
(** the characters of --software-version, :1377, one or more, :1530-1541 (a newline after the last is let
    through as well; arguments are cut at spaces, :1071, so that no space gets here) *)
Definition version_char (c : ascii) : bool :=
  let z := Z.of_nat (nat_of_ascii c) in
  (48 <=? z) && (z <=? 57) || (65 <=? z) && (z <=? 90) || (97 <=? z) && (z <=? 122)
  || existsb (Z.eqb z) [45; 95; 46; 43; 58; 40; 41; 91; 93; 47; 44].
Definition version_arg (s : string) : bool :=
  negb (s =? "")%string && (fix all (s : string) := match s with EmptyString => true | String c s => version_char c && all s end) s.
