(** Model of the script that makes a CMSIS-Pack of the SDK: scripts/cmsis_pack_bundle.py.

    Paths, patterns and the files of the SDK as in EclipsePatch.v; the order os.walk yields files in is that of the list
    ([p_fs]).  Attributes are not escaped when an element is made: '&', '<' and quotes are taken to end in an exception
    ([None]).  The texts of the templates but for the list of files, white space, the version read from version.h and the
    index file are left out. *)
From Coq Require Import String.
From Verif Require Import Base EclipsePatch.
Open Scope string_scope.
Open Scope list_scope.
Open Scope Z_scope.

Record penv := mk_penv { p_sdk : path; p_comps : list (list Z); p_port : option path; p_fs : list path }.

(** get_file_element, :96-110; PureWindowsPath.as_posix turns backslashes around *)
Definition file_name (sdk f : path) : option (list Z) :=
  let n := map (fun c => if c =? 92 then 47 else c) (relpath f sdk) in
  if existsb (fun c => (c =? 38) || (c =? 60) || (c =? 34)) n then None else Some n.
(** files_to_link, :131-139; recursive_glob_backport, :113-128 *)
Definition names (e : penv) (root : path) (pat : list Z) : option (list (list Z)) :=
  all_some (map (file_name (p_sdk e)) (walk (p_fs e) root pat)).
(** :262-288 *)
Definition groups (e : penv) : list (option (list (list Z))) :=
  map (fun c => names e (p_sdk e ++ [str "components"; c]) deep) (p_comps e) ++
  match p_port e with
  | None => []
  | Some port => [names e (p_sdk e ++ str "ports" :: port) flat] ++
                 (if path_dec port [str "dialog"; str "da1469x"] then [names e (p_sdk e ++ [str "ports"; str "freertos"]) deep] else [])
  end.
(** The files of the core component, :54-57 and :260-288 *)
Definition pdsc_files (e : penv) : option (list (list Z)) :=
  do l <- all_some (groups e); Some ([str "components/include/"; str "ports/include/"] ++ concat l).
(** The pack, :323-337: the description, two directories and three files *)
Definition in_pack (sdk f : path) : bool :=
  below (sdk ++ [str "components"]) f || below (sdk ++ [str "ports"]) f ||
  (if in_dec path_dec f [sdk ++ [str "CHANGELOG.md"]; sdk ++ [str "LICENSE"]; sdk ++ [str "README.md"]] then true else false).
Definition pack (e : penv) : list path := map (skipn (List.length (p_sdk e))) (filter (in_pack (p_sdk e)) (p_fs e)).

(** ** The releases *)
(** get_latest_pdsc, :142-160: the status, SKIP_MISSING_PRIOR_RELEASE and the releases in the answer.  [None]: an exception
    (raise_for_status); [Some None]: there are no earlier releases. *)
Definition latest (status : Z) (skip : bool) (answer : list (list Z)) : option (option (list (list Z))) :=
  if (status =? 404) || skip then Some None
  else if (400 <=? status) && (status <? 600) then None else Some (Some answer).
(** :290-315 *)
Definition releases (version : list Z) (status : Z) (skip : bool) (answer : list (list Z)) : option (list (list Z)) :=
  do old <- latest status skip answer;
  Some (version :: match old with Some l => l | None => [] end).
(** A release is published with its description; the next run gets that.  Each run: the version, what the server says and
    the variable. *)
Fixpoint publish (runs : list (list Z * Z * bool)) (published : list (list Z)) : list (list Z) :=
  match runs with
  | [] => published
  | (v, status, skip) :: r => publish r (match releases v status skip published with Some l => l | None => published end)
  end.
