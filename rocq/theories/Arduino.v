(** Model of the script that makes an Arduino library of the SDK: scripts/create_arduino_library.py:69-147.

    The SDK is a list of files, paths from its root (names as in EclipsePatch.v) and texts; texts are characters as read
    (Python turns CR LF into LF when it reads).  The library is the list of files in the order they come to it.  [None]: an
    exception (a directory or file to remove or move is not there, or the library's directory is there already when a port
    is copied).  Downloading and extracting a release, logging and empty directories are left out. *)
From Coq Require Import String.
From Verif Require Import Base EclipsePatch.
Open Scope string_scope.
Open Scope list_scope.
Open Scope Z_scope.

Definition file : Type := (path * list Z)%type.

(** The regular expression, :127: white space of Python's str *)
Definition white (c : Z) : bool :=
  ((9 <=? c) && (c <=? 13)) || ((28 <=? c) && (c <=? 32)) || (c =? 133) || (c =? 160) || (c =? 5760) ||
  ((8192 <=? c) && (c <=? 8202)) || (c =? 8232) || (c =? 8233) || (c =? 8239) || (c =? 8287) || (c =? 12288).
Definition header_here (s : list Z) : bool :=
  starts (str "#include") s && match skipn 8 s with w :: r => white w && starts (34 :: str "memfault/") r | [] => false end.
Definition new_header : list Z := str "#include " ++ 34 :: str "memfault-firmware-sdk/components/include/memfault/".
(** header_regex.sub, :131-133: from left to right, the 19 characters of a match are skipped *)
Fixpoint sub (skip : nat) (s : list Z) : list Z :=
  match s with
  | [] => []
  | c :: r => match skip with
              | S n => sub n r
              | O => if header_here s then new_header ++ sub 18 r else c :: sub 0 r
              end
  end.

(** glob leaves out hidden names; [ends] is fnmatch of an asterisk and the ending *)
Definition hidden (n : list Z) : bool := match n with c :: _ => c =? 46 | [] => false end.
Definition ends (e n : list Z) : bool := starts (rev e) (rev n).
(** files_to_patch, :116-121; the last pattern is not recursive, so two asterisks are one *)
Definition patched (f : path) : bool :=
  negb (existsb hidden f) &&
  (ends (str ".c") (last f []) || ends (str ".h") (last f []) ||
   match f with
   | _ :: r => if path_dec r [str "include"; str "memfault"; str "metrics"; str "heartbeat_config.def"] then true else false
   | [] => false
   end).
(** The directories removed, :96-114 *)
Definition seg_eqb (a b : list Z) : bool := if seg_dec a b then true else false.
Definition gone (f : path) : bool :=
  match f with
  | d :: n :: r =>
      existsb (seg_eqb d) [str ".circleci"; str "examples"; str "tests"] ||
      (seg_eqb d (str "ports") && negb (seg_eqb n (str "panics")) && match r with [] => false | _ => true end)
  | _ => false
  end.
Definition has_dir (fs : list file) (d : list Z) : bool := existsb (fun f => match fst f with a :: _ :: _ => seg_eqb a d | _ => false end) fs.
Definition has_file (fs : list file) (n : list Z) : bool := existsb (fun f => if path_dec (fst f) [n] then true else false) fs.
(** copytree of a port, :85-91 *)
Definition port_files (fs : list file) (port : path) : list file :=
  map (fun f => (skipn (List.length port + 1) (fst f), snd f)) (filter (fun f => below (str "ports" :: port) (fst f)) fs).
(** Where a file that is not removed goes, :139-144 *)
Definition place (f : path) : path :=
  if path_dec f [str "LICENSE"] then [str "LICENSE.txt"]
  else if path_dec f [str "VERSION"] then f
  else if path_dec f [str "CHANGELOG.md"] then f
  else str "src" :: str "memfault-firmware-sdk" :: f.
Definition patch_file (f : file) : file := (place (fst f), if patched (fst f) then sub 0 (snd f) else snd f).
(** arduinoify_memfault_sdk, :69-147; [there]: the library's directory is there already *)
Definition arduinoify (there : bool) (port : option path) (fs : list file) : option (list file) :=
  let copied := match port with None => [] | Some p => port_files fs p end in
  if there && match copied with [] => false | _ => true end then None
  else if forallb (has_dir fs) [str ".circleci"; str "examples"; str "tests"; str "ports"] &&
          forallb (has_file fs) [str "LICENSE"; str "VERSION"; str "CHANGELOG.md"]
       then Some (copied ++ map patch_file (filter (fun f => negb (gone (fst f))) fs))
       else None.
