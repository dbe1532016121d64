(** Model of the watcher that runs the command a device prints: tasks/print_chunk_watcher.py:21-71.

    The stream is all the characters printed so far; the watcher is called with it again and again as it grows.  Encoding
    the text of the file, and what the shell makes of it, are left out. *)
From Coq Require Import String.
From Verif Require Import Base EclipsePatch.
Open Scope string_scope.
Open Scope list_scope.
Open Scope Z_scope.

(** str.find *)
Fixpoint find (p s : list Z) : option nat :=
  if starts p s then Some O else match s with [] => None | _ :: r => option_map S (find p r) end.
(** str.splitlines: LF, VT, FF, CR, CR LF, FS, GS, RS, NEL, LS, PS *)
Definition line_end (c : Z) : bool := ((10 <=? c) && (c <=? 13)) || ((28 <=? c) && (c <=? 30)) || (c =? 133) || (c =? 8232) || (c =? 8233).
Fixpoint split_lines (s cur : list Z) : list (list Z) :=
  match s with
  | [] => match cur with [] => [] | _ => [cur] end
  | c :: r => if line_end c then cur :: match c, r with 13, 10 :: r' => split_lines r' [] | _, _ => split_lines r [] end
              else split_lines r (cur ++ [c])
  end.
Inductive event := NoKey | Skipped (file : list Z) | Ran (file : list Z).
Definition e_mark : list Z := str "echo \".
Definition d_mark : list Z := str "print_chunk done".
Definition no_key : list Z := str "<YOUR PROJECT KEY HERE>".
(** The file made of a command, :54-60 *)
Definition script (cmd : list Z) : list Z :=
  flat_map (fun l => l ++ [10]) (filter (fun l => match l with [] => false | _ => true end) (split_lines cmd [])).
(** submit, :26-71; [yes]: the answer to the question *)
Definition submit (idx : nat) (stream : list Z) (yes : bool) : nat * list event :=
  let search := skipn idx stream in
  match find e_mark search, find d_mark search with
  | Some a, Some b =>
      let cmd := skipn a (firstn b search) in
      (List.length stream,
       [if contains no_key cmd then NoKey else if yes then Ran (script cmd) else Skipped (script cmd)])
  | _, _ => (idx, [])
  end.
(** The stream grows by a piece before each call *)
Fixpoint watch (idx : nat) (stream : list Z) (pieces : list (list Z * bool)) : list event :=
  match pieces with
  | [] => []
  | (p, yes) :: r => let (idx', ev) := submit idx (stream ++ p) yes in ev ++ watch idx' (stream ++ p) r
  end.
