(** What the commands promise: test_log leaves its four lines in the log, each once and with its level. *)
From Coq Require Import String.
From Verif Require Import Base.
Open Scope string_scope. Open Scope list_scope. Open Scope Z_scope.

Definition four_lines : list (Z * list Z) :=
  [(0, str "Debug log!"); (1, str "Info log!"); (2, str "Warning log!"); (3, str "Error log!")].
(** The lines of the levels [p] *)
Definition lines_shown (p : Z -> bool) : list (Z * list Z) := filter (fun x => p (fst x)) four_lines.
Definition as_info (l : list (Z * list Z)) : list (Z * list Z) := map (fun x => (1, snd x)) l.
