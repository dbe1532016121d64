(** Specification of the watcher. *)
From Verif Require Import Base.
Open Scope Z_scope.

(** [p] is in [s] after [a] and not before *)
Definition occurs (p s : list Z) : Prop := exists a b, s = a ++ p ++ b.
Definition first_after (p s a : list Z) : Prop := (exists b, s = a ++ p ++ b) /\ forall a' b', s = a' ++ p ++ b' -> zlen a <= zlen a'.
(** The lines of a text whose lines end in LF, CR LF or CR: pieces without these joined by them *)
Definition line_break (e : list Z) : Prop := e = [10] \/ e = [13] \/ e = [13; 10].
Definition one_line (l : list Z) : Prop :=
  Forall (fun c => ~ (10 <= c <= 13) /\ ~ (28 <= c <= 30) /\ c <> 133 /\ c <> 8232 /\ c <> 8233) l.
Inductive lines_of : list Z -> list (list Z) -> Prop :=
| LO_nil : lines_of [] []
| LO_last l : l <> [] -> one_line l -> lines_of l [l]
| LO_line l e r ls : one_line l -> line_break e -> (e = [13] -> hd 0 r <> 10) -> lines_of r ls -> lines_of (l ++ e ++ r) (l :: ls).
