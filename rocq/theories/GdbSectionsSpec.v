(** What GDB prints for `maintenance info sections`. *)
From Coq Require Import String.
From Verif Require Import Base GdbSections.
Open Scope string_scope. Open Scope list_scope. Open Scope Z_scope.

(** digits and the number they show *)
Inductive digit : Z -> Z -> Prop :=
| dg_num c : 48 <= c <= 57 -> digit c (c - 48)
| dg_low c : 97 <= c <= 102 -> digit c (c - 97 + 10)
| dg_up c : 65 <= c <= 70 -> digit c (c - 65 + 10).
Inductive shows : list Z -> Z -> Prop :=
| sh_one c v : digit c v -> shows [c] v
| sh_more l n c v : shows l n -> digit c v -> shows (l ++ [c]) (n * 16 + v).

(** a line of the list: its number, blanks, first and last address, offset in the file, name and flags *)
Record row := mk_row { r_no : list Z; r_blanks : list Z; r_from : list Z; r_to : list Z; r_off : list Z; r_name : list Z; r_flags : list Z }.
Definition line (r : row) : list Z :=
  str " [" ++ r_no r ++ str "]" ++ r_blanks r ++ str "0x" ++ r_from r ++ str "->0x" ++ r_to r ++ str " at 0x" ++ r_off r ++ str ": "
  ++ r_name r ++ str " " ++ r_flags r.
Record row_ok (r : row) (from to : Z) : Prop := mk_ok {
  ok_no : r_no r <> [] /\ Forall (fun c => 48 <= c <= 57) (r_no r);
  ok_blanks : r_blanks r <> [] /\ Forall (fun c => c = 32) (r_blanks r);
  ok_from : shows (r_from r) from;
  ok_to : shows (r_to r) to;
  ok_off : exists o, shows (r_off r) o;
  ok_name : r_name r <> [] /\ ~ In 32 (r_name r) /\ ~ In 10 (r_name r);
  ok_flags : ~ In 10 (r_flags r) }.
(** the lines, each after a newline, and a newline at the end *)
Definition listing (head : list Z) (rows : list row) : list Z :=
  head ++ flat_map (fun r => 10 :: line r) rows ++ [10].
(** the part before: some text, the file in quotes, and some more that does not end in a blank *)
Definition heading (a path b : list Z) (last : Z) : list Z := a ++ str "`" ++ path ++ str "', file type" ++ b ++ [last].
Definition says_readonly (flags : list Z) : Prop := exists a b, flags = a ++ str "READONLY" ++ b.
