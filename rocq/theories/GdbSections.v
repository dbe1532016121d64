(** Model of scripts/memfault_gdb.py:775-797, parse_maintenance_info_sections: the file and the sections in what
    GDB's `maintenance info sections` prints.

    The two regular expressions are sequences of characters and of runs of characters; Python's `re` tries the
    longest run first and goes back one character at a time.  Text is bytes (ASCII). *)
From Coq Require Import String.
From Verif Require Import Base.
Open Scope string_scope. Open Scope list_scope. Open Scope Z_scope.

(** one character; at least [min] of them, kept or not; the end of a line *)
Inductive item := One (p : Z -> bool) | Run (min : nat) (p : Z -> bool) (cap : bool) | Eol.
Fixpoint run_len (p : Z -> bool) (s : list Z) : nat :=
  match s with c :: s => if p c then S (run_len p s) else O | [] => O end.
Definition found := (list (list Z) * list Z)%type.
(** with the run [k] long, then [k - 1], down to [min] *)
Fixpoint back (f : list Z -> option found) (min : nat) (cap : bool) (s : list Z) (k : nat) : option found :=
  match f (skipn k s) with
  | Some (c, r) => Some (if cap then firstn k s :: c else c, r)
  | None => match k with O => None | S k => if (k <? min)%nat then None else back f min cap s k end
  end.
(** what is kept, and the text after the match *)
Fixpoint mt (l : list item) (s : list Z) : option found :=
  match l with
  | [] => Some ([], s)
  | One p :: l => match s with c :: s => if p c then mt l s else None | [] => None end
  | Run min p cap :: l => let n := run_len p s in if (n <? min)%nat then None else back (mt l) min cap s n
  | Eol :: l => match s with [] => mt l s | c :: _ => if c =? 10 then mt l s else None end
  end.
(** re.search, what is kept *)
Fixpoint search (l : list item) (s : list Z) : option (list (list Z)) :=
  match mt l s with
  | Some (c, _) => Some c
  | None => match s with [] => None | _ :: s => search l s end
  end.
(** re.findall, [fuel]: more than the length of the text *)
Fixpoint findall (fuel : nat) (l : list item) (s : list Z) : list (list (list Z)) :=
  match fuel with
  | O => []
  | S f => match mt l s with
           | Some (c, r) => c :: findall f l r
           | None => match s with [] => [] | _ :: s => findall f l s end
           end
  end.

Definition is (x : Z) : item := One (Z.eqb x).
Definition isnt (x : Z) (c : Z) : bool := negb (c =? x).
Definition lits (s : string) : list item := map is (str s).
Definition ws (c : Z) : bool := (9 <=? c) && (c <=? 13) || (28 <=? c) && (c <=? 32).
Definition dec (c : Z) : bool := (48 <=? c) && (c <=? 57).
Definition hex (c : Z) : bool := dec c || (97 <=? c) && (c <=? 102) || (65 <=? c) && (c <=? 70).
(** :776; 96 is the backquote, 39 the quote *)
Definition file_re : list item := is 96 :: Run 1 (isnt 39) true :: lits "', file type".
(** :783-787; of the two groups with 0x the digits are kept *)
Definition section_re : list item :=
  [Run 1 ws false; is 91; Run 1 dec false; is 93; Run 1 ws false; is 48; is 120; Run 1 hex true; Run 1 (isnt 48) false;
   is 48; is 120; Run 1 hex true; Run 1 (isnt 58) false; is 58; is 32; Run 1 (isnt 32) true; is 32; Run 0 (isnt 10) true; Eol].

(** int(text, base=16) *)
Definition hex_value (c : Z) : Z := if c <=? 57 then c - 48 else if c <=? 70 then c - 55 else c - 87.
Definition int16 (l : list Z) : Z := fold_left (fun n c => 16 * n + hex_value c) l 0.
(** `x in y` for text *)
Fixpoint begins (a b : list Z) : bool :=
  match a, b with [], _ => true | x :: a, y :: b => (x =? y) && begins a b | _, _ => false end.
Fixpoint within (a b : list Z) : bool := begins a b || match b with [] => false | _ :: b => within a b end.

Record sect := mk_sect { s_addr : Z; s_size : Z; s_name : list Z; s_ro : bool }.
(** :789-794 *)
Definition to_sect (t : list (list Z)) : option sect :=
  match t with
  | [a; b; n; f] => let addr := int16 a in Some (mk_sect addr (int16 b - addr) n (within (str "READONLY") f))
  | _ => None
  end.
Fixpoint all_sects (l : list (list (list Z))) : option (list sect) :=
  match l with [] => Some [] | t :: l => do x <- to_sect t; do r <- all_sects l; Some (x :: r) end.
(** :775-797; [None]: (None, None) *)
Definition parse (out : list Z) : option (list Z * list sect) :=
  match search file_re out with
  | Some (fn :: _) => do l <- all_sects (findall (S (length out)) section_re out); Some (fn, l)
  | _ => None
  end.
