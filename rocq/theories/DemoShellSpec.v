(** Independent specification of the demo shell: what a person typing sees. *)
From Coq Require Import String.
From Verif Require Import Base DemoShell.

(** Characters appear as typed; the end of a line as CR LF; rubbing out takes the character off the screen. *)
Definition seen (c : Z) : list sh_event :=
  match c with 10 => [SOut 13; SOut 10] | 8 => [SOut 8; SOut 32; SOut 8] | _ => [SOut c] end.
Definition shown (l : list Z) : list sh_event := concat (map seen l).

(** Ends of lines: the first CR or LF typed decides; the other one is dropped from then on. *)
Fixpoint line_ends (l : list Z) : list Z :=
  match l with
  | [] => []
  | c :: l =>
      if c =? 13 then 10 :: map (fun c => if c =? 13 then 10 else c) (filter (fun c => negb (c =? 10)) l)
      else if c =? 10 then 10 :: filter (fun c => negb (c =? 13)) l
      else c :: line_ends l
  end.

(** The words of a line: runs of characters other than spaces. *)
Fixpoint words (l : list Z) : list (list Z) :=
  match l with
  | [] => []
  | c :: r =>
      if c =? 32 then words r
      else match r with
           | [] => [[c]]
           | d :: _ => if d =? 32 then [c] :: words r
                       else match words r with w :: ws => (c :: w) :: ws | [] => [[c]] end
           end
  end.
(** A C string ends at its first NUL. *)
Fixpoint upto_nul (l : list Z) : list Z :=
  match l with [] => [] | c :: l => if c =? 0 then [] else c :: upto_nul l end.

(** The number of the first command with a name. *)
Definition lookup (names : list (list Z)) (name : list Z) : option Z :=
  match filter (fun x => if list_eq_dec Z.eq_dec (snd x) name then true else false) (combine (map Z.of_nat (seq 0 (length names))) names) with
  | [] => None
  | x :: _ => Some (fst x)
  end.

(** What a completed line does: the command named by its first word is called with the first 16 words. *)
Definition line_done (names : list (list Z)) (text : list Z) : list sh_event :=
  match map upto_nul (take 16 (words text)) with
  | [] => []
  | w :: ws => match lookup names w with
               | Some k => [SCall k (w :: ws)]
               | None => shown (str "Unknown command: " ++ w ++ [10] ++ str "Type 'help' to list all commands" ++ [10])
               end
  end ++ shown (str "mflt> ").

(** Typing with [line] already on the line of at most [size] characters including its end.  When the
    line is full it is taken as complete without its last character. *)
Fixpoint typing (size : Z) (names : list (list Z)) (line : list Z) (l : list Z) : list sh_event :=
  match l with
  | [] => []
  | c :: l =>
      if c =? 8 then match line with [] => typing size names [] l | _ => seen 8 ++ typing size names (removelast line) l end
      else seen c ++
           (if zlen line + 1 =? size then shown [10] ++ line_done names line ++ typing size names [] l
            else if c =? 10 then line_done names line ++ typing size names [] l
            else typing size names (line ++ [c]) l)
  end.
Definition session (size : Z) (names : list (list Z)) (l : list Z) : list sh_event :=
  shown ([10] ++ str "mflt> ") ++ typing size names [] (line_ends l).
