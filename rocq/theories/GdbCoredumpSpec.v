(** What a coredump made by a debugger shall be. *)
From Verif Require Import Base.

(** A number from its bytes, the lowest first; and the bytes of a word. *)
Definition number (l : list Z) : Z := fold_right (fun b n => b + 256 * n) 0 l.
Definition word (v : Z) : list Z := [v mod 256; v / 256 mod 256; v / 65536 mod 256; v / 16777216 mod 256].
(** Blocks as type, address and data, until the end. *)
Fixpoint parse_blocks (fuel : nat) (l : list Z) : option (list (Z * Z * list Z)) :=
  match l, fuel with
  | [], _ => Some []
  | _, 0%nat => None
  | _, S fuel =>
      let n := number (take 4 (drop 8 l)) in
      if (12 <=? zlen l) && (n <=? zlen l - 12)
      then do r <- parse_blocks fuel (drop (12 + n) l);
           Some ((number (take 4 l), number (take 4 (drop 4 l)), take n (drop 12 l)) :: r)
      else None
  end.
(** "CORE", version 1, the size of the file, then blocks. *)
Definition parse_core (f : list Z) : option (list (Z * Z * list Z)) :=
  if (12 <=? zlen f) && (number (take 4 f) =? 0x45524F43) && (number (take 4 (drop 4 f)) =? 1) && (number (take 4 (drop 8 f)) =? zlen f)
  then parse_blocks (length f) (drop 12 f) else None.
(** Memory from [a] on. *)
Definition memory (m : Z -> Z) (a n : Z) : list Z := map (fun i => m (a + i)) (zrange (Z.to_nat n)).
(** Frames on the stack and the processor at an exception are those of FaultShimSpec. *)
