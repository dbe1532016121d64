(** Independent specification: a reader for the subset of RFC 7049 without indefinite lengths,
    half and single floats. *)
From Verif Require Import Base.

Inductive item :=
| IInt (v : Z) | IBytes (b : list Z) | IText (s : list Z)
| IArray (l : list item) | IMap (l : list (item * item))
| ITag (n : Z) (i : item) | ISimple (n : Z) | IFloat64 (bits : Z).
Definition INull : item := ISimple 22.

(** Big-endian value of a byte list. *)
Definition be (l : list Z) : Z := fold_left (fun a b => a * 256 + b) l 0.

(** RFC 7049 section 2.1: major type, additional information, argument, rest. *)
Definition read_head (s : list Z) : option (Z * Z * Z * list Z) :=
  match s with
  | [] => None
  | ib :: r =>
      let mt := ib / 32 in
      let ai := ib mod 32 in
      let n := if ai =? 24 then 1 else if ai =? 25 then 2 else if ai =? 26 then 4 else 8 in
      if ai <? 24 then Some (mt, ai, ai, r)
      else if 27 <? ai then None
      else if zlen r <? n then None
      else Some (mt, ai, be (take n r), drop n r)
  end.

Fixpoint pair_up (l : list item) : list (item * item) :=
  match l with
  | a :: b :: r => (a, b) :: pair_up r
  | _ => []
  end.

(** One data item, and [n] consecutive ones. *)
Fixpoint read_item (fuel : nat) (s : list Z) {struct fuel} : option (item * list Z) :=
  match fuel with
  | O => None
  | S f =>
      match read_head s with
      | None => None
      | Some (mt, ai, n, r) =>
          if mt =? 0 then Some (IInt n, r)
          else if mt =? 1 then Some (IInt (-1 - n), r)
          else if mt =? 2 then if zlen r <? n then None else Some (IBytes (take n r), drop n r)
          else if mt =? 3 then if zlen r <? n then None else Some (IText (take n r), drop n r)
          else if mt =? 4 then
            match read_items f n r with Some (l, r) => Some (IArray l, r) | None => None end
          else if mt =? 5 then
            match read_items f (2 * n) r with Some (l, r) => Some (IMap (pair_up l), r) | None => None end
          else if mt =? 6 then
            match read_item f r with Some (i, r) => Some (ITag n i, r) | None => None end
          else if ai <? 24 then Some (ISimple n, r)
          else if ai =? 27 then Some (IFloat64 n, r)
          else None
      end
  end
with read_items (fuel : nat) (n : Z) (s : list Z) {struct fuel} : option (list item * list Z) :=
  match fuel with
  | O => None
  | S f =>
      if n <=? 0 then Some ([], s)
      else match read_item f s with
           | None => None
           | Some (x, s) => match read_items f (n - 1) s with
                            | None => None
                            | Some (xs, s) => Some (x :: xs, s)
                            end
           end
  end.
(** Every item takes at least one byte, so twice the length is enough fuel (CborProofs shows it
    suffices for everything the encoder produces). *)
Definition cbor_read (s : list Z) : option (item * list Z) := read_item (2 * length s) s.
