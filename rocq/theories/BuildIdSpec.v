(** Independent specification of the build id as text and of the unique version. *)
From Coq Require Import String.
From Verif Require Import Base BuildId.

(** The build id in memory: as it is, or in an ELF note with a name. *)
Inductive id_in_memory (id : list Z) : Z -> list Z -> Prop :=
  | plain_id rest : zlen id = 20 -> id_in_memory id 3 (id ++ rest)
  | note_id n descsz type name rest : zlen id = 20 -> 0 <= n < 4294967296 -> zlen name = n -> zlen descsz = 4 -> zlen type = 4 ->
      id_in_memory id 2 ([n mod 256; n / 256 mod 256; n / 65536 mod 256; n / 16777216] ++ descsz ++ type ++ name ++ id ++ rest).

(** The id there is, if any. *)
Definition the_id (id : option (list Z)) (type : Z) (mem : list Z) : Prop :=
  match id with Some i => id_in_memory i type mem /\ bytes i | None => type <> 2 /\ type <> 3 end.

(** Value of a lower case hex digit. *)
Definition digit (c : Z) : option Z :=
  if (48 <=? c) && (c <=? 57) then Some (c - 48) else if (97 <=? c) && (c <=? 102) then Some (c - 87) else None.
Fixpoint digits (l : list Z) : option (list Z) :=
  match l with [] => Some [] | c :: l => do d <- digit c; do r <- digits l; Some (d :: r) end.
(** The two halves of each byte. *)
Definition halves (id : list Z) : list Z := flat_map (fun b => [b / 16; b mod 16]) id.

(** The suffix of a version for an id. *)
Definition hex_of (id : option (list Z)) (n : Z) (suffix : list Z) : Prop :=
  match id with
  | Some id => digits suffix = Some (take n (halves id))
  | None => suffix = str "no-id"
  end.

(** Answers to calls: nothing until a version short enough is given, then for ever that version with the suffix. *)
Fixpoint answers (max : Z) (suffix : list Z -> list Z) (made : option (list Z)) (l : list (option (list Z))) : list (option (list Z)) :=
  match l with
  | [] => []
  | v :: l =>
      let made := match made, v with
                  | Some s, _ => Some s
                  | None, Some v => if zlen v + 8 <=? max then Some (v ++ [43] ++ suffix v) else None
                  | None, None => None
                  end in
      made :: answers max suffix made l
  end.
