(** What a reader of the console makes of the debug logs. *)
From Coq Require Import String.
From Verif Require Import Base DebugLog.

Definition starts_with (p l : list Z) : option (list Z) :=
  if list_eq_dec Z.eq_dec (take (zlen p) l) p then Some (drop (zlen p) l) else None.
Definition ends_with (e l : list Z) : option (list Z) :=
  let n := zlen l - zlen e in
  if list_eq_dec Z.eq_dec (drop n l) e then Some (take n l) else None.

(** The first format of a list that a line has *)
Fixpoint first_of (fs : list (list Z * list Z * Z)) (l : list Z) : option (Z * list Z) :=
  match fs with
  | [] => None
  | (p, e, v) :: r =>
      match starts_with p l with
      | Some t => match ends_with e t with Some t => Some (v, t) | None => first_of r l end
      | None => first_of r l
      end
  end.
Definition formats : list (list Z * list Z * Z) :=
  [(str "[D] MFLT: ", [13; 10], 0); (str "[I] MFLT: ", [13; 10], 1); (str "[W] MFLT: ", [13; 10], 2); (str "[E] MFLT: ", [13; 10], 3);
   (str "<dbg> mflt: ", [10], 0); (str "<inf> mflt: ", [10], 1); (str "<wrn> mflt: ", [10], 2); (str "<err> mflt: ", [10], 3)].

(** The level and the text of an output *)
Definition reads (e : entry) : option (Z * list Z) :=
  match e with
  | Printed l => first_of formats l
  | Handed o tag t => if list_eq_dec Z.eq_dec tag (str "mflt") then
                        if (1 <=? o) && (o <=? 4) then Some (4 - o, t) else None
                      else None
  end.
(** The first 127 characters *)
Definition shortened (text : list Z) : list Z := take 127 text.
