(** What the description of the arguments is to say (compact_log_helpers.h:217-231) and how C passes them. *)
From Verif Require Import Base MacroArgs.

(** How an argument reaches a function with "..." (C11 6.5.2.2). *)
Inductive passed := VBits (size : Z) | VDouble | VLongDouble | VStr.
Definition passes (t : cty) : passed :=
  match t with
  | TFloat | TDouble => VDouble | TLongDouble => VLongDouble | TCharPtr _ _ => VStr
  | TInt n => VBits (if n <=? 4 then 4 else n) | TPtr n => VBits n
  end.
(** How the serializer reads an argument described by [code], memfault_compact_log_serializer.c:59-110. *)
Definition reads (code : Z) : option passed :=
  if code =? 0 then Some (VBits 4) else if code =? 1 then Some (VBits 8) else if code =? 2 then Some VDouble
  else if code =? 3 then Some VStr else None.
(** The types of the platforms. *)
Definition common (t : cty) : Prop :=
  match t with TInt n => n = 1 \/ n = 2 \/ n = 4 \/ n = 8 | TPtr n => n = 4 \/ n = 8 | TLongDouble => False | _ => True end.

(** The number of arguments is where the highest bit is; argument [i] is in the two bits that many from the
    end. *)
Definition describes (fmt : Z) (codes : list Z) : Prop :=
  0 < fmt /\ Z.log2 fmt = 2 * zlen codes /\
  forall i c, nth_error codes i = Some c -> Z.shiftr fmt (2 * (zlen codes - 1 - Z.of_nat i)) mod 4 = c.
