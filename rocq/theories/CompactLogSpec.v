(** What a compact log means: an array of the reference to the format string and the arguments. *)
From Coq Require Import String.
From Verif Require Import Base CborSpec CompactLog.

Definition arg_item (a : larg) : item :=
  match a with
  | AInt v => IInt v
  | ALong v => IArray [IInt v]
  | ADouble b => IFloat64 b
  | AStr s => IText (match s with Some s => s | None => str "(null)" end)
  end.
Definition compact_item (offset : Z) (args : list larg) : item := IArray (IInt offset :: map arg_item args).
Definition arg_ok (a : larg) : Prop :=
  match a with
  | AInt v => is_s32 v
  | ALong v => is_s64 v
  | ADouble b => is_u64 b
  | AStr s => match s with Some s => bytes s /\ zlen s < 65536 | None => True end
  end.
