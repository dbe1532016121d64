(** What a write to flash shall do. *)
From Verif Require Import Base.

(** The flash [g] is [f] with [data] written at [dest], and nothing else. *)
Definition written (prog : Z -> Z -> Z) (f g : Z -> Z) (dest : Z) (data : list Z) : Prop :=
  forall x, (dest <= x < dest + zlen data -> exists b, get data (x - dest) = Some b /\ g x = prog (f x) b) /\
            (~ dest <= x < dest + zlen data -> g x = f x).
