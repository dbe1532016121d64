(** What clocks and heartbeat timers should do, independent of the code. *)
From Verif Require Import Base.

(** The true ticks at each call never go down, by less than [lim] from one to the next. *)
Fixpoint slow (lim prev : Z) (l : list Z) : Prop :=
  match l with
  | [] => True
  | x :: l' => 0 <= x - prev < lim /\ slow lim x l'
  end.

(** [ms] is the time of [t] ticks at [hz] in whole milliseconds. *)
Definition ms_exact (hz t ms : Z) : Prop := ms * hz <= 1000 * t < (ms + 1) * hz.
(** [ms] is never ahead, and behind by less than a millisecond and one millisecond in 2^16 ticks. *)
Definition ms_close (hz t ms : Z) : Prop := ms * hz <= 1000 * t /\ (1000 * t - ms * hz) * 65536 < hz * (t + 65536).

(** Every [k]-th of a sequence, counted from 1. *)
Fixpoint every (k n : Z) (count : nat) : list bool :=
  match count with
  | 0%nat => []
  | S c => (n mod k =? 0) :: every k (n + 1) c
  end.
