(** What the metrics of the ports should be, independent of the code. *)
From Verif Require Import Base.

(** Processor usage over an interval, in hundredths of a percent: of [total] time units [idle] were idle
    (the idle task's counter can run ahead of the total; then all of the interval was idle). *)
Definition usage_expected (idle total : Z) : option Z :=
  if total =? 0 then None else Some (10000 - 10000 * Z.min idle total / total).

(** The reports for a sequence of true (never wrapping) counters, each since the previous one. *)
Fixpoint usages_expected (split : bool) (prev : Z * Z * Z) (l : list (Z * Z * Z)) : list (option Z * option Z) :=
  match l with
  | [] => []
  | (i0, i1, t) :: l' =>
      let '(p0, p1, pt) := prev in
      (usage_expected (i0 - p0) (t - pt), if split then usage_expected (i1 - p1) (t - pt) else None)
      :: usages_expected split (i0, i1, t) l'
  end.

(** Counters that never go down, by less than [lim] from one sample to the next. *)
Fixpoint slow3 (lim : Z) (prev : Z * Z * Z) (l : list (Z * Z * Z)) : Prop :=
  match l with
  | [] => True
  | (a, b, c) :: l' =>
      let '(pa, pb, pc) := prev in
      (0 <= a - pa < lim /\ 0 <= b - pb < lim /\ 0 <= c - pc < lim) /\ slow3 lim (a, b, c) l'
  end.

(** What a counter of [w] bits shows. *)
Definition seen (w : Z) (x : Z * Z * Z) : Z * Z * Z := let '(a, b, c) := x in (a mod 2^w, b mod 2^w, c mod 2^w).

(** Zephyr: cycles of the timer's thread, of all threads, and the part of it that was not idle. *)
Fixpoint zreports_expected (prev : Z * Z * Z) (l : list (Z * Z * Z)) : list (Z * Z * Z) :=
  match l with
  | [] => []
  | (t, a, b) :: l' =>
      let '(pt, pa, pb) := prev in (t - pt, a - pa, 10000 * (b - pb) / (a - pa)) :: zreports_expected (t, a, b) l'
  end.
(** The system ran, was busy for no longer than it ran, and the timer's thread too. *)
Fixpoint zsamples_ok (lim : Z) (prev : Z * Z * Z) (l : list (Z * Z * Z)) : Prop :=
  match l with
  | [] => True
  | (t, a, b) :: l' =>
      let '(pt, pa, pb) := prev in
      (0 <= t - pt <= a - pa /\ 0 < a - pa < lim /\ 0 <= b - pb <= a - pa) /\ zsamples_ok lim (t, a, b) l'
  end.

(** Part of a whole in 1/[n] of it, rounded down. *)
Definition is_part (n part whole v : Z) : Prop := 0 < whole /\ v * whole <= n * part < (v + 1) * whole.

(** The value a sequence of settings leaves a metric with. *)
Fixpoint left_with (key : Z) (l : list (Z * Z)) : option Z :=
  match l with
  | [] => None
  | (k, v) :: l' => match left_with key l' with Some x => Some x | None => if k =? key then Some v else None end
  end.
