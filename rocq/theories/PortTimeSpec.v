(** Independent specification of system time: the Gregorian calendar. *)
From Verif Require Import Base PortTime.

Definition leap (y : Z) : bool := (y mod 4 =? 0) && (negb (y mod 100 =? 0) || (y mod 400 =? 0)).
Definition year_days (y : Z) : Z := if leap y then 366 else 365.
(** Leap years up to a year, and the days from 1970 to a year. *)
Definition leaps (y : Z) : Z := y / 4 - y / 100 + y / 400.
Definition year_starts (y : Z) : Z := 365 * (y - 1970) + leaps (y - 1) - leaps 1969.
Definition month_days (y : Z) (m : Z) : Z :=
  match m with
  | 1 => if leap y then 29 else 28
  | 3 | 5 | 8 | 10 => 30
  | _ => 31
  end.
Fixpoint days_before (y : Z) (months : nat) : Z :=
  match months with O => 0 | S m => days_before y m + month_days y (Z.of_nat m) end.
(** A date and time of day that exists, and its second since 1970 in UTC. *)
Definition exists_tm (t : tm) : Prop :=
  0 <= tm_mon t < 12 /\ 1 <= tm_mday t <= month_days (tm_year t + 1900) (tm_mon t) /\
  0 <= tm_hour t < 24 /\ 0 <= tm_min t < 60 /\ 0 <= tm_sec t < 60.
Definition instant (t : tm) : Z :=
  86400 * (year_starts (tm_year t + 1900) + days_before (tm_year t + 1900) (Z.to_nat (tm_mon t)) + tm_mday t - 1) +
  3600 * tm_hour t + 60 * tm_min t + tm_sec t.
Definition year_second (y : Z) : Z := 86400 * year_starts y.

(** The C library: gmtime breaks an instant down, mktime puts one together (time zone UTC). *)
Definition gmtime_ok (gmtime : Z -> option tm) (s : Z) : Prop :=
  exists t, gmtime s = Some t /\ exists_tm t /\ instant t = s.
Definition mktime_ok (mktime : tm -> Z) : Prop := forall t, exists_tm t -> mktime t = instant t.

(** The library has the time: it announced it and has not announced its loss since. *)
Definition has_time (events : list bool) : bool := last events false.
