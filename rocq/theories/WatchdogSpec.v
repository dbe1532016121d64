(** What the task watchdog promises, in terms of the history of calls with their true times
    (task_watchdog.h:33-60).  Histories are newest first. *)
From Verif Require Import Base Watchdog.

(** Is channel [i] running: its last start or stop was a start. *)
Fixpoint running (i : nat) (past : list (Z * wd_op)) : bool :=
  match past with
  | [] => false
  | (_, WStart j) :: r => if Nat.eqb i j then true else running i r
  | (_, WStop j) :: r => if Nat.eqb i j then false else running i r
  | _ :: r => running i r
  end.
(** When channel [i] was last started or fed (0 when it never was). *)
Fixpoint last_fed (i : nat) (past : list (Z * wd_op)) : Z :=
  match past with
  | [] => 0
  | (t, WStart j) :: r => if Nat.eqb i j then t else last_fed i r
  | (t, WFeed j) :: r => if Nat.eqb i j then t else last_fed i r
  | _ :: r => last_fed i r
  end.
(** Channel [i] is overdue at time [t]. *)
Definition overdue (timeout : Z) (past : list (Z * wd_op)) (t : Z) (i : nat) : bool :=
  running i past && (timeout <? t - last_fed i past).
(** Some channel out of [n] is overdue. *)
Definition any_overdue (timeout : Z) (n : nat) (past : list (Z * wd_op)) (t : Z) : bool :=
  existsb (overdue timeout past t) (seq 0 n).

(** Channels exist, times do not go backwards, and no running channel is checked across a wrap of
    the 32-bit millisecond counter: at every check each running channel was last fed in the same
    49.7 day period. *)
Definition channel_of (o : wd_op) : option nat :=
  match o with WStart i | WFeed i | WStop i => Some i | _ => None end.
Definition op_fine (n : nat) (past : list (Z * wd_op)) (t : Z) (o : wd_op) : Prop :=
  0 <= t /\
  match channel_of o with Some i => (i < n)%nat | None => True end /\
  match past with [] => True | (t0, _) :: _ => t0 <= t end /\
  (o = WCheck -> forall i, (i < n)%nat -> running i past = true ->
     last_fed i past / 4294967296 = t / 4294967296).
Fixpoint ops_fine (n : nat) (past ops : list (Z * wd_op)) : Prop :=
  match ops with
  | [] => True
  | (t, o) :: r => op_fine n past t o /\ ops_fine n ((t, o) :: past) r
  end.

(** A check panics exactly when some channel is overdue. *)
Fixpoint answers (timeout : Z) (n : nat) (past ops : list (Z * wd_op)) : list wd_res :=
  match ops with
  | [] => []
  | (t, o) :: r =>
      match o with
      | WCheck => if any_overdue timeout n past t then WPanic else WRefresh
      | _ => WDone
      end :: answers timeout n ((t, o) :: past) r
  end.
