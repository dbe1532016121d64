(** Specification of periodic uploads. *)
From Verif Require Import Base PortUpload.

(** One check at a time, in order of time. *)
Fixpoint one_by_one (from : Z) (l : list (Z * Z)) : Prop :=
  match l with
  | [] => True
  | (s, e) :: r => from <= s <= e /\ one_by_one e r
  end.
(** The check that begins at [s] is for the expiry at [t]: it begins at once, or as the check ends that is
    running then. *)
Definition serves (l : list (Z * Z)) (t s : Z) : Prop := s = t \/ exists b, In (b, s) l /\ b <= t < s.

(** The documentation: the first check between 60 and 60 + interval seconds, the others at intervals. *)
Definition as_documented (interval first : Z) : Prop := 60 <= first <= 60 + interval.
Fixpoint at_intervals (interval : Z) (l : list Z) : Prop :=
  match l with
  | a :: ((b :: _) as r) => b = a + interval /\ at_intervals interval r
  | _ => True
  end.

(** ESP-IDF: each turn begins [delay] after the work of the one before it has ended. *)
Fixpoint spaced (delay : Z) (l : list turn) (ts : list Z) : Prop :=
  match l, ts with
  | [], [] => True
  | x :: l, a :: ts => (match ts with b :: _ => b = a + tn_work x + delay | [] => l = [] end) /\ spaced delay l ts
  | _, _ => False
  end.
(** A turn posts exactly when there is a connection, the logs, if wanted, being frozen before and updates
    looked for after. *)
Definition does (ota : bool) (x : turn) (a : list act) : Prop :=
  if tn_conn x then exists p q, a = p ++ APost :: q /\ p = (if tn_logs x then [ALogs] else []) /\ q = (if ota then [AOta] else [])
  else a = [].
