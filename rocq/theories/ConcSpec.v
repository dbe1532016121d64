(** Independent specification of concurrent calls: linearizability.  Each call seems to happen at one
    point between its beginning and its end, in an order in which a sequential object gives the same
    results. *)
From Verif Require Import Base Conc.

(** A history with the points added: [Lin t o r], the call [o] of thread [t] happens with result [r]. *)
Inductive mark (Op R : Type) := MInv (t : nat) (o : Op) | MLin (t : nat) (o : Op) (r : R) | MRes (t : nat) (o : Op) (r : R).
Arguments MInv {Op R}. Arguments MLin {Op R}. Arguments MRes {Op R}.
Definition seen {Op R} (m : mark Op R) : list (event Op R) :=
  match m with MInv t o => [Inv t o] | MLin _ _ _ => [] | MRes t o r => [Res t o r] end.
Definition by_thread {Op R} (t : nat) (m : mark Op R) : bool :=
  match m with MInv u _ | MLin u _ _ | MRes u _ _ => Nat.eqb u t end.
(** The marks of one thread: call after call, each with its point inside; the last one may not have
    returned, or not have happened. *)
Inductive calls {Op R} (t : nat) : list (mark Op R) -> Prop :=
| c_none : calls t []
| c_begun o : calls t [MInv t o]
| c_happened o r : calls t [MInv t o; MLin t o r]
| c_call o r l : calls t l -> calls t (MInv t o :: MLin t o r :: MRes t o r :: l).
(** The points, in order, are calls of the sequential object. *)
Inductive sequential {V Op R} (spec : V -> Op -> option (R * V)) : V -> list (mark Op R) -> V -> Prop :=
| s_nil v : sequential spec v [] v
| s_inv v t o l v' : sequential spec v l v' -> sequential spec v (MInv t o :: l) v'
| s_res v t o r l v' : sequential spec v l v' -> sequential spec v (MRes t o r :: l) v'
| s_lin v t o r v1 l v' : spec v o = Some (r, v1) -> sequential spec v1 l v' -> sequential spec v (MLin t o r :: l) v'.
Definition linearizable {V Op R} (spec : V -> Op -> option (R * V)) (v : V) (h : list (event Op R)) : Prop :=
  exists a v', flat_map seen a = h /\ (forall t, calls t (filter (by_thread t) a)) /\ sequential spec v a v'.

(** The calls a thread has completed. *)
Definition done {Op R} (t : nat) (h : list (event Op R)) : list (Op * R) :=
  flat_map (fun e => match e with Res u o r => if Nat.eqb u t then [(o, r)] else [] | Inv _ _ => [] end) h.
(** Every call that begins is one the thread may make after those it has completed. *)
Fixpoint legal_run {S Op R} (code : Op -> prog S R) (legal : nat -> list (Op * R) -> Op -> Prop)
    (m : mach S Op R) (l : list (item Op)) : Prop :=
  match l with
  | [] => True
  | i :: r =>
      match i with
      | Start t o => m_thread m t = None -> legal t (done t (m_hist m)) o
      | Step _ => True
      end /\ (forall m', mach_step code m i = Some m' -> legal_run code legal m' r)
  end.
(** A thread waits for the lock; with threads inside calls, not all of them wait. *)
Definition waits {S Op R} (m : mach S Op R) (t : nat) : Prop :=
  m_owner m <> None /\ exists o k, m_thread m t = Some (o, Lock k).
Definition no_deadlock {S Op R} (m : mach S Op R) : Prop :=
  forall t, m_thread m t <> None -> exists u, m_thread m u <> None /\ ~ waits m u.
