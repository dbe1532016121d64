(** Threads that share memory and one lock, and all their interleavings.

    A call is a program of single accesses to the shared state; memfault_lock() and memfault_unlock()
    (components/include/memfault/core/platform/overrides.h:18-29) are the programs' [Lock] and
    [Unlock].  Between any two accesses any other thread may run, also while the lock is held: only
    [Lock] waits.  Simplifications: memory is sequentially consistent (tasks of one core that preempt
    each other); the mutex is not recursive (no modelled call takes it twice). *)
From Verif Require Import Base.

Inductive prog (S A : Type) : Type :=
| Ret (a : A)
| Lock (k : prog S A)
| Unlock (k : prog S A)
| Act (X : Type) (f : S -> option (X * S)) (k : X -> prog S A).       (* [None]: access out of bounds *)
Arguments Ret {S A}. Arguments Lock {S A}. Arguments Unlock {S A}. Arguments Act {S A X}.

Fixpoint pbind {S A B} (p : prog S A) (q : A -> prog S B) : prog S B :=
  match p with
  | Ret a => q a
  | Lock k => Lock (pbind k q)
  | Unlock k => Unlock (pbind k q)
  | Act f k => Act f (fun x => pbind (k x) q)
  end.
Notation "'let*' x ':=' p 'in' q" := (pbind p (fun x => q)) (at level 200, x binder, p at level 100, q at level 200).
Notation "p ';;' q" := (pbind p (fun _ => q)) (at level 100, q at level 200, right associativity).
Definition lock {S} : prog S unit := Lock (Ret tt).
Definition unlock {S} : prog S unit := Unlock (Ret tt).
(** One read, and one write, of a shared variable. *)
Definition fetch {S A} (f : S -> A) : prog S A := Act (fun s => Some (f s, s)) Ret.
Definition change {S} (f : S -> S) : prog S unit := Act (fun s => Some (tt, f s)) Ret.
(** A fault: an access out of bounds (also: a loop of the model out of fuel). *)
Definition fault {S A} : prog S A := Act (X := A) (fun _ => None) Ret.

(** ** Machines *)
(** What is seen of the calls: thread, call, result. *)
Inductive event (Op R : Type) := Inv (t : nat) (o : Op) | Res (t : nat) (o : Op) (r : R).
Arguments Inv {Op R}. Arguments Res {Op R}.
Record mach (S Op R : Type) := mk_mach {
  m_shared : S; m_owner : option nat; m_thread : nat -> option (Op * prog S R); m_hist : list (event Op R) }.
Arguments mk_mach {S Op R}. Arguments m_shared {S Op R}. Arguments m_owner {S Op R}.
Arguments m_thread {S Op R}. Arguments m_hist {S Op R}.
Definition upd {T} (f : nat -> T) (t : nat) (x : T) : nat -> T := fun u => if Nat.eqb u t then x else f u.
Definition start_mach {S Op R} (s : S) : mach S Op R := mk_mach s None (fun _ => None) [].

(** One item of a schedule: a thread begins a call, or makes its next access. *)
Inductive item (Op : Type) := Start (t : nat) (o : Op) | Step (t : nat).
Arguments Start {Op}. Arguments Step {Op}.

(** An item that does not apply (a call begun while another one runs, a step of an idle thread or of
    one waiting for the lock) changes nothing.  [None]: a fault, or an unlock by another thread. *)
Definition mach_step {S Op R} (code : Op -> prog S R) (m : mach S Op R) (i : item Op) : option (mach S Op R) :=
  match i with
  | Start t o =>
      match m_thread m t with
      | Some _ => Some m
      | None => Some (mk_mach (m_shared m) (m_owner m) (upd (m_thread m) t (Some (o, code o))) (m_hist m ++ [Inv t o]))
      end
  | Step t =>
      match m_thread m t with
      | None => Some m
      | Some (o, Ret r) => Some (mk_mach (m_shared m) (m_owner m) (upd (m_thread m) t None) (m_hist m ++ [Res t o r]))
      | Some (o, Lock k) =>
          match m_owner m with
          | Some _ => Some m
          | None => Some (mk_mach (m_shared m) (Some t) (upd (m_thread m) t (Some (o, k))) (m_hist m))
          end
      | Some (o, Unlock k) =>
          match m_owner m with
          | Some u => if Nat.eqb u t then Some (mk_mach (m_shared m) None (upd (m_thread m) t (Some (o, k))) (m_hist m)) else None
          | None => None
          end
      | Some (o, Act f k) =>
          match f (m_shared m) with
          | Some (x, s) => Some (mk_mach s (m_owner m) (upd (m_thread m) t (Some (o, k x))) (m_hist m))
          | None => None
          end
      end
  end.
Fixpoint mach_run {S Op R} (code : Op -> prog S R) (m : mach S Op R) (l : list (item Op)) : option (mach S Op R) :=
  match l with [] => Some m | i :: r => do m <- mach_step code m i; mach_run code m r end.
