(** What the self test may expect of a port. *)
From Verif Require Import Base PortSelfTest.

(** every "off" has its "on" *)
Inductive paired : list call -> Prop :=
| pa_nil : paired []
| pa_wrap l : paired l -> paired (Off :: l ++ [On])
| pa_app a b : paired a -> paired b -> paired (a ++ b).
(** one at a time *)
Inductive one_by_one : list call -> Prop :=
| ob_nil : one_by_one []
| ob_cons l : one_by_one l -> one_by_one (Off :: On :: l).

Definition core_at (s : esp) (i : Z) : option core := get (s_cores s) i.
(** only [me] runs *)
Definition alone (me : Z) (s : esp) : Prop :=
  0 < s_nest s /\ (forall i c, core_at s i = Some c -> i <> me -> c_stalled c = true).
(** every core runs *)
Definition all_run (s : esp) : Prop := forall i c, core_at s i = Some c -> c_stalled c = false.
