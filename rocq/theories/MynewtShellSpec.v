(** What the commands of the Mynewt shell should do. *)
From Coq Require Import String.
From Verif Require Import Base MynewtShell.
Open Scope string_scope. Open Scope list_scope. Open Scope Z_scope.

(** name, calls and end; a call is made with interrupts as they are, or ([false]) with interrupts off *)
Definition manual : list (list Z * list (act * bool) * outcome) :=
  [(str "logging", [(ALog 0, true); (ALog 1, true); (ALog 2, true); (ALog 3, true)], Ret 0);
   (str "coredump_storage", [(AStorageBegin, false); (AStorageFinish, true)], Ret 0);
   (str "heartbeat", [(AHeartbeat, true)], Ret 0);
   (str "trace", [(ATrace, true)], Ret 0);
   (str "reboot", [(AReboot, true)], Gone);
   (str "assert", [(AAssert, true)], Gone);
   (str "fault", [(AJump 4008631981, true)], Gone);
   (str "hang", [], Hangs);
   (str "export", [(AExport, true)], Ret 0)].
Definition with_irqs (i : bool) (l : list (act * bool)) : list (act * bool) := map (fun x => (fst x, snd x && i)) l.
Definition said (l : list (act * bool)) : list (list Z) := flat_map (fun x => match fst x with ASay n => [n] | _ => [] end) l.
