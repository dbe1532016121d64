(** Model of ports/mynewt/src/memfault_shell.c: the `mflt` command of the Mynewt shell.

    What a command does is the list of calls it makes, each with whether interrupts are enabled; console output
    is left out but for the lines of the help.  A string is its bytes without the terminating 0. *)
From Coq Require Import String.
From Verif Require Import Base.
Open Scope string_scope. Open Scope list_scope. Open Scope Z_scope.

(** the SDK's functions called *)
Inductive act :=
| ALog (level : Z) | AStorageBegin | AStorageFinish | AHeartbeat | ATrace | AReboot | AMarkReset | AAssert
| AJump (addr : Z) | AExport | ASay (line : list Z).
(** how a command ends *)
Inductive outcome := Ret (code : Z) | Gone | Hangs.
Record st := mk_st { irqs : bool; calls : list (act * bool) }.
Definition do_ (a : act) (s : st) : st := mk_st (irqs s) (calls s ++ [(a, irqs s)]).
Definition set_irqs (b : bool) (s : st) : st := mk_st b (calls s).

(** SYS_EOK, SYS_EINVAL of Mynewt's syscfg *)
Definition EOK := 0.
Definition EINVAL := -2.
(** :70-76 *)
Definition test_logging (s : st) := (do_ (ALog 3) (do_ (ALog 2) (do_ (ALog 1) (do_ (ALog 0) s))), Ret 0).
(** :79-89; __HAL_DISABLE_INTERRUPTS keeps the state in [sr], __HAL_ENABLE_INTERRUPTS goes back to it *)
Definition test_coredump_storage (s : st) :=
  let sr := irqs s in
  let s := do_ AStorageBegin (set_irqs false s) in
  let s := if sr then set_irqs true s else s in
  (do_ AStorageFinish s, Ret 0).
(** :97-100 *)
Definition test_heartbeat (s : st) := (do_ AHeartbeat s, Ret 0).
(** :102-105 *)
Definition test_trace (s : st) := (do_ ATrace s, Ret 0).
(** :108-111; the line that marks the reset is a comment *)
Definition test_reboot (s : st) := (do_ AReboot s, Gone).
(** :117-120 *)
Definition test_assert (s : st) := (do_ AAssert s, Gone).
(** :122-126 *)
Definition test_fault (s : st) := (do_ (AJump 0xEEEEDEAD) s, Gone).
(** :128-131 *)
Definition test_hang (s : st) := (s, Hangs).
(** :134-137 *)
Definition test_export (s : st) := (do_ AExport s, Ret 0).

(** :148-154 *)
Definition subcommands : list (list Z * (st -> st * outcome)) :=
  [(str "logging", test_logging); (str "coredump_storage", test_coredump_storage); (str "heartbeat", test_heartbeat);
   (str "trace", test_trace); (str "reboot", test_reboot); (str "assert", test_assert); (str "fault", test_fault);
   (str "hang", test_hang); (str "export", test_export)].
(** the names that start the lines of the help, :48-64 *)
Definition help_names : list (list Z) :=
  [str "logging"; str "coredump_storage"; str "heartbeat"; str "trace"; str "reboot"; str "assert"; str "fault"; str "hang"; str "export"].
Definition help (s : st) : st * outcome := (fold_left (fun s n => do_ (ASay n) s) help_names s, Ret EOK).

Fixpoint same (a b : list Z) : bool :=
  match a, b with [], [] => true | x :: a, y :: b => (x =? y) && same a b | _, _ => false end.
(** :156-160 *)
Fixpoint find_cmd (name : list Z) (l : list (list Z * (st -> st * outcome))) : option (st -> st * outcome) :=
  match l with [] => None | (n, f) :: l => if same name n then Some f else find_cmd name l end.
(** :139-163, :43-46; [argv] without the command's own name *)
Definition shell_cmd (argv : list (list Z)) (s : st) : st * outcome :=
  match argv with
  | [] => help s
  | a :: _ => match find_cmd a subcommands with Some f => f s | None => (s, Ret EINVAL) end
  end.
