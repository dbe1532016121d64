(** C60: the demo shell. *)
From Coq Require Import String.
From Verif Require Import Base DemoShell DemoShellSpec DemoShellProofs.

(** Whatever is typed, in any number of lines, with any characters: the shell never leaves its buffer
    and does exactly what the specification says: echoes, calls handlers with the words of each line,
    prompts. *)
Theorem C60_shell_does_what_is_typed size names l : 0 < size ->
  exists s', sh_run size names l (fst (sh_boot size)) = Some (s', typing size names [] (line_ends l)) /\
             snd (sh_boot size) ++ typing size names [] (line_ends l) = session size names l.
Proof. intros H. exact (shell_session size names H l). Qed.
Print Assumptions C60_shell_does_what_is_typed.

(** In particular an ordinary line that fits, ended by CR or LF, is echoed and its command called once. *)
Theorem C60_a_line_runs_its_command size names text e : 0 < size -> Forall (fun c => c <> 8 /\ c <> 10 /\ c <> 13) text ->
  zlen text + 1 < size -> e = 10 \/ e = 13 ->
  exists s', sh_run size names (text ++ [e]) (fst (sh_boot size)) = Some (s', shown (text ++ [10]) ++ line_done names text).
Proof.
  intros H P L D. destruct (shell_session size names H (text ++ [e])) as (s' & E & _). exists s'. rewrite E.
  rewrite (line_ends_plain text e P D). now rewrite (typing_plain size names text [] P) by (change (zlen (@nil Z)) with 0; lia).
Qed.
Print Assumptions C60_a_line_runs_its_command.

(** Nothing happens before the shell is booted. *)
Theorem C60_silent_before_boot size names l : exists s', sh_run size names l (sh_off size) = Some (s', []).
Proof. exact (shell_off size names l). Qed.
Print Assumptions C60_silent_before_boot.

Definition calls (l : list sh_event) : list (Z * list (list Z)) :=
  flat_map (fun e => match e with SCall k a => [(k, a)] | SOut _ => [] end) l.
Definition ex_names : list (list Z) := [str "help"; str "export"; str "get"].
(** CR LF, rubbing out, spaces, an unknown command. *)
Example C60_case :
  match sh_run 64 ex_names (str "get  ax" ++ [8] ++ str " b " ++ [13; 10] ++ str "exporT" ++ [13; 10] ++ str "help" ++ [13]) (fst (sh_boot 64)) with
  | Some (_, e) => calls e = [(2, [str "get"; str "a"; str "b"]); (0, [str "help"])]
  | None => False
  end.
Proof. vm_compute. reflexivity. Qed.

(** What is not true: only the beginnings of lines are commands.  A line longer than the buffer loses
    the character that fills the buffer and what follows it is run as a command of its own. *)
Theorem C60_only_line_starts_are_commands_refuted : ~ (forall size names text s' e, 0 < size ->
  Forall (fun c => c <> 8 /\ c <> 10 /\ c <> 13) text ->
  sh_run size names (text ++ [10]) (fst (sh_boot size)) = Some (s', e) ->
  forall k w ws, In (k, w :: ws) (calls e) -> exists rest, text = w ++ rest).
Proof.
  intros H. set (text := str "export ab help").
  assert (A : match sh_run 10 ex_names (text ++ [10]) (fst (sh_boot 10)) with
              | Some (_, e) => In (0, [str "help"]) (calls e) | None => False end) by (vm_compute; right; left; reflexivity).
  destruct (sh_run 10 ex_names (text ++ [10]) (fst (sh_boot 10))) as [[s' e]|] eqn:E; [|exact A].
  destruct (H 10 ex_names text s' e ltac:(lia)) with (k := 0) (w := str "help") (ws := @nil (list Z)) as (rest & R); [|exact E|exact A|].
  - unfold text. repeat (apply Forall_cons; [cbn; lia|]). apply Forall_nil.
  - discriminate R.
Qed.
Print Assumptions C60_only_line_starts_are_commands_refuted.
