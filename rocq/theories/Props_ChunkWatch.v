(** C130: the watcher that runs the command a device prints. *)
From Coq Require Import String.
From Verif Require Import Base EclipsePatch EclipsePatchSpec EclipsePatchProofs ChunkWatch ChunkWatchSpec ChunkWatchProofs.
Open Scope string_scope.
Open Scope list_scope.
Open Scope Z_scope.

(** However the output arrives in pieces: if a command is printed once, from the first mark to the first end mark, it is found
    exactly once, whole, and what is run, if the answer is yes, is it; with the placeholder of the key it is never run. *)
Theorem C130_once pieces yes pre body post :
  concat pieces = pre ++ str "echo \" ++ body ++ str "print_chunk done" ++ post ->
  first_after (str "echo \") (concat pieces) pre -> first_after (str "print_chunk done") (concat pieces) (pre ++ str "echo \" ++ body) ->
  ~ occurs (str "echo \") post ->
  let cmd := str "echo \" ++ body in
  (occurs (str "<YOUR PROJECT KEY HERE>") cmd -> watch 0 [] (map (fun p => (p, yes)) pieces) = [NoKey]) /\
  (~ occurs (str "<YOUR PROJECT KEY HERE>") cmd ->
   watch 0 [] (map (fun p => (p, yes)) pieces) = [if yes then Ran (script cmd) else Skipped (script cmd)]).
Proof.
  intros E Fe Fd N cmd. rewrite E in Fe, Fd.
  assert (W : watch 0 [] (map (fun p => (p, yes)) pieces) = [outcome cmd yes]).
  { apply (watch_once yes pre body post pieces []); auto. rewrite !app_length. cbn. lia. }
  rewrite W. unfold outcome. pose proof (contains_spec no_key cmd) as C. split; intros K.
  - destruct (contains no_key cmd); [reflexivity|]. exfalso. assert (false = true) by (apply C; exact K). discriminate.
  - destruct (contains no_key cmd); [|reflexivity]. exfalso. apply K. apply C. reflexivity.
Qed.
Print Assumptions C130_once.

(** What is run are the lines of the command that are not empty, however they end, each ended by LF. *)
Theorem C130_script cmd ls : lines_of cmd ls ->
  script cmd = concat (map (fun l => l ++ [10]) (filter (fun l => negb (zlen l =? 0)) ls)).
Proof.
  intros L. unfold script. rewrite (split_ok _ _ L). rewrite flat_map_concat_map. f_equal. f_equal. clear L.
  induction ls as [|l ls IH]; [reflexivity|]. cbn [filter]. rewrite IH. destruct l as [|c l]; [reflexivity|]. rewrite zlen_cons. pose proof (zlen_nonneg l).
  destruct (Z.eqb_spec (1 + zlen l) 0); [lia|reflexivity].
Qed.
Print Assumptions C130_script.

(** As long as either mark is missing, nothing is asked and nothing is run. *)
Theorem C130_quiet idx stream yes : ~ occurs (str "echo \") (skipn idx stream) \/ ~ occurs (str "print_chunk done") (skipn idx stream) ->
  submit idx stream yes = (idx, []).
Proof.
  intros H. unfold submit. destruct (find e_mark _) as [a|] eqn:Fa; [|reflexivity]. destruct (find d_mark _) as [b|] eqn:Fb; [|reflexivity]. exfalso.
  destruct (find_some _ _ _ Fa) as (A & _). destruct (find_some _ _ _ Fb) as (B & _). destruct H as [H|H]; apply H; eexists _, _; eassumption.
Qed.
Print Assumptions C130_quiet.

(** Not every command is found: of two that arrive in one piece, the second is dropped; and so is one that arrives with an end
    mark in front, an empty command being asked about and run instead. *)
Theorem C130_every_refuted :
  let one := str "echo \" ++ 10 :: str "a|b" ++ 10 :: str "print_chunk done" in
  watch 0 [] [(one, true); (one, true)] = [Ran (str "echo \" ++ 10 :: str "a|b" ++ [10]); Ran (str "echo \" ++ 10 :: str "a|b" ++ [10])] /\
  watch 0 [] [(one ++ one, true)] = [Ran (str "echo \" ++ 10 :: str "a|b" ++ [10])] /\
  watch 0 [] [(str "print_chunk done" ++ one, true)] = [Ran []].
Proof. vm_compute. auto. Qed.
Print Assumptions C130_every_refuted.

(** A command in three pieces, the marks cut in two, with line ends of three kinds. *)
Example C130_case :
  let text := str "boot" ++ 13 :: 10 :: str "echo \" ++ 13 :: 10 :: str "a|\" ++ 13 :: 13 :: 10 :: str "b" ++ 10 :: str "print_chunk done> " in
  watch 0 [] [(firstn 9 text, true); (firstn 20 (skipn 9 text), true); (skipn 29 text, true)] = [Ran (str "echo \" ++ 10 :: str "a|\" ++ 10 :: str "b" ++ [10])] /\
  List.length (firstn 20 (skipn 9 text)) = 20%nat.
Proof. vm_compute. auto. Qed.
Example C130_case_lines : lines_of (str "a" ++ 13 :: 13 :: 10 :: str "b") [str "a"; []; str "b"].
Proof.
  assert (A : forall c, 97 <= c <= 98 -> one_line [c]) by (intros c H; constructor; [lia|constructor]).
  apply (LO_line (str "a") [13] (13 :: 10 :: str "b") [[]; str "b"]); [apply (A 97); lia|right; left; reflexivity|intros _; cbn; lia|].
  apply (LO_line [] [13; 10] (str "b") [str "b"]); [constructor|right; right; reflexivity|discriminate|].
  apply LO_last; [discriminate|apply (A 98); lia].
Qed.
