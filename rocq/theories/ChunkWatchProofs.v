(** Proofs about the watcher. *)
From Coq Require Import String.
From Verif Require Import Base EclipsePatch EclipsePatchSpec EclipsePatchProofs ChunkWatch ChunkWatchSpec.
Open Scope string_scope.
Open Scope list_scope.
Open Scope Z_scope.

Lemma find_some p s n : find p s = Some n -> s = firstn n s ++ p ++ skipn (n + List.length p) s /\ (n <= List.length s)%nat /\
  forall a' b', s = a' ++ p ++ b' -> (n <= List.length a')%nat.
Proof.
  revert n. induction s as [|c s IH]; intros n; cbn [find]; destruct (starts p _) eqn:E.
  1,3: intros H; injection H as <-; apply starts_spec in E as (b & E); rewrite E; cbn [firstn app Nat.add];
       (split; [rewrite skipn_app, skipn_all, Nat.sub_diag; reflexivity|split; [lia|intros; lia]]).
  - discriminate.
  - destruct (find p s) as [m|] eqn:F; [|discriminate]. cbn [option_map]. intros H. injection H as <-.
    destruct (IH m eq_refl) as (A & L & B). cbn [firstn app Nat.add skipn List.length]. split; [f_equal; exact A|]. split; [lia|].
    intros a' b' H. destruct a' as [|x a'].
    + exfalso. assert (starts p (c :: s) = true) by (apply starts_spec; exists b'; exact H). congruence.
    + cbn in H. injection H as _ H. specialize (B a' b' H). cbn. lia.
Qed.
Lemma find_none p s : find p s = None -> ~ occurs p s.
Proof.
  induction s as [|c s IH]; cbn [find]; destruct (starts p _) eqn:E; try discriminate.
  - intros _ (a & b & H). destruct a; [|discriminate]. assert (starts p [] = true) by (apply starts_spec; exists b; exact H). congruence.
  - destruct (find p s) as [m|] eqn:F; [discriminate|]. intros _ (a & b & H). destruct a as [|x a].
    + assert (starts p (c :: s) = true) by (apply starts_spec; exists b; exact H). congruence.
    + cbn in H. injection H as _ H. apply (IH eq_refl). exists a, b. exact H.
Qed.
Lemma find_first p s a : first_after p s a -> find p s = Some (List.length a).
Proof.
  intros ((b & E) & M). destruct (find p s) as [n|] eqn:F.
  - destruct (find_some p s n F) as (A & L & B). specialize (B a b E). specialize (M _ _ A). unfold zlen in M. rewrite firstn_length_le in M by exact L. f_equal. lia.
  - exfalso. apply (find_none p s F). exists a, b. exact E.
Qed.
(** In a text that goes on *)
Lemma first_prefix p a b post : first_after p (a ++ p ++ b ++ post) a -> first_after p (a ++ p ++ b) a.
Proof.
  intros (_ & M). split; [exists b; reflexivity|]. intros a' b' E. apply (M a' (b' ++ post)).
  transitivity ((a ++ p ++ b) ++ post); [rewrite <- !app_assoc; reflexivity|]. rewrite E, <- !app_assoc. reflexivity.
Qed.

Lemma line_end_false c : ~ (10 <= c <= 13) /\ ~ (28 <= c <= 30) /\ c <> 133 /\ c <> 8232 /\ c <> 8233 -> line_end c = false.
Proof.
  intros (A & B & C & D & E). unfold line_end. repeat (apply orb_false_iff; split); try (apply Z.eqb_neq; assumption); apply andb_false_iff; rewrite !Z.leb_gt; lia.
Qed.
Lemma split_one l r cur : one_line l -> split_lines (l ++ r) cur = split_lines r (cur ++ l).
Proof.
  intros F. revert cur. induction F as [|c l C F IH]; intros cur; [rewrite app_nil_r; reflexivity|]. cbn [app split_lines].
  rewrite line_end_false by exact C. rewrite IH, <- app_assoc. reflexivity.
Qed.
Lemma split_ok s ls : lines_of s ls -> split_lines s [] = ls.
Proof.
  induction 1 as [|l N O|l e r ls O B H L IH]; [reflexivity| |].
  - rewrite <- (app_nil_r l) at 1. rewrite split_one by exact O. cbn [split_lines app]. destruct l; [congruence|reflexivity].
  - rewrite split_one by exact O. cbn [app]. destruct B as [->|[->| ->]]; cbn [app split_lines].
    + change (line_end 10) with true. cbv iota. rewrite IH. reflexivity.
    + change (line_end 13) with true. cbv iota. f_equal. specialize (H eq_refl). destruct r as [|x r]; [exact IH|]. cbn [hd] in H.
      destruct (Z.eq_dec x 10) as [->|Nx]; [congruence|]. rewrite <- IH. destruct x as [|[[[[]|[]|]|[[]|[]|]|]|[[[]|[]|]|[[]|[]|]|]|]|]; try reflexivity; congruence.
    + change (line_end 13) with true. cbv iota. rewrite IH. reflexivity.
Qed.

(** ** A growing stream *)
Lemma watch_none idx : forall pieces stream, (forall k, (k <= List.length pieces)%nat -> (1 <= k)%nat ->
    let s := skipn idx (stream ++ concat (map fst (firstn k pieces))) in ~ occurs e_mark s \/ ~ occurs d_mark s) ->
  watch idx stream pieces = [].
Proof.
  induction pieces as [|(p & yes) r IH]; intros stream H; [reflexivity|]. cbn [watch].
  assert (E : submit idx (stream ++ p) yes = (idx, [])).
  { specialize (H 1%nat ltac:(cbn; lia) ltac:(lia)). cbn [firstn map fst concat] in H. rewrite app_nil_r in H. cbv zeta in H. unfold submit.
    destruct (find e_mark _) as [a|] eqn:Fa; [|reflexivity]. destruct (find d_mark _) as [b|] eqn:Fb; [|reflexivity]. exfalso.
    destruct (find_some _ _ _ Fa) as (A & _). destruct (find_some _ _ _ Fb) as (B & _). destruct H as [H|H]; apply H; eexists _, _; eassumption. }
  rewrite E. cbn [app]. apply IH. intros k Hk Hk1. specialize (H (S k) ltac:(cbn; lia) ltac:(lia)). cbn [firstn map fst concat] in H.
  rewrite app_assoc in H. exact H.
Qed.
Lemma prefix_split {A} (s r x y : list A) : s ++ r = x ++ y -> (List.length x <= List.length s)%nat -> exists b, s = x ++ b /\ y = b ++ r.
Proof.
  revert s. induction x as [|c x IH]; intros s E L; [exists s; split; [reflexivity|symmetry; exact E]|].
  destruct s as [|d s]; [cbn in L; lia|]. cbn in E, L. injection E as -> E. destruct (IH s E ltac:(lia)) as (b & -> & ->). exists b. auto.
Qed.
Definition outcome (cmd : list Z) (yes : bool) : event := if contains no_key cmd then NoKey else if yes then Ran (script cmd) else Skipped (script cmd).
Lemma watch_once yes pre body post : forall pieces stream,
  let text := pre ++ e_mark ++ body ++ d_mark ++ post in
  stream ++ concat pieces = text -> first_after e_mark text pre -> first_after d_mark text (pre ++ e_mark ++ body) -> ~ occurs e_mark post ->
  (List.length stream < List.length (pre ++ e_mark ++ body ++ d_mark))%nat ->
  watch 0 stream (map (fun p => (p, yes)) pieces) = [outcome (e_mark ++ body) yes].
Proof.
  induction pieces as [|p r IH]; intros stream text E Fe Fd Np L.
  - exfalso. cbn in E. rewrite app_nil_r in E. subst stream text. rewrite !app_length in L. lia.
  - cbn [map watch]. cbn [concat] in E. rewrite app_assoc in E.
    destruct (Nat.lt_ge_cases (List.length (stream ++ p)) (List.length (pre ++ e_mark ++ body ++ d_mark))) as [Lt|Ge].
    + assert (N : submit 0 (stream ++ p) yes = (O, [])).
      { unfold submit. cbn [skipn]. destruct (find e_mark _); [|reflexivity]. destruct (find d_mark (stream ++ p)) as [b|] eqn:F; [|reflexivity]. exfalso.
        destruct (find_some _ _ _ F) as (A & _ & _). destruct Fd as (_ & M).
        specialize (M (firstn b (stream ++ p)) (skipn (b + List.length d_mark) (stream ++ p) ++ concat r)).
        rewrite <- E in M. rewrite A in M at 1. rewrite <- !app_assoc in M. specialize (M eq_refl). unfold zlen in M.
        pose proof (f_equal (@List.length Z) A) as K. rewrite !app_length in K. rewrite !app_length in *. lia. }
      rewrite N. cbn [app]. apply (IH (stream ++ p)); auto.
    + assert (T : text = (pre ++ e_mark ++ body ++ d_mark) ++ post) by (unfold text; rewrite <- !app_assoc; reflexivity).
      rewrite T in E. destruct (prefix_split _ _ _ _ E Ge) as (b & Es & Ep).
      assert (He : first_after e_mark (stream ++ p) pre).
      { rewrite Es, <- !app_assoc. apply (first_prefix e_mark pre (body ++ d_mark ++ b) (concat r)). unfold text in Fe. rewrite Ep in Fe.
        rewrite <- !app_assoc in *. exact Fe. }
      assert (Hd : first_after d_mark (stream ++ p) (pre ++ e_mark ++ body)).
      { replace (stream ++ p) with ((pre ++ e_mark ++ body) ++ d_mark ++ b) by (rewrite Es, <- !app_assoc; reflexivity).
        apply (first_prefix d_mark (pre ++ e_mark ++ body) b (concat r)). unfold text in Fd. rewrite Ep in Fd. rewrite <- !app_assoc in *. exact Fd. }
      unfold submit. cbn [skipn]. rewrite (find_first _ _ _ He), (find_first _ _ _ Hd).
      replace (skipn (List.length pre) (firstn (List.length (pre ++ e_mark ++ body)) (stream ++ p))) with (e_mark ++ body).
      2:{ rewrite Es. replace ((pre ++ e_mark ++ body ++ d_mark) ++ b) with ((pre ++ e_mark ++ body) ++ (d_mark ++ b)) by (rewrite <- !app_assoc; reflexivity).
          rewrite firstn_app, firstn_all, Nat.sub_diag, firstn_O, app_nil_r, skipn_app, skipn_all, Nat.sub_diag. reflexivity. }
      cbn [app]. fold (outcome (e_mark ++ body) yes). f_equal. apply watch_none. intros k Hk _. cbv zeta. left.
      rewrite skipn_app, skipn_all, Nat.sub_diag. cbn [app skipn]. rewrite firstn_map, map_map. cbn [fst]. rewrite map_id.
      intros (x & y & O). apply Np. subst post. rewrite <- (firstn_skipn k r), concat_app, O. exists (b ++ x), (y ++ concat (skipn k r)). rewrite <- !app_assoc. reflexivity.
Qed.
