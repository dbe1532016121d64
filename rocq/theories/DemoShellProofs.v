(** Proofs about the demo shell. *)
From Coq Require Import String.
From Verif Require Import Base DemoShell DemoShellSpec.

Lemma echo_seen c : sh_echo c = seen c.
Proof.
  unfold sh_echo. destruct (c =? 10) eqn:A; [apply Z.eqb_eq in A; now subst|].
  destruct (c =? 8) eqn:B; [apply Z.eqb_eq in B; now subst|]. unfold seen.
  destruct c as [|q|q]; try reflexivity. do 4 (destruct q; try reflexivity; try discriminate).
Qed.
Lemma echo_shown l : sh_echo_str l = shown l.
Proof. unfold sh_echo_str, shown. induction l as [|c l IH]; [reflexivity|]. cbn. now rewrite IH, echo_seen. Qed.
Lemma shown_app a b : shown (a ++ b) = shown a ++ shown b.
Proof. unfold shown. now rewrite map_app, concat_app. Qed.

Lemma find_lookup_from names w : forall i, sh_find (Z.of_nat i) names w =
  match filter (fun x => if list_eq_dec Z.eq_dec (snd x) w then true else false) (combine (map Z.of_nat (seq i (length names))) names) with
  | [] => None
  | x :: _ => Some (fst x)
  end.
Proof.
  induction names as [|n names IH]; intros i; [reflexivity|]. cbn [sh_find length seq map combine filter snd].
  destruct (list_eq_dec Z.eq_dec n w); [reflexivity|]. replace (Z.of_nat i + 1) with (Z.of_nat (Datatypes.S i)) by lia. apply IH.
Qed.
Lemma find_lookup names w : sh_find 0 names w = lookup names w.
Proof. exact (find_lookup_from names w 0). Qed.

(** ** Words *)
Definition solid (l : list Z) : Prop := Forall (fun c => c <> 32) l.
Lemma words_space r : words (32 :: r) = words r.
Proof. reflexivity. Qed.
Lemma words_one cur r : cur <> [] -> solid cur -> words (cur ++ 32 :: r) = cur :: words r.
Proof.
  induction cur as [|c cur IH]; [congruence|]. intros _ F. assert (C : c <> 32) by exact (Forall_inv F). apply Forall_inv_tail in F.
  destruct cur as [|d cur].
  - cbn. now replace (c =? 32) with false by lia.
  - assert (D : d <> 32) by exact (Forall_inv F). specialize (IH ltac:(discriminate) F).
    change ((c :: d :: cur) ++ 32 :: r) with (c :: (d :: cur) ++ 32 :: r). cbn [words]. replace (c =? 32) with false by lia.
    rewrite IH. cbn [app]. now replace (d =? 32) with false by lia.
Qed.
Lemma words_last cur : cur <> [] -> solid cur -> words cur = [cur].
Proof.
  induction cur as [|c cur IH]; [congruence|]. intros _ F. assert (C : c <> 32) by exact (Forall_inv F). apply Forall_inv_tail in F.
  cbn [words]. replace (c =? 32) with false by lia. destruct cur as [|d cur]; [reflexivity|].
  assert (D : d <> 32) by exact (Forall_inv F). rewrite (IH ltac:(discriminate) F). now replace (d =? 32) with false by lia.
Qed.

(** ** Strings in the buffer *)
Lemma cstr_nul cur q : sh_cstr (cur ++ 0 :: q) = Some (upto_nul cur).
Proof. induction cur as [|c cur IH]; [reflexivity|]. cbn. rewrite IH. now destruct (c =? 0). Qed.
Lemma cstr_app l q x : sh_cstr l = Some x -> sh_cstr (l ++ q) = Some x.
Proof.
  revert x. induction l as [|c l IH]; intros x; [discriminate|]. cbn. destruct (c =? 0); [tauto|].
  destruct (sh_cstr l) as [y|]; [|discriminate]. cbn. intros E. now rewrite (IH y eq_refl).
Qed.
Lemma cstr_at pre q a x : sh_cstr (drop a pre) = Some x -> sh_cstr (drop a (pre ++ q)) = Some x.
Proof.
  intros E. destruct (Z_le_gt_dec a (zlen pre)) as [L|L].
  - rewrite drop_app_le by exact L. now apply cstr_app.
  - rewrite drop_all in E by lia. discriminate E.
Qed.
Lemma strings_app pre q argv : forall x, sh_strings pre argv = Some x -> sh_strings (pre ++ q) argv = Some x.
Proof.
  induction argv as [|a argv IH]; intros x; [tauto|]. cbn [sh_strings]. destruct (sh_cstr (drop a pre)) as [y|] eqn:Hb; [|discriminate]. cbn [bind].
  destruct (sh_strings pre argv) as [z|]; [|discriminate]. cbn [bind]. intros E. rewrite (cstr_at _ _ _ _ Hb). cbn [bind]. rewrite (IH z eq_refl). exact E.
Qed.
Lemma strings_snoc pre argv a : forall x y, sh_strings pre argv = Some x -> sh_cstr (drop a pre) = Some y -> sh_strings pre (argv ++ [a]) = Some (x ++ [y]).
Proof.
  induction argv as [|b argv IH]; intros x y E F; cbn in *.
  - injection E as <-. now rewrite F.
  - destruct (sh_cstr (drop b pre)) as [u|]; [|discriminate]. cbn [bind] in *. destruct (sh_strings pre argv) as [z|]; [|discriminate].
    cbn [bind] in *. injection E as <-. now rewrite (IH z y eq_refl F).
Qed.
Lemma strings_len pre argv : forall x, sh_strings pre argv = Some x -> zlen x = zlen argv.
Proof.
  induction argv as [|b argv IH]; intros x E; cbn in *; [now injection E as <-|]. destruct (sh_cstr (drop b pre)) as [u|]; [|discriminate]. cbn [bind] in *.
  destruct (sh_strings pre argv) as [z|]; [|discriminate]. cbn [bind] in *. injection E as <-. rewrite !zlen_cons. now rewrite (IH z eq_refl).
Qed.

(** [a] where the word being read starts, [cur] what has been read of it. *)
Definition word_at (next : option Z) (pre cur : list Z) : Prop :=
  match next with
  | None => cur = []
  | Some a => cur <> [] /\ solid cur /\ exists p0, pre = p0 ++ cur /\ zlen p0 = a
  end.
Lemma split_ok e tail rx : forall rem pre cur argv strs next,
  zlen pre + zlen rem + 1 = rx -> Forall (fun c => c <> 10) rem -> word_at next pre cur ->
  sh_strings pre argv = Some strs -> zlen argv <= 16 ->
  exists buf' argv', sh_split (length rem + 1) (zlen pre) rx (pre ++ rem ++ e :: tail) argv next = Some (buf', argv') /\
    sh_strings buf' argv' = Some (strs ++ map upto_nul (take (16 - zlen argv) (words (cur ++ rem)))).
Proof.
  induction rem as [|c rem IH]; intros pre cur argv strs next RX NL W ST A16.
  - cbn [length app Nat.add sh_split]. change (zlen (@nil Z)) with 0 in RX.
    destruct (16 <=? zlen argv) eqn:F.
    { exists (pre ++ e :: tail), argv. split; [reflexivity|]. rewrite take_neg by lia. cbn. rewrite app_nil_r. now apply strings_app. }
    rewrite get_app_pre by reflexivity. cbn [bind]. replace (zlen pre =? rx - 1) with true by lia. rewrite orb_true_r.
    rewrite put_app_pre by reflexivity. cbn [bind]. rewrite app_nil_r.
    destruct next as [a|].
    + destruct W as (N & SO & p0 & -> & P0). eexists. eexists. split; [reflexivity|].
      rewrite words_last by assumption. rewrite take_all by (change (zlen [cur]) with 1; lia). cbn [map].
      apply strings_snoc.
      * rewrite <- app_assoc. rewrite app_assoc. now apply strings_app.
      * rewrite <- app_assoc, drop_app_exact by congruence. apply cstr_nul.
    + cbn in W. subst cur. eexists. eexists. split; [reflexivity|]. cbn [words]. rewrite take_nil. cbn. rewrite app_nil_r. now apply strings_app.
  - rewrite zlen_cons in RX. pose proof (zlen_nonneg rem). assert (C10 : c <> 10) by exact (Forall_inv NL). apply Forall_inv_tail in NL.
    cbn [length Nat.add sh_split]. destruct (16 <=? zlen argv) eqn:F.
    { eexists. eexists. split; [reflexivity|]. rewrite take_neg by lia. cbn. rewrite app_nil_r. now apply strings_app. }
    cbn [app]. rewrite get_app_pre by reflexivity. cbn [bind]. replace (zlen pre =? rx - 1) with false by lia.
    replace (c =? 10) with false by lia. rewrite !orb_false_r.
    destruct (c =? 32) eqn:SP.
    + apply Z.eqb_eq in SP. subst c. rewrite put_app_pre by reflexivity. cbn [bind].
      assert (L1 : zlen (pre ++ [0]) = zlen pre + 1) by (rewrite zlen_app; reflexivity).
      destruct next as [a|].
      * destruct W as (N & SO & p0 & -> & P0).
        destruct (IH ((p0 ++ cur) ++ [0]) [] (argv ++ [a]) (strs ++ [upto_nul cur]) None) as (b' & v' & E1 & E2).
        { lia. } { exact NL. } { reflexivity. }
        { apply strings_snoc; [now apply strings_app|]. rewrite <- app_assoc, drop_app_exact by congruence. apply cstr_nul. }
        { rewrite zlen_app. change (zlen [a]) with 1. lia. }
        exists b', v'. split. { rewrite <- E1. f_equal; [lia|]. now rewrite <- (app_assoc _ [0]). }
        rewrite E2. f_equal. rewrite words_one by assumption. rewrite zlen_app. change (zlen [a]) with 1.
        replace (16 - zlen argv) with (1 + (16 - (zlen argv + 1))) by lia. unfold take. rewrite Z2Nat.inj_add by lia. cbn [Z.to_nat Pos.to_nat Pos.iter_op Nat.add firstn map].
        now rewrite <- app_assoc.
      * cbn in W. subst cur. cbn [app]. rewrite words_space.
        destruct (IH (pre ++ [0]) [] argv strs None) as (b' & v' & E1 & E2).
        { lia. } { exact NL. } { reflexivity. } { now apply strings_app. } { exact A16. }
        exists b', v'. split; [|exact E2]. rewrite <- E1. f_equal; [lia|]. now rewrite <- (app_assoc _ [0]).
    + assert (L1 : zlen (pre ++ [c]) = zlen pre + 1) by (rewrite zlen_app; reflexivity).
      destruct (IH (pre ++ [c]) (cur ++ [c]) argv strs (match next with Some a => Some a | None => Some (zlen pre) end)) as (b' & v' & E1 & E2).
      { lia. } { exact NL. }
      { destruct next as [a|]; cbn in W |- *.
        - destruct W as (N & SO & p0 & -> & P0). split; [now destruct cur|]. split.
          + apply Forall_app. split; [exact SO|]. apply Forall_cons; [lia|apply Forall_nil].
          + exists p0. split; [now rewrite app_assoc|exact P0].
        - subst cur. split; [discriminate|]. split; [apply Forall_cons; [lia|apply Forall_nil]|]. exists pre. split; reflexivity. }
      { now apply strings_app. } { exact A16. }
      exists b', v'. split.
      * rewrite <- E1. f_equal; [lia|]. now rewrite <- (app_assoc _ [c]).
      * rewrite E2. now rewrite <- (app_assoc _ [c]).
Qed.

(** ** Typing *)
Section S.
Variables (size : Z) (names : list (list Z)).
Hypothesis HS : 0 < size.

Definition holds (ign : Z) (line : list Z) (s : shell) : Prop :=
  s = mk_sh true (zlen line) ign (line ++ fill (size - zlen line) 0) /\ zlen line < size /\ Forall (fun c => c <> 10) line.

Lemma fill_cons n b : 0 < n -> fill n b = b :: fill (n - 1) b.
Proof. intros H. unfold fill. replace (Z.to_nat n) with (Datatypes.S (Z.to_nat (n - 1))) by lia. reflexivity. Qed.

Lemma process_line ign line e : zlen line < size -> Forall (fun c => c <> 10) line -> e = 10 \/ zlen line + 1 = size ->
  sh_process size names (mk_sh true (zlen line + 1) ign (line ++ e :: fill (size - zlen line - 1) 0)) =
    Some (mk_sh true 0 ign (fill size 0), (if zlen line + 1 =? size then shown [10] else []) ++ line_done names line).
Proof.
  intros L NL D. unfold sh_process. cbn [sh_n sh_buf]. rewrite get_app_pre by lia. cbn [bind].
  replace (negb (e =? 10) && negb (size <=? zlen line + 1)) with false by (destruct D; lia).
  destruct (split_ok e (fill (size - zlen line - 1) 0) (zlen line + 1) line [] [] [] [] None) as (b' & v' & E1 & E2).
  { change (zlen (@nil Z)) with 0. lia. } { exact NL. } { reflexivity. } { reflexivity. } { change (zlen (@nil Z)) with 0. lia. }
  replace (Z.to_nat (zlen line + 1)) with (length line + 1)%nat by (unfold zlen; lia).
  change (zlen (@nil Z)) with 0 in E1, E2. cbn [app] in E1, E2. rewrite E1. cbn [bind]. rewrite E2. cbn [bind].
  unfold sh_reset. cbn [sh_on sh_ignore]. f_equal. f_equal. f_equal.
  unfold line_done. change (16 - 0) with 16. rewrite (echo_shown sh_prompt). f_equal.
  destruct (map upto_nul (take 16 (words line))) as [|w ws]; [reflexivity|]. rewrite find_lookup.
  destruct (lookup names w); [reflexivity|]. rewrite !echo_shown, !echo_seen, !shown_app. reflexivity.
Qed.

(** A character that is not ignored. *)
Definition rx_body (c : Z) (s : shell) : option (shell * list sh_event) :=
  if (c =? 8) && (sh_n s =? 0) then Some (s, [])
  else
    let c := if c =? 13 then 10 else c in
    if c =? 8
    then do b <- put (sh_buf s) (sh_n s - 1) 0;
         Some (mk_sh (sh_on s) (sh_n s - 1) (sh_ignore s) b, sh_echo c)
    else
      do b <- put (sh_buf s) (sh_n s) c;
      do x <- sh_process size names (mk_sh (sh_on s) (sh_n s + 1) (sh_ignore s) b);
      let (s, e) := (x : shell * list sh_event) in
      Some (s, sh_echo c ++ e).
Lemma body_ok ign line s c : holds ign line s -> exists line' s' ev, rx_body c s = Some (s', ev) /\ holds ign line' s' /\
  forall l, typing size names line ((if c =? 13 then 10 else c) :: l) = ev ++ typing size names line' l.
Proof.
  intros (-> & L & NL). unfold rx_body. cbn [sh_n sh_buf sh_on sh_ignore]. pose proof (zlen_nonneg line) as LN.
  destruct (c =? 8) eqn:C8.
  - apply Z.eqb_eq in C8. subst c. cbn [andb]. change (8 =? 13) with false. cbv iota. change (8 =? 8) with true. cbv iota.
    cbn [typing]. change (8 =? 8) with true. cbv iota.
    destruct (zlen line =? 0) eqn:E0.
    + apply Z.eqb_eq in E0. apply zlen_0_nil in E0. subst line. exists [], (mk_sh true (zlen (@nil Z)) ign (fill (size - zlen (@nil Z)) 0)), [].
      split; [reflexivity|]. split; [|reflexivity]. split; [reflexivity|]. split; [exact L|apply Forall_nil].
    + destruct (exists_last (l := line)) as (ln & x & ->). { intros ->. discriminate E0. }
      rewrite zlen_app in *. change (zlen [x]) with 1 in *. rewrite <- app_assoc. cbn [app].
      rewrite put_app_pre by lia. cbn [bind]. apply Forall_app in NL. destruct NL as (NL & _).
      exists ln. eexists. exists (seen 8). split; [rewrite echo_seen; reflexivity|]. split.
      * split; [|split; [lia|exact NL]]. replace (size - (zlen ln + 1)) with (size - zlen ln - 1) by lia. rewrite <- fill_cons by lia.
        now replace (zlen ln + 1 - 1) with (zlen ln) by lia.
      * intros l. rewrite removelast_last. destruct ln; reflexivity.
  - cbn [andb]. set (c' := if c =? 13 then 10 else c). assert (N8 : (c' =? 8) = false) by (unfold c'; destruct (c =? 13); [reflexivity|exact C8]).
    rewrite N8. cbn [typing]. rewrite N8.
    rewrite (fill_cons (size - zlen line)) by lia. rewrite put_app_pre by reflexivity. cbn [bind].
    destruct ((c' =? 10) || (zlen line + 1 =? size)) eqn:D.
    + rewrite process_line by (try assumption; lia). cbn [bind]. eexists [], _, _. split; [reflexivity|]. split.
      * split; [|split; [exact HS|apply Forall_nil]]. change (zlen (@nil Z)) with 0. cbn [app]. now rewrite Z.sub_0_r.
      * intros l. rewrite echo_seen. rewrite <- !app_assoc. f_equal. destruct (zlen line + 1 =? size); [reflexivity|].
        rewrite orb_false_r in D. now rewrite D.
    + unfold sh_process. cbn [sh_n sh_buf]. rewrite get_app_pre by lia. cbn [bind].
      replace (negb (c' =? 10) && negb (size <=? zlen line + 1)) with true by lia. cbn [bind]. rewrite app_nil_r.
      exists (line ++ [c']). eexists. eexists. split; [reflexivity|].
      assert (L2 : zlen (line ++ [c']) = zlen line + 1) by (rewrite zlen_app; reflexivity). split.
      * split; [|split; [lia|]].
        -- rewrite L2. f_equal. rewrite <- app_assoc. cbn [app]. now replace (size - (zlen line + 1)) with (size - zlen line - 1) by lia.
        -- apply Forall_app. split; [exact NL|]. apply Forall_cons; [lia|apply Forall_nil].
      * intros l. rewrite echo_seen. f_equal. now replace (zlen line + 1 =? size) with false by lia; replace (c' =? 10) with false by lia.
Qed.

(** The characters that remain, given the one ignored. *)
Definition remaining (ign : Z) (l : list Z) : list Z :=
  if ign =? 0 then line_ends l
  else if ign =? 10 then map (fun c => if c =? 13 then 10 else c) (filter (fun c => negb (c =? 10)) l)
  else filter (fun c => negb (c =? 13)) l.

Lemma rem10 c l : remaining 10 (c :: l) = if c =? 10 then remaining 10 l else (if c =? 13 then 10 else c) :: remaining 10 l.
Proof. unfold remaining. change (10 =? 0) with false. cbv iota. cbn [filter]. now destruct (c =? 10). Qed.
Lemma rem13 c l : remaining 13 (c :: l) = if c =? 13 then remaining 13 l else c :: remaining 13 l.
Proof. unfold remaining. change (13 =? 0) with false. change (13 =? 10) with false. cbv iota. cbn [filter]. now destruct (c =? 13). Qed.

Lemma run_ok l : forall ign line s, holds ign line s -> ign = 0 \/ ign = 10 \/ ign = 13 ->
  exists s', sh_run size names l s = Some (s', typing size names line (remaining ign l)).
Proof.
  induction l as [|c l IH]; intros ign line s H I.
  { exists s. cbn. f_equal. f_equal. destruct I as [->|[->| ->]]; reflexivity. }
  cbn [sh_run]. unfold sh_receive.
  assert (X : exists ign' line' s' ev, sh_receive size names c s = Some (s', ev) /\ holds ign' line' s' /\ (ign' = 0 \/ ign' = 10 \/ ign' = 13) /\
            typing size names line (remaining ign (c :: l)) = ev ++ typing size names line' (remaining ign' l)).
  { unfold sh_receive. pose proof H as (-> & L & NL). unfold sh_ignored. cbn [sh_ignore sh_on sh_n sh_buf].
    destruct I as [->|[->| ->]].
    - change (negb (0 =? 0)) with false. cbv iota. cbn [sh_n sh_on orb negb]. replace (size <=? zlen line) with false by lia. cbn [orb].
      set (ig := if c =? 13 then 10 else if c =? 10 then 13 else 0).
      destruct (body_ok ig line (mk_sh true (zlen line) ig (line ++ fill (size - zlen line) 0)) c) as (line' & s' & ev & E & H' & T).
      { split; [reflexivity|]. split; assumption. }
      exists ig, line', s', ev. split; [exact E|]. split; [exact H'|]. split; [unfold ig; destruct (c =? 13); [tauto|destruct (c =? 10); tauto]|].
      rewrite <- T. f_equal. unfold remaining, ig. change (0 =? 0) with true. cbv iota. cbn [line_ends].
      destruct (c =? 13) eqn:C13; [reflexivity|]. destruct (c =? 10) eqn:C10; [|reflexivity]. f_equal. lia.
    - change (negb (10 =? 0)) with true. cbv iota. cbn [sh_n sh_on orb negb]. replace (size <=? zlen line) with false by lia. cbn [orb].
      rewrite orb_false_r. destruct (c =? 10) eqn:C10; cbn [orb].
      + exists 10, line, (mk_sh true (zlen line) 10 (line ++ fill (size - zlen line) 0)), []. split; [reflexivity|]. split; [exact H|]. split; [tauto|].
        now rewrite rem10, C10.
      + destruct (body_ok 10 line _ c H) as (line' & s' & ev & E & H' & T).
        exists 10, line', s', ev. split; [exact E|]. split; [exact H'|]. split; [tauto|]. now rewrite rem10, C10.
    - change (negb (13 =? 0)) with true. cbv iota. cbn [sh_n sh_on orb negb]. replace (size <=? zlen line) with false by lia. cbn [orb].
      rewrite orb_false_r. destruct (c =? 13) eqn:C13; cbn [orb].
      + exists 13, line, (mk_sh true (zlen line) 13 (line ++ fill (size - zlen line) 0)), []. split; [reflexivity|]. split; [exact H|]. split; [tauto|].
        now rewrite rem13, C13.
      + destruct (body_ok 13 line _ c H) as (line' & s' & ev & E & H' & T). rewrite C13 in T. unfold rx_body in E. rewrite C13 in E.
        exists 13, line', s', ev. split; [exact E|]. split; [exact H'|]. split; [tauto|]. now rewrite rem13, C13. }
  destruct X as (ign' & line' & s' & ev & E & H' & I' & T). unfold sh_receive in E. rewrite E. cbn [bind].
  destruct (IH ign' line' s' H' I') as (s'' & ->). cbn [bind]. exists s''. now rewrite T.
Qed.

Theorem shell_session l : exists s', sh_run size names l (fst (sh_boot size)) = Some (s', typing size names [] (line_ends l)) /\
  snd (sh_boot size) ++ typing size names [] (line_ends l) = session size names l.
Proof.
  destruct (run_ok l 0 [] (fst (sh_boot size))) as (s' & E).
  { split; [|split; [exact HS|apply Forall_nil]]. cbn. change (zlen (@nil Z)) with 0. now rewrite Z.sub_0_r. }
  { tauto. }
  exists s'. split; [exact E|]. unfold session. f_equal.
Qed.
Theorem shell_off l : exists s', sh_run size names l (sh_off size) = Some (s', []).
Proof.
  cut (forall s, sh_on s = false -> exists s', sh_run size names l s = Some (s', [])). { intros X. now apply X. }
  induction l as [|c l IH]; intros s O; [exists s; reflexivity|]. cbn [sh_run]. unfold sh_receive.
  destruct (sh_ignored c s) as (b & s1) eqn:G.
  assert (O1 : sh_on s1 = false). { unfold sh_ignored in G. destruct (negb _); injection G as _ <-; [exact O|exact O]. }
  rewrite O1. rewrite orb_true_r. cbn [bind]. destruct (IH s1 O1) as (s2 & ->). exists s2. reflexivity.
Qed.
End S.

Definition plain (l : list Z) : Prop := Forall (fun c => c <> 8 /\ c <> 10 /\ c <> 13) l.
Lemma typing_plain size names text : forall line, plain text -> zlen line + zlen text + 1 < size ->
  typing size names line (text ++ [10]) = shown (text ++ [10]) ++ line_done names (line ++ text).
Proof.
  induction text as [|c text IH]; intros line P L.
  - change (zlen (@nil Z)) with 0 in L. cbn [app typing]. change (10 =? 8) with false. change (10 =? 10) with true. cbv iota.
    replace (zlen line + 1 =? size) with false by lia. now rewrite !app_nil_r.
  - rewrite zlen_cons in L. pose proof (zlen_nonneg text). destruct (Forall_inv P) as (A & B & C). apply Forall_inv_tail in P.
    cbn [app typing]. replace (c =? 8) with false by lia. replace (zlen line + 1 =? size) with false by lia. replace (c =? 10) with false by lia.
    rewrite IH; [|exact P|rewrite zlen_app; change (zlen [c]) with 1; lia]. change (shown (c :: text ++ [10])) with (seen c ++ shown (text ++ [10])).
    rewrite <- (app_assoc line [c] text), <- app_assoc. reflexivity.
Qed.
Lemma line_ends_plain text e : plain text -> e = 10 \/ e = 13 -> line_ends (text ++ [e]) = text ++ [10].
Proof.
  intros P D. induction text as [|c text IH].
  - destruct D as [-> | ->]; reflexivity.
  - destruct (Forall_inv P) as (A & B & C). cbn [app line_ends]. replace (c =? 13) with false by lia. replace (c =? 10) with false by lia.
    now rewrite (IH (Forall_inv_tail P)).
Qed.
