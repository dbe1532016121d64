(** Proofs about include paths and linker flags. *)
From Coq Require Import String.
From Verif Require Import Base EclipsePatch EclipsePatchSpec EclipsePatchProofs EclipseFlags EclipseFlagsSpec.
Open Scope string_scope.
Open Scope list_scope.
Open Scope Z_scope.

Lemma include_spec o : is_include o = true <-> includes o.
Proof. unfold is_include, includes, begins. rewrite !orb_true_iff, !starts_spec. tauto. Qed.
Lemma ld_spec o : is_ld o = true <-> linker_text o.
Proof. unfold is_ld, linker_text, begins. now rewrite andb_true_iff, !starts_spec. Qed.
Lemma filter_others l : others l (filter (fun v => negb (contains (str "memfault_includes") v)) l).
Proof.
  induction l as [|v l IH]; [constructor|]. cbn [filter]. destruct (contains _ v) eqn:E; cbn [negb].
  - apply ot_drop; [now apply contains_spec|easy].
  - apply ot_keep; [rewrite <- contains_spec; congruence|easy].
Qed.
Lemma infix_end p s t : infix p (s ++ t ++ p).
Proof. exists (s ++ t), []. now rewrite app_nil_r, <- app_assoc. Qed.
Lemma set_ld_same o : o_id (set_ld o) = o_id o /\ o_name (set_ld o) = o_name o /\ o_list (set_ld o) = o_list o /\ o_text (set_ld o) = o_text o.
Proof. unfold set_ld. now destruct (_ && _). Qed.
Lemma set_ld_value o : (linker_text o -> infix flag (o_value (set_ld o)) /\ (o_value (set_ld o) = o_value o \/ o_value (set_ld o) = o_value o ++ 32 :: flag)) /\
  (~ linker_text o -> o_value (set_ld o) = o_value o).
Proof.
  unfold set_ld. destruct (is_ld o) eqn:L; cbn [andb].
  - apply ld_spec in L. split; [|easy]. intros _. destruct (contains _ _) eqn:C; cbn [negb].
    + apply contains_spec in C. auto.
    + cbn [o_value]. split; [|now right]. apply (infix_end flag (o_value o) [32]).
  - split; [|easy]. intros H. apply ld_spec in H. congruence.
Qed.
Lemma set_includes_ok o o1 : set_includes o = Some o1 ->
  o_id o1 = o_id o /\ o_name o1 = o_name o /\ o_value o1 = o_value o /\ o_text o1 = o_text o /\
  (includes o -> exists k, others (o_list o) k /\ o_list o1 = k ++ include_values) /\ (~ includes o -> o_list o1 = o_list o).
Proof.
  unfold set_includes. destruct (is_include o) eqn:I.
  - apply include_spec in I. destruct (o_list o) as [|v l] eqn:E; [easy|]. intros [= <-]. cbn [o_id o_name o_value o_text o_list].
    do 4 (split; [easy|]). split; [|easy]. intros _. eexists. split; [apply filter_others|]. reflexivity.
  - intros [= <-]. do 4 (split; [easy|]). split; [|easy]. intros H. apply include_spec in H. congruence.
Qed.
Lemma option_ok o o1 : set_includes o = Some o1 -> option_done o (set_ld o1).
Proof.
  intros E. destruct (set_includes_ok _ _ E) as (A & B & C & D & F & G). destruct (set_ld_same o1) as (P & Q & R & T). destruct (set_ld_value o1) as (V & W).
  assert (L : linker_text o1 <-> linker_text o) by (unfold linker_text; now rewrite A, B).
  unfold option_done. rewrite P, Q, R, T. rewrite C, L in V. rewrite C, L in W. auto 10.
Qed.
Lemma other_spec o : starts st_flags (o_id o) = true <-> st_other o.
Proof. apply starts_spec. Qed.
Lemma existsb_other t : existsb (fun o => starts st_flags (o_id o)) (t_opts t) = true <-> has_other t.
Proof. rewrite existsb_exists. unfold has_other. split; intros (o & I & H); exists o; (split; [exact I|]); now apply other_spec. Qed.
Lemma add_none l : existsb (fun o => starts st_flags (o_id o)) l = false -> map add_flag l = l.
Proof.
  induction l as [|o l IH]; [reflexivity|]. cbn [existsb map]. intros H. apply orb_false_iff in H as [A B]. rewrite IH by easy. unfold add_flag. now rewrite A.
Qed.
Definition new_opt : opt := mk_opt st_flags [] [] [build_id_flag] flag_tail.
Lemma patch_tool_parts t t' : patch_tool t = Some t' -> exists l, all_some (map set_includes (t_opts t)) = Some l /\ t_id t' = t_id t /\
  t_opts t' = (if starts st_linker (t_id t) && negb (existsb (fun o => starts st_flags (o_id o)) l) then [new_opt] else []) ++ map set_ld l.
Proof.
  unfold patch_tool. intros E. binv E. injection E as <-. exists v. split; [exact E0|]. unfold set_st. cbn [t_id t_opts].
  destruct (starts st_linker (t_id t)) eqn:S; [|split; reflexivity]. destruct (existsb _ v) eqn:X; [split; reflexivity|].
  cbn [andb negb t_id t_opts]. split; [reflexivity|]. cbn [map]. rewrite add_none by easy. reflexivity.
Qed.
Lemma all_some_forall2 {A B} (g : A -> option B) l ys : all_some (map g l) = Some ys <-> Forall2 (fun x y => g x = Some y) l ys.
Proof.
  revert ys. induction l as [|x l IH]; intros ys; cbn; split.
  - intros [= <-]. constructor.
  - intros H. now inversion H.
  - intros E. binv E. binv E. injection E as <-. constructor; [easy|]. now apply IH.
  - intros H. inversion H as [|? y ? r E F]; subst. rewrite E. cbn. apply IH in F. rewrite F. reflexivity.
Qed.
Lemma ids_same l l1 : Forall2 (fun x y => set_includes x = Some y) l l1 -> existsb (fun o => starts st_flags (o_id o)) l1 = existsb (fun o => starts st_flags (o_id o)) l.
Proof.
  induction 1 as [|x y l l1 E _ IH]; [reflexivity|]. cbn [existsb]. rewrite IH. now rewrite (proj1 (set_includes_ok _ _ E)).
Qed.
Lemma tool_ok t t' : patch_tool t = Some t' -> tool_done t t'.
Proof.
  intros E. destruct (patch_tool_parts _ _ E) as (l & A & I & O). apply all_some_forall2 in A. split; [exact I|]. rewrite (ids_same _ _ A) in O.
  eexists. exists (map set_ld l). split; [exact O|]. split; [|split].
  - clear - A. induction A as [|x y l l1 E _ IH]; [constructor|]. cbn [map]. constructor; [now apply option_ok|easy].
  - intros [S N]. assert (X : starts st_linker (t_id t) = true) by now apply starts_spec. rewrite X. destruct (existsb _ _) eqn:Y; [now apply existsb_other in Y|].
    exists new_opt. split; [reflexivity|]. split; [now exists []|reflexivity].
  - intros N. destruct (starts st_linker (t_id t)) eqn:X; [|reflexivity]. destruct (existsb _ _) eqn:Y; [reflexivity|]. exfalso. apply N. split; [now apply starts_spec|].
    intros H. apply existsb_other in H. congruence.
Qed.
(** Patched again *)
Lemma filter_twice (A : Type) (p : A -> bool) l : filter p (filter p l) = filter p l.
Proof. induction l as [|x l IH]; [reflexivity|]. cbn. destruct (p x) eqn:E; [|easy]. cbn. now rewrite E, IH. Qed.
Lemma set_ld_again o : set_ld (set_ld o) = set_ld o.
Proof.
  destruct (is_ld o && negb (contains (str "-Wl,--build-id") (o_value o))) eqn:E.
  - unfold set_ld at 2 3. rewrite E. unfold set_ld. cbn [o_value].
    replace (contains (str "-Wl,--build-id") (o_value o ++ str " -Wl,--build-id")) with true; [now rewrite andb_false_r|].
    symmetry. apply contains_spec. apply (infix_end flag (o_value o) [32]).
  - assert (K : set_ld o = o) by (unfold set_ld; now rewrite E). now rewrite !K.
Qed.
Lemma set_includes_again o o1 : set_includes o = Some o1 -> set_includes (set_ld o1) = Some (set_ld o1).
Proof.
  intros E. assert (I : is_include (set_ld o1) = is_include o).
  { unfold is_include. rewrite (proj1 (set_ld_same o1)). now rewrite (proj1 (set_includes_ok _ _ E)). }
  destruct (set_ld_same o1) as (P & Q & R & T). unfold set_includes. rewrite I, R.
  unfold set_includes in E. destruct (is_include o) eqn:J; [|reflexivity]. destruct (o_list o) as [|v l] eqn:L; [easy|].
  set (k := filter _ (v :: l)) in *. injection E as E. assert (Lo : o_list o1 = k ++ sdk_paths) by now rewrite <- E. rewrite Lo.
  assert (K : filter (fun v => negb (contains (str "memfault_includes") v)) (k ++ sdk_paths) ++ sdk_paths = k ++ sdk_paths).
  { rewrite filter_app. unfold k. rewrite filter_twice. now rewrite <- app_assoc. }
  assert (Ne : exists a b, k ++ sdk_paths = a :: b) by (destruct k; now do 2 eexists). destruct Ne as (a & b & Ne). rewrite Ne in *. rewrite K.
  f_equal. rewrite <- Lo, <- R. now destruct (set_ld o1).
Qed.
Lemma tool_again t t' : patch_tool t = Some t' -> patch_tool t' = Some t'.
Proof.
  intros E. destruct (patch_tool_parts _ _ E) as (l & A & I & O). apply all_some_forall2 in A.
  assert (B : Forall2 (fun x y => set_includes x = Some y) (map set_ld l) (map set_ld l)).
  { clear - A. induction A as [|x y l l1 E _ IH]; [constructor|]. cbn [map]. constructor; [now apply set_includes_again in E|easy]. }
  set (new := if _ && _ then [new_opt] else []) in O.
  assert (Bn : all_some (map set_includes (t_opts t')) = Some (t_opts t')).
  { apply all_some_forall2. rewrite O. apply Forall2_app; [|exact B]. unfold new. destruct (_ && _); [constructor; [reflexivity|constructor]|constructor]. }
  unfold patch_tool. rewrite Bn. cbn [bind].
  assert (S : set_st (mk_tool (t_id t') (t_opts t')) = mk_tool (t_id t') (t_opts t')).
  { unfold set_st. cbn [t_id t_opts]. destruct (starts st_linker (t_id t')) eqn:X; [|reflexivity]. replace (existsb _ (t_opts t')) with true; [reflexivity|].
    rewrite O, existsb_app. symmetry. apply orb_true_iff. unfold new. rewrite I in X. rewrite X. cbn [andb]. destruct (existsb _ l) eqn:Y; cbn [negb]; [|now left].
    right. apply existsb_exists in Y as (o & Io & Y). apply existsb_exists. exists (set_ld o). split; [now apply in_map|]. now rewrite (proj1 (set_ld_same o)). }
  rewrite S. cbn [t_id t_opts]. f_equal. destruct t' as [i' o']. cbn [t_id t_opts] in *. f_equal. rewrite O, map_app, map_map. f_equal.
  - unfold new. now destruct (_ && _).
  - apply map_ext. intros o. apply set_ld_again.
Qed.
Lemma tools_again d d' : patch_tools d = Some d' -> patch_tools d' = Some d'.
Proof.
  unfold patch_tools. intros E. apply all_some_forall2 in E. apply all_some_forall2. induction E as [|t t' d d' E _ IH]; [constructor|]. constructor; [now apply tool_again in E|easy].
Qed.
Lemma tools_ok d d' : patch_tools d = Some d' -> Forall2 tool_done d d'.
Proof.
  unfold patch_tools. intros E. apply all_some_forall2 in E. induction E as [|t t' d d' E _ IH]; [constructor|]. constructor; [now apply tool_ok|easy].
Qed.
Lemma tools_total d : Forall (fun t => Forall (fun o => includes o -> o_list o <> []) (t_opts t)) d -> exists d', patch_tools d = Some d'.
Proof.
  intros F. destruct (all_some_map patch_tool (fun _ _ => True) d) as (d' & E & _); [|now exists d'].
  intros t I. rewrite Forall_forall in F. specialize (F t I).
  destruct (all_some_map set_includes (fun _ _ => True) (t_opts t)) as (l & E & _).
  { intros o Io. rewrite Forall_forall in F. specialize (F o Io). unfold set_includes. destruct (is_include o) eqn:X; [|now eexists].
    apply include_spec in X. destruct (o_list o); [now elim (F X)|now eexists]. }
  unfold patch_tool. rewrite E. cbn [bind]. now eexists.
Qed.

(** ** The header *)
Lemma skip_split s : exists w, s = w ++ skip_ws s /\ Forall (fun c => c = 32 \/ 9 <= c <= 13) w.
Proof.
  induction s as [|c s (w & E & F)]; [now exists []|]. cbn. destruct (is_ws c) eqn:W; [|now exists []]. exists (c :: w). split; [cbn; now rewrite <- E|].
  constructor; [unfold is_ws in W; lia|easy].
Qed.
Lemma skip_ws_app w s : Forall (fun c => c = 32 \/ 9 <= c <= 13) w -> skip_ws (w ++ s) = skip_ws s.
Proof. induction 1 as [|c w C _ IH]; [reflexivity|]. cbn. replace (is_ws c) with true by (unfold is_ws; lia). exact IH. Qed.
Definition tag_ok (tag : list Z) : Prop := match tag with c :: _ => is_ws c = false | [] => False end.
Lemma root_here_spec tag s : tag_ok tag -> root_here tag s = true <-> root_after tag s [].
Proof.
  intros T. unfold root_after. destruct s as [|c s]; cbn [root_here app].
  - split; [easy|]. now intros (w & post & E & _).
  - rewrite andb_true_iff, Z.eqb_eq, starts_spec. split.
    + intros (-> & b & E). destruct (skip_split s) as (w & W & F). exists w, b. rewrite W, E. auto.
    + intros (w & post & E & F). injection E as -> ->. split; [easy|]. rewrite skip_ws_app by easy. exists post. destruct tag as [|x tag]; [easy|]. unfold tag_ok in T. cbn [app skip_ws]. now rewrite T.
Qed.
Lemma find_ok tag s : tag_ok tag -> match find_header tag s with
  | Some h => root_after tag s h /\ forall h', root_after tag s h' -> zlen h' <= zlen h
  | None => forall h, ~ root_after tag s h end.
Proof.
  intros T. assert (C : forall c s h, root_after tag (c :: s) (c :: h) <-> root_after tag s h).
  { intros c r h. unfold root_after. split; intros (w & post & E & F); exists w, post; [injection E as E|cbn; rewrite E]; auto. }
  assert (H : forall c s h', root_after tag (c :: s) h' -> h' = [] \/ exists h, h' = c :: h /\ root_after tag s h).
  { intros c r h' R. destruct h' as [|x h]; [now left|]. right. assert (x = c) as -> by (destruct R as (w & post & E & _); now inversion E). exists h. split; [easy|]. exact (proj1 (C c r h) R). }
  induction s as [|c s IH]; cbn [find_header].
  - intros h (w & post & E & _). now destruct h.
  - destruct (find_header tag s) as [h|].
    + destruct IH as [A B]. split; [now apply C|]. intros h' R. destruct (H c s h' R) as [-> | (g & -> & G)]; [zl|]. apply B in G. rewrite !zlen_cons. lia.
    + destruct (root_here tag (c :: s)) eqn:R.
      * apply root_here_spec in R; [|easy]. split; [exact R|]. intros h' X. destruct (H c s h' X) as [-> | (g & -> & G)]; [lia|]. now elim (IH g).
      * intros h X. destruct (H c s h X) as [-> | (g & -> & G)]; [|now elim (IH g)]. apply root_here_spec in X; [congruence|easy].
Qed.
