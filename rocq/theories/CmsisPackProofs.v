(** Proofs about the CMSIS-Pack. *)
From Coq Require Import String.
From Verif Require Import Base EclipsePatch EclipsePatchSpec EclipsePatchProofs CmsisPack CmsisPackSpec.
Open Scope string_scope.
Open Scope list_scope.
Open Scope Z_scope.

Lemma quiet_names r : Forall quiet r -> Forall name_ok r.
Proof. apply Forall_impl. intros n H. apply H. Qed.
Lemma file_name_ok sdk r : r <> [] -> Forall quiet r -> file_name sdk (sdk ++ r) = Some (rel_text r).
Proof.
  intros N Q. unfold file_name. rewrite relpath_below by easy. assert (F := quiet_names r Q).
  assert (P : plain (rel_text r)) by (assert (S := plain_slashed r F); rewrite <- rel_slashed in S by easy; now inversion S).
  rewrite back_plain by easy. replace (existsb _ _) with false; [reflexivity|]. symmetry. apply not_true_is_false. intros X. apply existsb_exists in X as (c & I & X).
  unfold plain in P. rewrite Forall_forall in P. specialize (P c I). assert (c = 34) as -> by lia.
  assert (J : In 34 (slashed r)) by (rewrite <- rel_slashed by easy; now right). clear - J Q. unfold slashed in J. apply in_concat in J as (t & T & J). apply in_map_iff in T as (n & <- & T).
  destruct J as [J|J]; [lia|]. rewrite Forall_forall in Q. now destruct (Q n T).
Qed.
Lemma names_ok e (sub : bool) d : Forall (Forall quiet) (p_fs e) -> Forall literal (p_sdk e ++ d) ->
  exists l, names e (p_sdk e ++ d) (if sub then deep else flat) = Some l /\ part_ok e (sub, p_sdk e ++ d) l.
Proof.
  intros F L. unfold names, part_ok. cbn [fst snd]. set (g := walk _ _ _).
  assert (M : forall f, In f g <-> In f (p_fs e) /\ source sub (p_sdk e ++ d) f).
  { intros f. unfold g, walk. rewrite filter_In. split; intros [I S]; (split; [exact I|]); rewrite Forall_forall in F; specialize (F f I); apply quiet_names in F;
    [apply source_ok in S|apply source_ok]; auto using no_star_slashed. }
  destruct (all_some_map (file_name (p_sdk e)) (named (p_sdk e)) g) as (l & E & R).
  { intros f I. apply M in I as (I & (i & n & -> & _)). rewrite Forall_forall in F. apply F in I. rewrite <- app_assoc in I. apply Forall_app in I as [_ I].
    assert (N : d ++ i ++ [n] <> []) by (intros X; apply app_eq_nil in X as [_ X]; now apply app_eq_nil in X as [_ [=]]).
    rewrite <- app_assoc, file_name_ok by easy. eexists. split; [reflexivity|]. exists (d ++ i ++ [n]). split; [easy|]. now apply rel_slashed. }
  exists l. split; [exact E|]. exists g. split; [exact R|]. split; [exact M|]. apply NoDup_filter.
Qed.
Lemma files_listed e : penv_ok e -> exists parts, pdsc_files e = Some ([str "components/include/"; str "ports/include/"] ++ concat parts) /\ Forall2 (part_ok e) (asked e) parts.
Proof.
  intros (L1 & L2 & _ & F & L3). unfold pdsc_files.
  assert (K : exists parts, all_some (groups e) = Some parts /\ Forall2 (part_ok e) (asked e) parts).
  { unfold groups, asked.
    destruct (all_some_map (fun c => names e (p_sdk e ++ [str "components"; c]) deep) (fun c => part_ok e (true, p_sdk e ++ [str "components"; c])) (p_comps e)) as (a & A & Fa).
    { intros c I. apply (names_ok e true); [easy|]. apply Forall_app. split; [easy|]. rewrite Forall_forall in L2. constructor; [|constructor; [now apply L2|constructor]].
      unfold literal. cbv -[Z.eq not]. repeat (constructor; [lia|]). constructor. }
    assert (Fa' : Forall2 (part_ok e) (map (fun c => (true, p_sdk e ++ [str "components"; c])) (p_comps e)) a).
    { clear - Fa. induction Fa; cbn [map]; constructor; auto. }
    destruct (p_port e) as [port|]; [|exists a; rewrite !app_nil_r; auto].
    destruct (names_ok e false (str "ports" :: port) F) as (b & B & Fb).
    { apply Forall_app. split; [easy|]. constructor; [|easy]. unfold literal. cbv -[Z.eq not]. repeat (constructor; [lia|]). constructor. }
    destruct (path_dec port [str "dialog"; str "da1469x"]).
    - destruct (names_ok e true [str "ports"; str "freertos"] F) as (c & C & Fc); [apply Forall_app; split; [easy|lits]|].
      exists (a ++ [b; c]). split; [|apply Forall2_app; [easy|repeat constructor; easy]]. apply all_some_app; [exact A|]. cbn [app all_some]. cbv beta iota in B, C. rewrite B, C. reflexivity.
    - exists (a ++ [b]). split; [|apply Forall2_app; [easy|repeat constructor; easy]]. apply all_some_app; [exact A|]. cbn [app all_some]. cbv beta iota in B. rewrite B. reflexivity. }
  destruct K as (parts & A & B). exists parts. rewrite A. cbn [bind]. auto.
Qed.
Lemma below_app root r : r <> [] -> below root (root ++ r) = true.
Proof.
  intros N. unfold below. apply andb_true_iff. split.
  - destruct (path_dec _ root) as [|X]; [easy|]. exfalso. apply X. rewrite firstn_app, Nat.sub_diag, firstn_all, firstn_O. apply app_nil_r.
  - apply Nat.ltb_lt. rewrite app_length. destruct r; [easy|]. cbn. lia.
Qed.
(** Everything listed is in the pack *)
Lemma Forall2_in_r {A B} (R : A -> B -> Prop) l m y : Forall2 R l m -> In y m -> exists x, In x l /\ R x y.
Proof. induction 1 as [|x z l m H _ IH]; [easy|]. intros [<-|I]; [exists x; split; [now left|easy]|]. destruct (IH I) as (w & W & K). exists w. split; [now right|easy]. Qed.
Lemma listed_packed e a l n : In a (asked e) -> part_ok e a l -> In n l -> exists r, In r (pack e) /\ 47 :: n = slashed r.
Proof.
  intros A (g & F & M & _) I. destruct (Forall2_in_r _ _ _ _ F I) as (f & G & r & -> & E). exists r. split; [|exact E].
  apply M in G as (Fs & (i & m & D & _)). unfold pack. apply in_map_iff. exists (p_sdk e ++ r). split.
  { rewrite skipn_app, Nat.sub_diag, skipn_all. reflexivity. }
  apply filter_In. split; [exact Fs|]. unfold in_pack. apply orb_true_iff. left. rewrite D.
  assert (K : exists top rest, snd a = p_sdk e ++ top :: rest /\ (top = str "components" \/ top = str "ports")).
  { unfold asked in A. apply in_app_iff in A as [A|A].
    - apply in_map_iff in A as (c & <- & _). exists (str "components"), [c]. auto.
    - destruct (p_port e) as [port|]; [|easy]. destruct A as [<-|A]; [exists (str "ports"), port; auto|]. destruct (path_dec _ _); [|easy].
      destruct A as [<-|[]]. exists (str "ports"), [str "freertos"]. auto. }
  destruct K as (top & rest & -> & T). replace ((p_sdk e ++ top :: rest) ++ i ++ [m]) with ((p_sdk e ++ [top]) ++ (rest ++ i ++ [m])) by now rewrite <- !app_assoc.
  assert (N : rest ++ i ++ [m] <> []) by (intros X; apply app_eq_nil in X as [_ X]; now apply app_eq_nil in X as [_ [=]]).
  apply orb_true_iff. destruct T as [-> | ->]; [left|right]; now apply below_app.
Qed.
(** Releases *)
Lemma publish_ok runs published : Forall (fun r => snd (fst r) <> 404 /\ snd r = false) runs ->
  publish runs published = rev (map (fun r => fst (fst r)) (filter (fun r => negb ((400 <=? snd (fst r)) && (snd (fst r) <? 600))) runs)) ++ published.
Proof.
  intros F. revert published. induction F as [|((v, status), skip) runs [N S] _ IH]; intros p; [reflexivity|]. cbn [fst snd] in *. subst skip.
  cbn [publish filter fst snd]. rewrite IH. unfold releases, latest. replace (status =? 404) with false by lia. cbn [orb].
  destruct ((400 <=? status) && (status <? 600)); cbn [bind negb map rev fst]; [reflexivity|]. now rewrite <- app_assoc.
Qed.
