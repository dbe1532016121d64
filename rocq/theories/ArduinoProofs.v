(** Proofs about the Arduino library. *)
From Coq Require Import String.
From Verif Require Import Base EclipsePatch EclipsePatchSpec EclipsePatchProofs Arduino ArduinoSpec.
Open Scope string_scope.
Open Scope list_scope.
Open Scope Z_scope.

Definition no_hash (l : list Z) : Prop := Forall (fun c => c <> 35) l.

Lemma white_blank w : white w = true <-> blank w.
Proof.
  unfold white, blank. rewrite !orb_true_iff, !andb_true_iff, !Z.leb_le, !Z.eqb_eq. cbn [In]. split; intros H; [|];
  repeat match goal with H : _ \/ _ |- _ => destruct H | H : False |- _ => destruct H | H : _ /\ _ |- _ => destruct H end; subst; try lia; auto 20.
Qed.
Lemma here_spec s : header_here s = true <-> exists w b, blank w /\ s = (str "#include" ++ w :: 34 :: str "memfault/") ++ b.
Proof.
  unfold header_here. rewrite andb_true_iff, starts_spec. split.
  - intros ((b & ->) & H). change (skipn 8 (str "#include" ++ b)) with b in H. destruct b as [|w r]; [discriminate|].
    apply andb_true_iff in H as (W & H). apply starts_spec in H as (c & ->). exists w, c. split; [apply white_blank; exact W|].
    rewrite <- app_assoc. reflexivity.
  - intros (w & b & W & ->). rewrite <- app_assoc. split; [eexists; reflexivity|].
    change (skipn 8 (str "#include" ++ (w :: 34 :: str "memfault/") ++ b)) with ((w :: 34 :: str "memfault/") ++ b).
    cbn [app]. apply andb_true_iff. split; [apply white_blank; exact W|]. apply (proj2 (starts_spec (34 :: str "memfault/") _)). exists b. reflexivity.
Qed.
Lemma blank_hash w : blank w -> w <> 35.
Proof. unfold blank. cbn [In]. lia. Qed.
Lemma include_tail i : include_of i -> exists t, i = 35 :: t /\ List.length t = 18%nat /\ no_hash t.
Proof.
  intros (w & W & ->). exists (str "include" ++ w :: 34 :: str "memfault/"). split; [reflexivity|]. split; [reflexivity|].
  apply Forall_app. split; [cbv -[Z.eq not]; repeat (constructor; [lia|]); constructor|]. constructor; [apply blank_hash; exact W|].
  cbv -[Z.eq not]; repeat (constructor; [lia|]); constructor.
Qed.
Lemma here_include s : header_here s = true <-> exists i b, include_of i /\ s = i ++ b.
Proof.
  rewrite here_spec. split.
  - intros (w & b & W & ->). exists (str "#include" ++ w :: 34 :: str "memfault/"), b. split; [exists w; auto|reflexivity].
  - intros (i & b & (w & W & ->) & ->). exists w, b. auto.
Qed.
Lemma sub_skip u r : sub (List.length u) (u ++ r) = sub 0 r.
Proof. induction u as [|c u IH]; [reflexivity|exact IH]. Qed.
Lemma sub_here i b : include_of i -> sub 0 (i ++ b) = lib_include ++ sub 0 b.
Proof.
  intros I. pose proof (proj2 (here_include (i ++ b)) (ex_intro _ i (ex_intro _ b (conj I eq_refl)))) as H.
  destruct (include_tail i I) as (t & -> & L & _). cbn [app] in *. cbn [sub]. rewrite H. change new_header with lib_include.
  rewrite <- L, sub_skip. reflexivity.
Qed.
Lemma here_hash c s : header_here (c :: s) = true -> c = 35.
Proof. intros H. apply here_include in H as (i & b & I & E). destruct (include_tail i I) as (t & -> & _). cbn in E. congruence. Qed.
(** A match does not go on over the next '#' *)
Lemma prefix_hash t a b (r : list Z) : no_hash t -> a ++ 35 :: r = t ++ b -> exists k, a = t ++ k.
Proof.
  revert a. induction t as [|x t IH]; intros a N E; [exists a; reflexivity|]. inversion N as [|? ? X N']; subst.
  destruct a as [|y a]; cbn in E; injection E as E1 E2; [congruence|]. subst y. destruct (IH a N' E2) as (k & ->). exists k. reflexivity.
Qed.
Lemma sub_app a r : sub 0 (a ++ 35 :: r) = sub 0 a ++ sub 0 (35 :: r).
Proof.
  remember (List.length a) as n eqn:L. revert a L. induction n as [n IH] using lt_wf_ind. intros a L. destruct a as [|c a]; [reflexivity|].
  destruct (header_here ((c :: a) ++ 35 :: r)) eqn:H.
  - apply here_include in H as (i & b & I & E). pose proof I as J. destruct (include_tail i I) as (t & -> & Lt & N). cbn [app] in E. injection E as E1 E2. subst c.
    destruct (prefix_hash t a b r N E2) as (k & ->). change (35 :: t ++ k) with ((35 :: t) ++ k).
    rewrite <- app_assoc, !(sub_here (35 :: t)) by exact J. rewrite <- app_assoc. f_equal.
    apply (IH (List.length k)); [|reflexivity]. subst n. cbn [List.length]. rewrite app_length. lia.
  - assert (H' : header_here (c :: a) = false).
    { destruct (header_here (c :: a)) eqn:H'; [|reflexivity]. apply here_include in H' as (i & b & I & E).
      assert (header_here ((c :: a) ++ 35 :: r) = true); [|congruence]. apply here_include. exists i, (b ++ 35 :: r). split; [exact I|]. rewrite E, app_assoc. reflexivity. }
    cbn [app] in *. cbn [sub]. rewrite H, H'. cbn [app]. f_equal. apply (IH (List.length a)); [subst n; cbn; lia|reflexivity].
Qed.
Lemma sub_include a i b : include_of i -> sub 0 (a ++ i ++ b) = sub 0 a ++ lib_include ++ sub 0 b.
Proof. intros I. rewrite <- (sub_here i b I). destruct (include_tail i I) as (t & -> & _). apply (sub_app a (t ++ b)). Qed.
Lemma sub_no_hash x r : no_hash x -> sub 0 (x ++ r) = x ++ sub 0 r.
Proof.
  induction x as [|c x IH]; intros N; [reflexivity|]. inversion N as [|? ? C N']; subst. cbn [app sub].
  destruct (header_here (c :: x ++ r)) eqn:H; [apply here_hash in H; congruence|]. f_equal. apply IH, N'.
Qed.
Lemma sub_none s : ~ has_include s -> sub 0 s = s.
Proof.
  induction s as [|c s IH]; intros N; [reflexivity|]. cbn [sub]. destruct (header_here (c :: s)) eqn:H.
  - exfalso. apply N. apply here_include in H as (i & b & I & E). exists [], i, b. auto.
  - f_equal. apply IH. intros (a & i & b & I & E). apply N. exists (c :: a), i, b. subst s. auto.
Qed.
Lemma sub_prefix q : forall s t, no_hash q -> sub 0 s = q ++ t -> exists t', s = q ++ t'.
Proof.
  induction q as [|x q IH]; intros s t N E; [exists s; reflexivity|]. inversion N as [|? ? X N']; subst. destruct s as [|c s]; [discriminate|].
  cbn [sub] in E. destruct (header_here (c :: s)).
  - cbn [app] in E. change new_header with (35 :: tl new_header) in E. cbn [app] in E. congruence.
  - cbn [app] in E. injection E as -> E. destruct (IH s t N' E) as (t' & ->). exists t'. reflexivity.
Qed.
Lemma no_include_cons c s : header_here (c :: s) = false -> ~ has_include s -> ~ has_include (c :: s).
Proof.
  intros H N (a & i & b & I & E). destruct a as [|x a].
  - assert (header_here (c :: s) = true); [apply here_include; exists i, b; auto|congruence].
  - cbn in E. injection E as -> E. apply N. exists a, i, b. auto.
Qed.
Lemma no_include_app q s : no_hash q -> ~ has_include s -> ~ has_include (q ++ s).
Proof.
  induction q as [|c q IH]; intros N H; [exact H|]. inversion N as [|? ? C N']; subst. cbn [app]. apply no_include_cons; [|apply IH; assumption].
  destruct (header_here (c :: q ++ s)) eqn:E; [apply here_hash in E; congruence|reflexivity].
Qed.
Lemma sub_all s : ~ has_include (sub 0 s).
Proof.
  remember (List.length s) as n eqn:L. revert s L. induction n as [n IH] using lt_wf_ind. intros s L. destruct s as [|c s].
  - cbn. intros (a & i & b & I & E). destruct (include_tail i I) as (t & -> & _). destruct a; discriminate.
  - destruct (header_here (c :: s)) eqn:H.
    + apply here_include in H as (i & b & I & E). rewrite E, sub_here by exact I.
      assert (Lb : (List.length b < n)%nat). { subst n. rewrite E, app_length. destruct (include_tail i I) as (t & -> & _). cbn. lia. }
      specialize (IH _ Lb b eq_refl). change lib_include with (35 :: tl lib_include). cbn [app].
      assert (N : no_hash (tl lib_include)) by (cbv -[Z.eq not]; repeat (constructor; [lia|]); constructor).
      apply no_include_cons; [reflexivity|]. apply no_include_app; assumption.
    + cbn [sub]. rewrite H. assert (Ls : (List.length s < n)%nat) by (subst n; cbn; lia). specialize (IH _ Ls s eq_refl).
      apply no_include_cons; [|exact IH]. destruct (header_here (c :: sub 0 s)) eqn:K; [|reflexivity]. exfalso.
      apply here_include in K as (i & b & I & E). pose proof I as J. destruct (include_tail i I) as (t & -> & Lt & N). cbn [app] in E. injection E as -> E.
      destruct (sub_prefix t s b N E) as (t' & ->). assert (header_here (35 :: t ++ t') = true); [|congruence].
      apply here_include. exists (35 :: t), t'. auto.
Qed.

(** ** The files *)
Lemma seg_eqb_spec a b : seg_eqb a b = true <-> a = b.
Proof. unfold seg_eqb. destruct (seg_dec a b); split; congruence. Qed.
Lemma gone_spec f : gone f = true <-> dropped f.
Proof.
  unfold gone, dropped. split.
  - destruct f as [|d [|n r]]; try discriminate. intros H. exists d, n, r. split; [reflexivity|]. apply orb_true_iff in H as [H|H].
    + left. apply existsb_exists in H as (x & I & E). apply seg_eqb_spec in E. subst x. exact I.
    + right. rewrite !andb_true_iff, negb_true_iff in H. destruct H as ((A & B) & C). apply seg_eqb_spec in A. split; [exact A|]. split.
      * intros ->. rewrite (proj2 (seg_eqb_spec _ _) eq_refl) in B. discriminate.
      * destruct r; [discriminate|congruence].
  - intros (d & n & r & -> & [I|(-> & N & R)]); apply orb_true_iff.
    + left. apply existsb_exists. exists d. split; [exact I|apply seg_eqb_spec; reflexivity].
    + right. rewrite (proj2 (seg_eqb_spec _ _) eq_refl). cbn [andb]. rewrite andb_true_iff, negb_true_iff. split.
      * destruct (seg_eqb n (str "panics")) eqn:E; [apply seg_eqb_spec in E; contradiction|reflexivity].
      * destruct r; [contradiction|reflexivity].
Qed.
Lemma place_spec f : placed f (place f).
Proof.
  unfold place, placed. destruct (path_dec f [str "LICENSE"]) as [E|N1]; [left; auto|].
  destruct (path_dec f [str "VERSION"]) as [E|N2]; [right; left; auto|].
  destruct (path_dec f [str "CHANGELOG.md"]) as [E|N3]; [right; left; auto|]. right. right. split; [|reflexivity].
  intros [I|[I|[I|[]]]]; symmetry in I; contradiction.
Qed.
Lemma ends_spec e n : ends e n = true <-> exists a, n = a ++ e.
Proof.
  unfold ends. rewrite starts_spec. split.
  - intros (b & E). exists (rev b). rewrite <- (rev_involutive n), E, rev_app_distr, rev_involutive. reflexivity.
  - intros (a & ->). exists (rev a). apply rev_app_distr.
Qed.
Lemma hidden_spec n : hidden n = false <-> hd 0 n <> 46.
Proof. destruct n as [|c n]; cbn; [split; [lia|reflexivity]|]. rewrite Z.eqb_neq. reflexivity. Qed.
Lemma last_ends f (e : list Z) : e <> [] -> ends e (last f []) = true <-> exists i n, f = i ++ [n ++ e].
Proof.
  intros N. rewrite ends_spec. split.
  - intros (a & E). destruct f as [|x f] using rev_ind; [cbn in E; destruct a; cbn in E; [congruence|discriminate]|].
    rewrite last_last in E. subst x. exists f, a. reflexivity.
  - intros (i & n & ->). rewrite last_last. exists n. reflexivity.
Qed.
Lemma patched_spec f : patched f = true <-> changed f.
Proof.
  unfold patched, changed, visible. rewrite andb_true_iff, negb_true_iff, !orb_true_iff, !last_ends by (cbv; discriminate).
  assert (V : existsb hidden f = false <-> Forall (fun n => hd 0 n <> 46) f).
  { induction f as [|n f IH]; cbn [existsb]; [split; [constructor|reflexivity]|]. rewrite orb_false_iff, IH, hidden_spec. split.
    - intros (A & B). constructor; assumption.
    - intros H. inversion H; subst. auto. }
  rewrite V. assert (D : match f with _ :: r => if path_dec r [str "include"; str "memfault"; str "metrics"; str "heartbeat_config.def"] then true else false | [] => false end = true <->
    exists d, f = [d; str "include"; str "memfault"; str "metrics"; str "heartbeat_config.def"]).
  { destruct f as [|d r]; [split; [discriminate|intros (d & E); discriminate]|]. destruct (path_dec r _) as [->|E].
    - split; [exists d; reflexivity|reflexivity].
    - split; [discriminate|intros (x & F); injection F as -> F; contradiction]. }
  rewrite D. tauto.
Qed.
Lemma arduino_parts there port fs lib : arduinoify there port fs = Some lib ->
  lib = (match port with None => [] | Some p => port_files fs p end) ++ map patch_file (filter (fun f => negb (gone (fst f))) fs).
Proof. unfold arduinoify. destruct (there && _); [discriminate|]. destruct (_ && _); [|discriminate]. intros E. injection E as <-. reflexivity. Qed.
Lemma kept_in there port fs lib f t : arduinoify there port fs = Some lib -> In (f, t) fs -> ~ dropped f ->
  In (place f, if patched f then sub 0 t else t) lib.
Proof.
  intros A I D. rewrite (arduino_parts _ _ _ _ A). apply in_app_iff. right. change (place f, if patched f then sub 0 t else t) with (patch_file (f, t)).
  apply in_map, filter_In. split; [exact I|]. cbn. destruct (gone f) eqn:G; [|reflexivity]. exfalso. apply D, gone_spec, G.
Qed.
Lemma changed_place f : changed f -> place f = str "src" :: str "memfault-firmware-sdk" :: f.
Proof.
  intros C. apply patched_spec in C. destruct (place_spec f) as [(-> & _)|[([->| ->] & _)|(_ & E)]]; [vm_compute in C; discriminate..|exact E].
Qed.
