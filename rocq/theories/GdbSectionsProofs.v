From Coq Require Import String.
From Verif Require Import Base GdbSections GdbSectionsSpec.
Open Scope string_scope. Open Scope list_scope. Open Scope Z_scope.

Definition stops (p : Z -> bool) (s : list Z) : Prop := match s with [] => True | c :: _ => p c = false end.
Lemma run_len_app p a s : Forall (fun c => p c = true) a -> stops p s -> run_len p (a ++ s) = length a.
Proof.
  induction 1 as [|c a C A IH]; intro S; simpl.
  - destruct s; simpl; [reflexivity|]. simpl in S. now rewrite S.
  - rewrite C. now rewrite IH.
Qed.
Lemma mt_Run l min p cap s : mt (Run min p cap :: l) s = if (run_len p s <? min)%nat then None else back (mt l) min cap s (run_len p s).
Proof. reflexivity. Qed.
Lemma mt_run l min p cap a s c r : Forall (fun c => p c = true) a -> stops p s -> (min <= length a)%nat -> mt l s = Some (c, r) ->
  mt (Run min p cap :: l) (a ++ s) = Some (if cap then a :: c else c, r).
Proof.
  intros A S M E. cbn [mt]. rewrite run_len_app by assumption. cbv zeta. destruct (Nat.ltb_spec (length a) min); [lia|].
  assert (X : skipn (length a) (a ++ s) = s) by (rewrite skipn_app, skipn_all, Nat.sub_diag; reflexivity).
  assert (Y : firstn (length a) (a ++ s) = a) by (rewrite firstn_app, firstn_all, Nat.sub_diag; simpl; now rewrite app_nil_r).
  destruct (length a) eqn:L; cbn [back]; rewrite X, E, Y; reflexivity.
Qed.
Lemma back_none f min cap s : forall k, (forall j, (j <= k)%nat -> f (skipn j s) = None) -> back f min cap s k = None.
Proof.
  induction k as [|k IH]; intro H; cbn [back]; rewrite H by lia; [reflexivity|]. destruct (k <? min)%nat; [reflexivity|]. apply IH. intros. apply H. lia.
Qed.
Lemma mt_is l x s : mt (is x :: l) (x :: s) = mt l s.
Proof. cbn [mt is]. now rewrite Z.eqb_refl. Qed.
Lemma mt_is_none l x s : (match s with [] => True | c :: _ => c <> x end) -> mt (is x :: l) s = None.
Proof. destruct s as [|c s]; intro H; cbn [mt is]; [reflexivity|]. destruct (Z.eqb_spec x c); [congruence|reflexivity]. Qed.

(** a match of [section_re] needs blanks and then a bracket *)
Lemma no_start_gen s : (forall k, (k <= run_len ws s)%nat -> match skipn k s with [] => True | c :: _ => c <> 91 end) -> mt section_re s = None.
Proof.
  intro H. unfold section_re. rewrite mt_Run. destruct (_ <? _)%nat; [reflexivity|]. apply back_none. intros j J. apply mt_is_none, H, J.
Qed.
Lemma run_len_lt s : forall t, Exists (fun c => ws c = false) s -> (run_len ws (s ++ t) < length s)%nat.
Proof.
  induction s as [|c s IH]; intros t E; [inversion E|]. simpl. destruct (ws c) eqn:W; [|lia]. inversion E as [? ? X|? ? X]; subst; [congruence|]. specialize (IH t X). lia.
Qed.
Lemma no_start h t : ~ In 91 h -> Exists (fun c => ws c = false) h -> mt section_re (h ++ t) = None.
Proof.
  intros N E. apply no_start_gen. intros k K. pose proof (run_len_lt h t E). rewrite skipn_app. replace (k - length h)%nat with O by lia. cbn [skipn].
  assert (L : (k < length h)%nat) by lia. destruct (skipn k h) as [|c s] eqn:S.
  - apply (f_equal (@length Z)) in S. rewrite skipn_length in S. simpl in S. lia.
  - simpl. intros ->. apply N. rewrite <- (firstn_skipn k h), S. apply in_or_app. right. now left.
Qed.
Lemma skip_head last t : forall h fuel, ~ In 91 (h ++ [last]) -> ws last = false -> (length (h ++ [last] ++ t) < fuel)%nat ->
  exists f, (length t < f)%nat /\ findall fuel section_re ((h ++ [last]) ++ t) = findall f section_re t.
Proof.
  induction h as [|c h IH]; intros fuel N W F; destruct fuel as [|f]; simpl in F; try lia; cbn [findall].
  - rewrite (no_start ([] ++ [last]) t N) by (apply Exists_cons_hd; exact W). cbn [app]. exists f. split; [lia|reflexivity].
  - rewrite (no_start ((c :: h) ++ [last]) t N) by (apply Exists_exists; exists last; split; [apply in_or_app; right; now left|exact W]).
    cbn [app]. apply IH; [intro I; apply N; now right|exact W|simpl; lia].
Qed.

Lemma digit_hex c v : digit c v -> hex c = true /\ hex_value c = v.
Proof.
  intro D. assert (C : 48 <= c <= 57 \/ 65 <= c <= 70 \/ 97 <= c <= 102) by (inversion D; lia).
  unfold hex, dec, hex_value. destruct (Z.leb_spec c 57), (Z.leb_spec c 70); (split; [|inversion D; subst; lia]); lia.
Qed.
Lemma shows_ok l n : shows l n -> l <> [] /\ Forall (fun c => hex c = true) l /\ int16 l = n.
Proof.
  induction 1 as [c v D|l n c v S (NE & F & E) D]; apply digit_hex in D as (H & V).
  - split; [discriminate|]. split; [now constructor|]. unfold int16. simpl. lia.
  - split; [destruct l; discriminate|]. split; [apply Forall_app; auto|]. unfold int16 in *. rewrite fold_left_app. simpl. rewrite E, V. lia.
Qed.
Lemma shows_len l n : shows l n -> (1 <= length l)%nat.
Proof. intro S. apply shows_ok in S as (N & _). destruct l; [congruence|simpl; lia]. Qed.
Lemma isnt_all x l : ~ In x l -> Forall (fun c => isnt x c = true) l.
Proof. intro N. apply Forall_forall. intros c C. unfold isnt. destruct (Z.eqb_spec c x); [subst; contradiction|reflexivity]. Qed.

(** a line is matched, up to its end *)
Lemma match_line r from to t : row_ok r from to -> stops (isnt 10) t -> mt section_re ((10 :: line r) ++ t) = Some ([r_from r; r_to r; r_name r; r_flags r], t).
Proof.
  intros [(N1 & N2) (B1 & B2) F T (o & O) (M1 & M2 & M3) G] ST.
  pose proof (shows_ok _ _ F) as (F1 & F2 & _). pose proof (shows_ok _ _ T) as (T1 & T2 & _). pose proof (shows_ok _ _ O) as (O1 & O2 & _).
  pose proof (shows_len _ _ F). pose proof (shows_len _ _ T).
  assert (L : forall l : list Z, l <> [] -> (1 <= length l)%nat) by (intros [|x l] X; [congruence|simpl; lia]).
  unfold line. change (str " [") with [32; 91]. change (str "]") with [93]. change (str "0x") with [48; 120]. change (str "->0x") with ([45; 62] ++ [48; 120]).
  change (str " at 0x") with [32; 97; 116; 32; 48; 120]. change (str ": ") with [58; 32]. change (str " ") with [32].
  repeat (cbn [app]; rewrite <- ?app_assoc). cbn [app]. repeat (rewrite <- app_assoc; cbn [app]). unfold section_re.
  change (10 :: 32 :: 91 :: ?x) with ([10; 32] ++ 91 :: x).
  match goal with |- mt _ ([10; 32] ++ 91 :: ?x) = _ => apply (mt_run _ 1 ws false [10; 32] (91 :: x)) end; [repeat constructor|reflexivity|simpl; lia|].
  rewrite mt_is. match goal with |- mt _ (?a ++ ?x) = _ => apply (mt_run _ 1 dec false a x) end;
    [apply Forall_forall; intros c C; rewrite Forall_forall in N2; specialize (N2 c C); unfold dec; lia|reflexivity|auto|].
  rewrite mt_is. match goal with |- mt _ (?a ++ ?x) = _ => apply (mt_run _ 1 ws false a x) end;
    [apply Forall_forall; intros c C; rewrite Forall_forall in B2; rewrite (B2 c C); reflexivity|reflexivity|auto|].
  rewrite !mt_is. match goal with |- mt _ (?a ++ ?x) = Some (_ :: ?c, ?r) => apply (mt_run _ 1 hex true a x c r) end; [assumption|reflexivity|assumption|].
  change (45 :: 62 :: ?x) with ([45; 62] ++ x).
  match goal with |- mt _ ([45; 62] ++ ?x) = Some (?c, ?r) => apply (mt_run _ 1 (isnt 48) false [45; 62] x c r) end; [repeat constructor|reflexivity|simpl; lia|].
  rewrite !mt_is. match goal with |- mt _ (?a ++ ?x) = Some (_ :: ?c, ?r) => apply (mt_run _ 1 hex true a x c r) end; [assumption|reflexivity|assumption|].
  match goal with |- mt _ (32 :: 97 :: 116 :: 32 :: 48 :: 120 :: r_off r ++ ?x) = Some (?c, ?rr) =>
    change (32 :: 97 :: 116 :: 32 :: 48 :: 120 :: r_off r ++ x) with ((32 :: 97 :: 116 :: 32 :: 48 :: 120 :: r_off r) ++ x);
    apply (mt_run _ 1 (isnt 58) false (32 :: 97 :: 116 :: 32 :: 48 :: 120 :: r_off r) x c rr) end; [|reflexivity|simpl; lia|].
  { repeat (constructor; [reflexivity|]). apply isnt_all. intro I. rewrite Forall_forall in O2. specialize (O2 58 I). discriminate. }
  rewrite !mt_is. match goal with |- mt _ (?a ++ ?x) = Some (_ :: ?c, ?r) => apply (mt_run _ 1 (isnt 32) true a x c r) end; [now apply isnt_all|reflexivity|auto|].
  rewrite mt_is. match goal with |- mt _ (?a ++ ?x) = Some (_ :: ?c, ?r) => apply (mt_run _ 0 (isnt 10) true a x c r) end; [now apply isnt_all|assumption|lia|].
  cbn [mt]. destruct t as [|c t]; [reflexivity|]. simpl in ST. unfold isnt in ST. apply negb_false_iff in ST. now rewrite ST.
Qed.

Lemma begins_spec : forall a b, begins a b = true <-> exists c, b = a ++ c.
Proof.
  induction a as [|x a IH]; intro b; simpl; [split; eauto|]. destruct b as [|y b]; [split; [discriminate|intros (c & C); discriminate]|].
  rewrite andb_true_iff, Z.eqb_eq, IH. split; [intros (-> & c & ->); eauto|intros (c & C); injection C as <- ->; eauto].
Qed.
Lemma within_spec a : forall b, within a b = true <-> exists u v, b = u ++ a ++ v.
Proof.
  induction b as [|y b IH]; cbn [within]; rewrite orb_true_iff, begins_spec.
  - split; [intros [(c & C)|]; [exists [], c; exact C|discriminate]|]. intros (u & v & E). left. destruct u; [eauto|discriminate].
  - rewrite IH. split.
    + intros [(c & C)|(u & v & ->)]; [exists [], c; exact C|exists (y :: u), v; reflexivity].
    + intros ([|z u] & v & E); [left; eauto|]. injection E as <- ->. right. eauto.
Qed.

Lemma rows_found rows : forall fuel, (exists secs : list (Z * Z), Forall2 (fun r x => row_ok r (fst x) (snd x)) rows secs) ->
  (length (flat_map (fun r => (10 :: line r)%Z) rows ++ [10%Z]) < fuel)%nat ->
  findall fuel section_re (flat_map (fun r => 10 :: line r) rows ++ [10]) = map (fun r => [r_from r; r_to r; r_name r; r_flags r]) rows.
Proof.
  induction rows as [|r rows IH]; intros fuel (secs & F) L; destruct fuel as [|f]; try (simpl in L; lia).
  - destruct f as [|f]; [simpl in L; lia|]. cbn [flat_map app map]. reflexivity.
  - inversion F as [|? (a, b) ? secs' R F']; subst. cbn [flat_map]. rewrite <- app_assoc. cbn [findall].
    rewrite (match_line r a b _ R) by (destruct rows; reflexivity). cbn [map]. f_equal. apply IH; [eauto|]. cbn [flat_map] in L. rewrite <- app_assoc, app_length in L. simpl in L. lia.
Qed.

Lemma search_skip l a : forall s, Forall (fun c => forall t, mt l (c :: t) = None) a -> search l (a ++ s) = search l s.
Proof. induction a as [|c a IH]; intros s F; [reflexivity|]. inversion F as [|? ? C F']; subst. cbn [app search]. rewrite C. now apply IH. Qed.
