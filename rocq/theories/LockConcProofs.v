From Verif Require Import Base Conc ConcSpec ConcProofs LockConc LockConcSpec.

Section Locked.
Variables S Op R V K : Type.
Variable key : S -> K.
Variable early : Op -> option (K -> option R).
Variable body : Op -> prog S R.
Variable spec : V -> Op -> option (R * V).
Variable sim : S -> V -> Prop.
Variable ok : Op -> Prop.
Hypothesis body_free : forall o, ok o -> lock_free (body o).
Hypothesis body_keeps : forall o, ok o -> keeps key (body o).
Definition lcode (o : Op) : prog S R := guarded (match early o with Some f => Some (fun s => f (key s)) | None => None end) (body o).
Definition ends_early (o : Op) (s : S) : option R := match early o with Some f => f (key s) | None => None end.
Hypothesis early_ok : forall s v o r, sim s v -> ok o -> ends_early o s = Some r -> spec v o = Some (r, v).
Hypothesis body_ok : forall s v o, sim s v -> ok o -> ends_early o s = None ->
  exists r s' v', solo (body o) s = Some (r, s') /\ spec v o = Some (r, v') /\ sim s' v'.
Variables (s0 : S) (v0 : V).
Hypothesis start_ok : sim s0 v0.

Definition lgood (c : cfg S V) : Prop :=
  let '(s, ow, v) := c in key s = key s0 /\ (exists s', sim s' v /\ key s' = key s0) /\ (ow = None -> sim s v).
Definition lrely (t : nat) (a b : cfg S V) : Prop :=
  let '(s, ow, v) := a in let '(s', ow', v') := b in
  (ow = Some t -> s' = s /\ ow' = ow /\ v' = v) /\ (ow <> Some t -> ow' <> Some t).
Definition lidle (t : nat) (h : list (Op * R)) (c : cfg S V) : Prop := snd (fst c) <> Some t.

Lemma lrely_refl t c : lrely t c c.
Proof. destruct c as ((s & ow) & v). cbn. auto. Qed.
Lemma lrely_trans t a b c : lrely t a b -> lrely t b c -> lrely t a c.
Proof.
  destruct a as ((s & ow) & v), b as ((s1 & ow1) & v1), c as ((s2 & ow2) & v2). cbn. intros (A1 & A2) (B1 & B2). split.
  - intros E. destruct (A1 E) as (-> & -> & ->). apply B1. exact E.
  - intros E. apply B2. apply A2. exact E.
Qed.
Notation lwp := (wp S Op R V V spec (fun v => v) lgood lrely).

(** Under the lock nobody else changes anything. *)
Lemma inside_ok t o (p : prog S R) : lock_free p -> keeps key p -> forall s v r s', solo p s = Some (r, s') ->
  lgood (s, Some t, v) ->
  lwp t o p (fun a l c => a = r /\ l = None /\ c = (s', Some t, v) /\ lgood c) None (s, Some t, v).
Proof.
  induction p as [a|k IH|k IH|X f k IH]; cbn [lock_free keeps solo wp]; intros LF KP s v r s' E G; try contradiction.
  - injection E as -> ->. auto.
  - intros s1 ow1 v1 (RL & _) _. destruct (RL eq_refl) as (-> & -> & ->).
    destruct (f s) as [(x & s2)|] eqn:EF; [|discriminate]. destruct KP as (K1 & K2). exists x, s2. split; [reflexivity|].
    exists v, None. split; [left; auto|].
    assert (G2 : lgood (s2, Some t, v)).
    { destruct G as (G1 & GE & _). cbn. rewrite (K1 _ _ _ EF). split; [exact G1|]. split; [exact GE|discriminate]. }
    split; [exact G2|]. split.
    + intros u N. cbn. split; [congruence|auto].
    + apply IH; auto.
Qed.

Lemma section_ok t o h s ow v : ok o -> ends_early o s0 = None -> ow <> Some t ->
  lwp t o (section (body o)) (returns S Op R V lidle t h o) None (s, ow, v).
Proof.
  intros HO NE NT. unfold section, lock. cbn [pbind wp]. intros s1 ow1 v1 (_ & RL) G. split; [auto|]. intros ->.
  destruct G as (G1 & GE & GS). specialize (GS eq_refl).
  assert (NE1 : ends_early o s1 = None) by (unfold ends_early in *; rewrite G1; exact NE).
  destruct (body_ok s1 v1 o GS HO NE1) as (r & s2 & v2 & EB & ES & SM).
  exists v1, None. split; [left; auto|]. split; [cbn; split; [exact G1|split; [exact GE|discriminate]]|]. split.
  { intros u N. cbn. split; congruence. }
  apply wp_bind. eapply wp_mono; [|apply inside_ok; [apply body_free; exact HO|apply body_keeps; exact HO|exact EB|cbn; split; [exact G1|split; [exact GE|discriminate]]]].
  intros a l c (-> & -> & -> & GC). unfold unlock. cbn [pbind wp].
  intros s3 ow3 v3 (RL3 & _) _. destruct (RL3 eq_refl) as (-> & -> & ->). split; [reflexivity|].
  exists v2, (Some r). split; [right; split; [reflexivity|]; exists r; auto|].
  destruct GC as (GC1 & _ & _). split.
  { cbn. split; [exact GC1|]. split; [exists s2; auto|auto]. }
  split; [intros u N; cbn; split; congruence|]. split; [reflexivity|]. unfold lidle. cbn. discriminate.
Qed.

Lemma lcalls_ok t h o c : lidle t h c -> ok o -> lgood c -> lwp t o (lcode o) (returns S Op R V lidle t h o) None c.
Proof.
  intros ID HO G. destruct c as ((s & ow) & v). unfold lidle in ID. cbn [fst snd] in ID. unfold lcode, guarded.
  assert (E0 : forall s, key s = key s0 -> ends_early o s = ends_early o s0) by (intros ? E; unfold ends_early; now rewrite E).
  destruct (early o) as [f|] eqn:EE.
  - destruct (ends_early o s0) as [r|] eqn:ER.
    + apply wp_fetch_lin. intros s1 ow1 v1 RL (G1 & (s' & SM & KS) & GS).
      assert (EX : ends_early o s' = Some r) by (rewrite E0; auto).
      assert (EY : f (key s1) = Some r).
      { rewrite <- ER. unfold ends_early. rewrite EE. now rewrite G1. }
      exists v1, r. split; [eapply early_ok; eassumption|]. split; [cbn; split; [exact G1|split; [exists s'; auto|exact GS]]|].
      split; [intros; apply lrely_refl|]. rewrite EY. split; [reflexivity|].
      unfold lidle. cbn. destruct RL as (_ & RL). auto.
    + apply wp_fetch; [exact lrely_refl|]. intros s1 ow1 v1 RL (G1 & _ & _).
      assert (EY : f (key s1) = None).
      { rewrite <- ER. unfold ends_early. rewrite EE. now rewrite G1. }
      rewrite EY. apply section_ok; [exact HO|exact ER|]. destruct RL as (_ & RL). auto.
  - apply section_ok; [exact HO| |exact ID]. unfold ends_early. now rewrite EE.
Qed.

Lemma only_legal (m : mach S Op R) sched : starts_only ok sched -> legal_run lcode (fun _ _ o => ok o) m sched.
Proof.
  intros H. revert m. induction H as [|i l H1 H2 IH]; intros m; cbn [legal_run]; [exact I|]. split.
  - destruct i; auto.
  - intros m' _. apply IH.
Qed.

Theorem locked sched : starts_only ok sched ->
  exists m v, mach_run lcode (start_mach s0) sched = Some m /\ no_deadlock m /\ linearizes spec v0 (m_hist m) v /\
    (m_owner m = None -> sim (m_shared m) v).
Proof.
  intros HL.
  assert (F0 : fine S Op R V V spec (fun v => v) lgood lrely lidle v0 (start_mach s0) v0 []).
  { apply fine_start.
    - cbn. split; [reflexivity|]. split; [exists s0; auto|auto].
    - reflexivity.
    - intros t. unfold lidle. cbn. discriminate. }
  assert (IS : forall t h a b, lidle t h a -> lrely t a b -> lgood b -> lidle t h b).
  { intros t h a b. destruct a as ((? & ?) & ?), b as ((? & ?) & ?). unfold lidle. cbn. intros ? (_ & H) _. auto. }
  destruct (fine_run S Op R V V spec lcode (fun v => v) lgood lrely lrely_refl lrely_trans lidle (fun _ _ o => ok o) IS lcalls_ok
              v0 sched _ _ _ F0 (only_legal _ _ HL)) as (m & v & a & E & F).
  exists m, v. split; [exact E|]. split.
  { eapply fine_alive; try eassumption; try exact lrely_refl. intros t h s ow g H. unfold lidle in H. exact H. }
  split.
  - exists a. destruct F as [FG FS FQ FI FB]. split; [exact FS|]. split; [|exact FQ]. intros t.
    destruct (m_thread m t) as [(o & p)|] eqn:ET.
    + destruct (FB t o p ET) as (l & C & _). eapply calling_calls. exact C.
    + destruct (FI t ET) as (C & _). eapply calling_calls. exact C.
  - intros EO. destruct (f_good _ _ _ _ _ _ _ _ _ _ _ _ _ _ F) as (_ & _ & G). auto.
Qed.
End Locked.
