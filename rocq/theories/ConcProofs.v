From Verif Require Import Base Conc ConcSpec.

(** Rely-guarantee reasoning: each thread's program is proved on its own, against everything the
    others may do between its steps. *)
Section Logic.
Variables S Op R V G : Type.
Variable spec : V -> Op -> option (R * V).
Variable code : Op -> prog S R.
(** Ghost state: what the sequential object holds, and whatever the proof needs besides. *)
Variable val : G -> V.
Definition cfg : Type := (S * option nat * G)%type.
Variable good : cfg -> Prop.
Variable rely : nat -> cfg -> cfg -> Prop.
Hypothesis rely_refl : forall t c, rely t c c.
Hypothesis rely_trans : forall t a b c, rely t a b -> rely t b c -> rely t a c.
Variable idle : nat -> list (Op * R) -> cfg -> Prop.
Variable legal : nat -> list (Op * R) -> Op -> Prop.
Hypothesis idle_stable : forall t h a b, idle t h a -> rely t a b -> good b -> idle t h b.
Hypothesis idle_owner : forall t h s ow g, idle t h (s, ow, g) -> ow <> Some t.

(** A step of thread [t] in call [o] from ghost [g], whose point has ([Some]) or has not been passed. *)
Definition linstep (o : Op) (l : option R) (g : G) (l' : option R) (g' : G) : Prop :=
  (l' = l /\ val g' = val g) \/ (l = None /\ exists r, l' = Some r /\ spec (val g) o = Some (r, val g')).

Fixpoint wp {A} (t : nat) (o : Op) (p : prog S A) (Q : A -> option R -> cfg -> Prop) (l : option R) (c : cfg) : Prop :=
  match p with
  | Ret a => Q a l c
  | Lock k => forall s ow g, rely t c (s, ow, g) -> good (s, ow, g) -> ow <> Some t /\
      (ow = None -> exists g' l', linstep o l g l' g' /\ good (s, Some t, g') /\
         (forall u, u <> t -> rely u (s, ow, g) (s, Some t, g')) /\ wp t o k Q l' (s, Some t, g'))
  | Unlock k => forall s ow g, rely t c (s, ow, g) -> good (s, ow, g) -> ow = Some t /\
      exists g' l', linstep o l g l' g' /\ good (s, None, g') /\
         (forall u, u <> t -> rely u (s, ow, g) (s, None, g')) /\ wp t o k Q l' (s, None, g')
  | Act f k => forall s ow g, rely t c (s, ow, g) -> good (s, ow, g) ->
      exists x s', f s = Some (x, s') /\
      exists g' l', linstep o l g l' g' /\ good (s', ow, g') /\
         (forall u, u <> t -> rely u (s, ow, g) (s', ow, g')) /\ wp t o (k x) Q l' (s', ow, g')
  end.

Lemma wp_bind {A B} t o (p : prog S A) (q : A -> prog S B) Q : forall l c,
  wp t o p (fun a l c => wp t o (q a) Q l c) l c -> wp t o (pbind p q) Q l c.
Proof.
  induction p as [a|k IH|k IH|X f k IH]; cbn [pbind wp]; intros l c H.
  - exact H.
  - intros s ow g HR HG. destruct (H s ow g HR HG) as (H1 & H2). split; [exact H1|]. intros E.
    destruct (H2 E) as (g' & l' & L & G1 & U & W). exists g', l'. auto.
  - intros s ow g HR HG. destruct (H s ow g HR HG) as (H1 & g' & l' & L & G1 & U & W). split; [exact H1|]. exists g', l'. auto.
  - intros s ow g HR HG. destruct (H s ow g HR HG) as (x & s' & F & g' & l' & L & G1 & U & W). exists x, s'. split; [exact F|]. exists g', l'. auto.
Qed.
Lemma wp_mono {A} t o (p : prog S A) (Q Q' : A -> option R -> cfg -> Prop) : (forall a l c, Q a l c -> Q' a l c) ->
  forall l c, wp t o p Q l c -> wp t o p Q' l c.
Proof.
  intros HQ. induction p as [a|k IH|k IH|X f k IH]; cbn [wp]; intros l c H.
  - auto.
  - intros s ow g HR HG. destruct (H s ow g HR HG) as (H1 & H2). split; [exact H1|]. intros E.
    destruct (H2 E) as (g' & l' & L & G1 & U & W). exists g', l'. auto.
  - intros s ow g HR HG. destruct (H s ow g HR HG) as (H1 & g' & l' & L & G1 & U & W). split; [exact H1|]. exists g', l'. auto.
  - intros s ow g HR HG. destruct (H s ow g HR HG) as (x & s' & F & g' & l' & L & G1 & U & W). exists x, s'. split; [exact F|]. exists g', l'. auto.
Qed.
(** Reading: nothing changes. *)
Lemma wp_fetch {A B} t o (f : S -> A) (q : A -> prog S B) Q l c :
  (forall s ow g, rely t c (s, ow, g) -> good (s, ow, g) -> wp t o (q (f s)) Q l (s, ow, g)) ->
  wp t o (pbind (fetch f) q) Q l c.
Proof.
  intros H. cbn [pbind fetch wp]. intros s ow g HR HG. exists (f s), s. split; [reflexivity|].
  exists g, l. split; [left; auto|]. split; [exact HG|]. split; [intros; apply rely_refl|]. auto.
Qed.
(** Reading, at the point of the call. *)
Lemma wp_fetch_lin {A B} t o (f : S -> A) (q : A -> prog S B) Q c :
  (forall s ow g, rely t c (s, ow, g) -> good (s, ow, g) ->
     exists g' r, spec (val g) o = Some (r, val g') /\ good (s, ow, g') /\
       (forall u, u <> t -> rely u (s, ow, g) (s, ow, g')) /\ wp t o (q (f s)) Q (Some r) (s, ow, g')) ->
  wp t o (pbind (fetch f) q) Q None c.
Proof.
  intros H. cbn [pbind fetch wp]. intros s ow g HR HG. exists (f s), s. split; [reflexivity|].
  destruct (H s ow g HR HG) as (g' & r & E & G1 & U & W). exists g', (Some r). split; [right; eauto|]. auto.
Qed.

(** The result of a call: its point has been passed with this result, and the thread is idle. *)
Definition returns (t : nat) (h : list (Op * R)) (o : Op) (r : R) (l : option R) (c : cfg) : Prop :=
  l = Some r /\ idle t (h ++ [(o, r)]) c.
Lemma wp_stable t o h (p : prog S R) : forall l a b, wp t o p (returns t h o) l a -> rely t a b -> good b ->
  wp t o p (returns t h o) l b.
Proof.
  intros l a b H HR HG. destruct p; cbn [wp] in *.
  - destruct H as (H1 & H2). split; [exact H1|]. eapply idle_stable; eassumption.
  - intros s ow g HR'. apply H. eapply rely_trans; eassumption.
  - intros s ow g HR'. apply H. eapply rely_trans; eassumption.
  - intros s ow g HR'. apply H. eapply rely_trans; eassumption.
Qed.

Hypothesis calls_ok : forall t h o c, idle t h c -> legal t h o -> good c -> wp t o (code o) (returns t h o) None c.

(** The marks of one thread, with the call it is in. *)
Inductive calling (t : nat) : list (mark Op R) -> option (Op * option R) -> Prop :=
| k_nil : calling t [] None
| k_begun o : calling t [MInv t o] (Some (o, None))
| k_happened o r : calling t [MInv t o; MLin t o r] (Some (o, Some r))
| k_call o r l x : calling t l x -> calling t (MInv t o :: MLin t o r :: MRes t o r :: l) x.
Lemma calling_calls t l x : calling t l x -> calls t l.
Proof. induction 1; try assumption; constructor; assumption. Qed.
Lemma calling_inv t l o : calling t l None -> calling t (l ++ [MInv t o]) (Some (o, None)).
Proof. remember (@None (Op * option R)) as x. induction 1; try discriminate; subst; cbn [app]; constructor. auto. Qed.
Lemma calling_lin t l o r : calling t l (Some (o, None)) -> calling t (l ++ [MLin t o r]) (Some (o, Some r)).
Proof. remember (Some (o, None)) as x. induction 1; try discriminate; cbn [app].
  - inv Heqx. constructor.
  - constructor. auto.
Qed.
Lemma calling_res t l o r : calling t l (Some (o, Some r)) -> calling t (l ++ [MRes t o r]) None.
Proof.
  remember (Some (o, Some r)) as x. induction 1; try discriminate; subst; cbn [app].
  - inv Heqx. constructor. constructor.
  - constructor; auto.
Qed.
Lemma sequential_app a b : forall v v1 v2, sequential spec v a v1 -> sequential spec v1 b v2 -> sequential spec v (a ++ b) v2.
Proof. intros v v1 v2 H. revert v2. induction H; cbn [app]; intros; try (econstructor; eauto; fail). assumption. Qed.

(** The invariant of all executions. *)
Record fine (v0 : V) (m : mach S Op R) (g : G) (a : list (mark Op R)) : Prop := {
  f_good : good (m_shared m, m_owner m, g);
  f_seen : flat_map seen a = m_hist m;
  f_seq : sequential spec v0 a (val g);
  f_idle : forall t, m_thread m t = None ->
    calling t (filter (by_thread t) a) None /\ idle t (done t (m_hist m)) (m_shared m, m_owner m, g);
  f_busy : forall t o p, m_thread m t = Some (o, p) -> exists l,
    calling t (filter (by_thread t) a) (Some (o, l)) /\
    wp t o p (returns t (done t (m_hist m)) o) l (m_shared m, m_owner m, g) }.

Lemma done_app t h h' : done t (h ++ h') = done t h ++ done t h' :> list (Op * R).
Proof. unfold done. apply flat_map_app. Qed.
Lemma upd_same {T} (f : nat -> T) t x : upd f t x t = x.
Proof. unfold upd. now rewrite Nat.eqb_refl. Qed.
Lemma upd_other {T} (f : nat -> T) t u x : u <> t -> upd f t x u = f u.
Proof. intros. unfold upd. destruct (Nat.eqb_spec u t); congruence. Qed.
Lemma filter_other t (m : mark Op R) a : by_thread t m = false -> filter (by_thread t) (a ++ [m]) = filter (by_thread t) a.
Proof. intros E. rewrite filter_app. cbn [filter]. rewrite E. apply app_nil_r. Qed.
Lemma filter_own t (m : mark Op R) a : by_thread t m = true -> filter (by_thread t) (a ++ [m]) = filter (by_thread t) a ++ [m].
Proof. intros E. rewrite filter_app. cbn [filter]. now rewrite E. Qed.

(** A step inside a call. *)
Lemma fine_inside v0 m g a t o p s ow g' l l' k :
  fine v0 m g a -> m_thread m t = Some (o, p) ->
  calling t (filter (by_thread t) a) (Some (o, l)) ->
  linstep o l g l' g' -> good (s, ow, g') ->
  (forall u, u <> t -> rely u (m_shared m, m_owner m, g) (s, ow, g')) ->
  wp t o k (returns t (done t (m_hist m)) o) l' (s, ow, g') ->
  exists a', fine v0 (mk_mach s ow (upd (m_thread m) t (Some (o, k))) (m_hist m)) g' a'.
Proof.
  intros F ET CL LS GD RL WP.
  assert (OTH : forall a', (forall u, u <> t -> filter (by_thread u) a' = filter (by_thread u) a) ->
    flat_map seen a' = m_hist m -> sequential spec v0 a' (val g') -> calling t (filter (by_thread t) a') (Some (o, l')) ->
    fine v0 (mk_mach s ow (upd (m_thread m) t (Some (o, k))) (m_hist m)) g' a').
  { intros a' FO SE SQ CA. constructor; cbn [m_shared m_owner m_thread m_hist].
    - exact GD.
    - exact SE.
    - exact SQ.
    - intros u E. destruct (Nat.eq_dec u t) as [->|N]; [rewrite upd_same in E; discriminate|].
      rewrite upd_other in E by exact N. destruct (f_idle _ _ _ _ F u E) as (H1 & H2). rewrite FO by exact N. split; [exact H1|].
      eapply idle_stable; [exact H2|apply RL; exact N|exact GD].
    - intros u o' p' E. destruct (Nat.eq_dec u t) as [->|N].
      + rewrite upd_same in E. injection E as <- <-. exists l'. split; [exact CA|exact WP].
      + rewrite upd_other in E by exact N. destruct (f_busy _ _ _ _ F u o' p' E) as (lu & H1 & H2). rewrite FO by exact N.
        exists lu. split; [exact H1|]. eapply wp_stable; [exact H2|apply RL; exact N|exact GD]. }
  destruct LS as [(-> & EV)|(-> & r & -> & SP)].
  - exists a. apply OTH; [reflexivity|apply F|rewrite EV; apply F|exact CL].
  - exists (a ++ [MLin t o r]). apply OTH.
    + intros u N. apply filter_other. cbn. destruct (Nat.eqb_spec t u); congruence.
    + rewrite flat_map_app. cbn [flat_map seen]. rewrite !app_nil_r. apply F.
    + eapply sequential_app; [apply F|]. econstructor; [exact SP|constructor].
    + rewrite filter_own by (cbn; apply Nat.eqb_refl). apply calling_lin. exact CL.
Qed.

Lemma fine_step v0 m g a i : fine v0 m g a ->
  match i with Start t o => m_thread m t = None -> legal t (done t (m_hist m)) o | Step _ => True end ->
  exists m' g' a', mach_step code m i = Some m' /\ fine v0 m' g' a'.
Proof.
  intros F HL. destruct i as [t o|t]; cbn [mach_step].
  - destruct (m_thread m t) as [x|] eqn:ET; [exists m, g, a; auto|].
    destruct (f_idle _ _ _ _ F t ET) as (CI & ID). specialize (HL eq_refl).
    eexists _, g, (a ++ [MInv t o]). split; [reflexivity|].
    assert (DD : forall u, done u (m_hist m ++ [Inv t o]) = done u (m_hist m)).
    { intros u. rewrite done_app. cbn. apply app_nil_r. }
    constructor; cbn [m_shared m_owner m_thread m_hist].
    + apply F.
    + rewrite flat_map_app. cbn [flat_map seen app]. f_equal. apply F.
    + eapply sequential_app; [apply F|]. constructor. constructor.
    + intros u E. destruct (Nat.eq_dec u t) as [->|N]; [rewrite upd_same in E; discriminate|]. rewrite upd_other in E by exact N.
      rewrite DD. rewrite filter_other by (cbn; destruct (Nat.eqb_spec t u); congruence). apply F. exact E.
    + intros u o' p' E. destruct (Nat.eq_dec u t) as [->|N].
      * rewrite upd_same in E. injection E as <- <-. exists None. rewrite DD. split.
        -- rewrite filter_own by (cbn; apply Nat.eqb_refl). apply calling_inv. exact CI.
        -- apply calls_ok; [exact ID|exact HL|apply F].
      * rewrite upd_other in E by exact N. rewrite DD. rewrite filter_other by (cbn; destruct (Nat.eqb_spec t u); congruence).
        apply F. exact E.
  - destruct (m_thread m t) as [(o & p)|] eqn:ET; [|exists m, g, a; auto].
    destruct (f_busy _ _ _ _ F t o p ET) as (l & CL & WP). pose proof (f_good _ _ _ _ F) as GD.
    destruct p as [r|k|k|X f k]; cbn [wp] in WP.
    + destruct WP as (-> & ID). eexists _, g, (a ++ [MRes t o r]). split; [reflexivity|].
      assert (DD : forall u, u <> t -> done u (m_hist m ++ [Res t o r]) = done u (m_hist m)).
      { intros u N. rewrite done_app. cbn. destruct (Nat.eqb_spec t u); [congruence|]. apply app_nil_r. }
      constructor; cbn [m_shared m_owner m_thread m_hist].
      * apply F.
      * rewrite flat_map_app. cbn [flat_map seen app]. f_equal. apply F.
      * eapply sequential_app; [apply F|]. constructor. constructor.
      * intros u E. destruct (Nat.eq_dec u t) as [->|N].
        -- split; [rewrite filter_own by (cbn; apply Nat.eqb_refl); apply calling_res; exact CL|].
           rewrite done_app. cbn [done flat_map]. rewrite Nat.eqb_refl. exact ID.
        -- rewrite upd_other in E by exact N. rewrite DD by exact N. rewrite filter_other by (cbn; destruct (Nat.eqb_spec t u); congruence).
           apply F. exact E.
      * intros u o' p' E. destruct (Nat.eq_dec u t) as [->|N]; [rewrite upd_same in E; discriminate|].
        rewrite upd_other in E by exact N. rewrite DD by exact N. rewrite filter_other by (cbn; destruct (Nat.eqb_spec t u); congruence).
        apply F. exact E.
    + destruct (WP _ _ _ (rely_refl _ _) GD) as (NO & WP'). destruct (m_owner m) as [u|] eqn:EO; [exists m, g, a; auto|].
      destruct (WP' eq_refl) as (g' & l' & LS & G1 & U & W).
      destruct (fine_inside v0 m g a t o (Lock k) (m_shared m) (Some t) g' l l' k F ET CL LS G1) as (a' & FA); [rewrite EO; exact U|exact W|].
      eexists _, g', a'. split; [reflexivity|exact FA].
    + destruct (WP _ _ _ (rely_refl _ _) GD) as (EO & g' & l' & LS & G1 & U & W). rewrite EO, Nat.eqb_refl.
      destruct (fine_inside v0 m g a t o (Unlock k) (m_shared m) None g' l l' k F ET CL LS G1 U W) as (a' & FA).
      eexists _, g', a'. split; [reflexivity|exact FA].
    + destruct (WP _ _ _ (rely_refl _ _) GD) as (x & s' & EF & g' & l' & LS & G1 & U & W). rewrite EF.
      destruct (fine_inside v0 m g a t o (Act f k) s' (m_owner m) g' l l' (k x) F ET CL LS G1 U W) as (a' & FA).
      eexists _, g', a'. split; [reflexivity|exact FA].
Qed.

Lemma fine_run v0 sched : forall m g a, fine v0 m g a -> legal_run code legal m sched ->
  exists m' g' a', mach_run code m sched = Some m' /\ fine v0 m' g' a'.
Proof.
  induction sched as [|i r IH]; intros m g a F HL; cbn [mach_run legal_run] in *; [exists m, g, a; auto|].
  destruct HL as (H1 & H2). destruct (fine_step v0 m g a i F H1) as (m1 & g1 & a1 & E & F1). rewrite E. cbn [bind].
  apply (IH m1 g1 a1 F1). apply H2. exact E.
Qed.

Lemma fine_linearizable v0 m g a : fine v0 m g a -> linearizable spec v0 (m_hist m).
Proof.
  intros F. exists a, (val g). split; [apply F|]. split; [|apply F]. intros t.
  destruct (m_thread m t) as [(o & p)|] eqn:E.
  - destruct (f_busy _ _ _ _ F t o p E) as (l & C & _). eapply calling_calls. exact C.
  - destruct (f_idle _ _ _ _ F t E) as (C & _). eapply calling_calls. exact C.
Qed.
Lemma fine_alive v0 m g a : fine v0 m g a -> no_deadlock m.
Proof.
  intros F t B. destruct (m_owner m) as [u|] eqn:EO.
  - exists u. destruct (m_thread m u) as [(o & p)|] eqn:E.
    + split; [discriminate|]. intros (_ & o' & k & E'). rewrite E in E'. injection E' as -> ->.
      destruct (f_busy _ _ _ _ F u o' (Lock k) E) as (l & _ & WP). cbn [wp] in WP.
      destruct (WP _ _ _ (rely_refl _ _) (f_good _ _ _ _ F)) as (NO & _). now apply NO.
    + destruct (f_idle _ _ _ _ F u E) as (_ & ID). rewrite EO in ID. apply idle_owner in ID. congruence.
  - exists t. split; [exact B|]. intros (W & _). now apply W.
Qed.
Lemma fine_start v0 s g : good (s, None, g) -> val g = v0 -> (forall t, idle t [] (s, None, g)) -> fine v0 (start_mach s) g [].
Proof.
  intros H1 H2 H3. constructor; cbn; try assumption; try reflexivity.
  - rewrite H2. constructor.
  - intros t _. split; [constructor|apply H3].
  - discriminate.
Qed.

Theorem sound v0 s g sched : good (s, None, g) -> val g = v0 -> (forall t, idle t [] (s, None, g)) ->
  legal_run code legal (start_mach s) sched ->
  exists m, mach_run code (start_mach s) sched = Some m /\ linearizable spec v0 (m_hist m) /\ no_deadlock m.
Proof.
  intros H1 H2 H3 HL. destruct (fine_run v0 sched _ _ _ (fine_start v0 s g H1 H2 H3) HL) as (m & g' & a & E & F).
  exists m. split; [exact E|]. split; [eapply fine_linearizable|eapply fine_alive]; eassumption.
Qed.
End Logic.

(** ** Histories that are not linearizable *)
Section Search.
Context {V Op R : Type}.
Variable spec : V -> Op -> option (R * V).
Variable eqr : R -> R -> bool.
Hypothesis eqr_refl : forall r, eqr r r = true.
Variable threads : list nat.
Definition pending : Type := nat -> option (Op * option R).
(** Whether points can be put into the history; no more fuel counts as yes. *)
Fixpoint can (fuel : nat) (v : V) (p : pending) (h : list (event Op R)) : bool :=
  match fuel with
  | O => true
  | Datatypes.S f =>
      match h with
      | [] => true
      | Inv t o :: h' => can f v (upd p t (Some (o, None))) h'
      | Res t o r :: h' => match p t with Some (_, Some r') => if eqr r' r then can f v (upd p t None) h' else false | _ => false end
      end ||
      existsb (fun t => match p t with
                        | Some (o, None) => match spec v o with Some (r, v') => can f v' (upd p t (Some (o, Some r))) h | None => false end
                        | _ => false
                        end) threads
  end.
Definition rest_ok (t : nat) (x : option (Op * option R)) (l : list (mark Op R)) : Prop :=
  match x with
  | None => calls t l
  | Some (o, None) => l = [] \/ (exists r, l = [MLin t o r]) \/ exists r l', l = MLin t o r :: MRes t o r :: l' /\ calls t l'
  | Some (o, Some r) => l = [] \/ exists l', l = MRes t o r :: l' /\ calls t l'
  end.
Lemma can_complete v' : forall fuel a v p, (forall t, rest_ok t (p t) (filter (by_thread t) a)) -> sequential spec v a v' ->
  (forall t o, p t = Some (o, None) -> In t threads) -> (forall t o, In (Inv t o) (flat_map seen a) -> In t threads) ->
  can fuel v p (flat_map seen a) = true.
Proof.
  induction fuel as [|f IH]; intros a v p HR HS HP HI; [reflexivity|].
  assert (OTH : forall t m a x u, by_thread t m = true -> (forall v, v <> t -> by_thread v m = false) ->
     (forall u, rest_ok u (p u) (filter (by_thread u) (m :: a))) -> rest_ok t x (filter (by_thread t) a) -> rest_ok u (upd p t x u) (filter (by_thread u) a)).
  { intros t m a0 x u B N H1 H2. unfold upd. destruct (Nat.eqb u t) eqn:E; [apply Nat.eqb_eq in E as ->; exact H2|]. apply Nat.eqb_neq in E.
    specialize (H1 u). cbn [filter] in H1. rewrite (N u E) in H1. exact H1. }
  assert (BT : forall t (m : mark Op R), (exists o, m = MInv t o) \/ (exists o r, m = MLin t o r) \/ (exists o r, m = MRes t o r) ->
     by_thread t m = true /\ forall v, v <> t -> by_thread v m = false).
  { intros t m [(o & ->)|[(o & r & ->)|(o & r & ->)]]; cbn [by_thread]; (split; [apply Nat.eqb_refl|]);
      intros w N; apply Nat.eqb_neq; congruence. }
  destruct a as [|m a]; [reflexivity|]. inversion HS; subst.
  - destruct (BT t (MInv t o) ltac:(eauto)) as (B1 & B2). cbn [flat_map seen app can]. apply Bool.orb_true_iff. left.
    apply IH; [|assumption| |].
    + intros u. apply (OTH t (MInv t o) a _ u B1 B2 HR). specialize (HR t). cbn [filter] in HR. rewrite B1 in HR.
      destruct (p t) as [(o' & [r'|])|] eqn:EP; cbn [rest_ok] in *.
      * destruct HR as [HR|(l' & HR & _)]; discriminate.
      * destruct HR as [HR|[(r & HR)|(r & l' & HR & _)]]; discriminate.
      * inversion HR; subst; [left; reflexivity|right; left; eauto|right; right; eauto].
    + intros u o'. unfold upd. destruct (Nat.eqb u t) eqn:E; [|apply HP]. apply Nat.eqb_eq in E as ->. intros _. apply (HI t o). now left.
    + intros u o' Hu. apply (HI u o'). now right.
  - destruct (BT t (MRes t o r) ltac:(eauto 6)) as (B1 & B2). cbn [flat_map seen app can]. apply Bool.orb_true_iff. left.
    pose proof (HR t) as HT. cbn [filter] in HT. rewrite B1 in HT.
    destruct (p t) as [(o' & [r'|])|] eqn:EP; cbn [rest_ok] in *.
    + destruct HT as [HT|(l' & HT & HC)]; [discriminate|]. injection HT as -> -> HT. rewrite <- HT in HC. rewrite eqr_refl.
      apply IH; [|assumption| |].
      * intros u. apply (OTH t (MRes t o' r') a _ u B1 B2 HR). exact HC.
      * intros u o2. unfold upd. destruct (Nat.eqb u t); [discriminate|apply HP].
      * intros u o2 Hu. apply (HI u o2). now right.
    + destruct HT as [HT|[(r0 & HT)|(r0 & l' & HT & _)]]; discriminate.
    + inversion HT.
  - destruct (BT t (MLin t o r) ltac:(eauto 6)) as (B1 & B2). cbn [flat_map seen app can]. apply Bool.orb_true_iff. right.
    pose proof (HR t) as HT. cbn [filter] in HT. rewrite B1 in HT.
    destruct (p t) as [(o' & [r'|])|] eqn:EP; cbn [rest_ok] in *.
    + destruct HT as [HT|(l' & HT & HC)]; discriminate.
    + assert (o' = o /\ rest_ok t (Some (o, Some r)) (filter (by_thread t) a)) as (-> & HC).
      { destruct HT as [HT|[(r0 & HT)|(r0 & l' & HT & HC)]]; [discriminate| |]; injection HT as <- <- HT; (split; [reflexivity|]); cbn [rest_ok]; [left; exact HT|right; exists l'; split; assumption]. }
      apply existsb_exists. exists t. split; [eapply HP; exact EP|]. rewrite EP. match goal with H : spec v o = _ |- _ => rewrite H end. apply IH; [|assumption| |].
      * intros u. apply (OTH t (MLin t o r) a _ u B1 B2 HR). exact HC.
      * intros u o2. unfold upd. destruct (Nat.eqb u t); [discriminate|apply HP].
      * exact HI.
    + inversion HT.
Qed.
Lemma not_linearizable fuel v h : (forall t o, In (Inv t o) h -> In t threads) -> can fuel v (fun _ => None) h = false -> ~ linearizable spec v h.
Proof.
  intros HT HC (a & v' & <- & HA & HS).
  rewrite (can_complete v' fuel a v (fun _ => None)) in HC; [discriminate|exact HA|exact HS|discriminate|exact HT].
Qed.
End Search.

(** ** Schedules that may be run *)
Fixpoint may_run {S Op R} (code : Op -> prog S R) (legalb : nat -> list (Op * R) -> Op -> bool) (m : mach S Op R) (l : list (item Op)) : bool :=
  match l with
  | [] => true
  | i :: r =>
      match i with
      | Start t o => match m_thread m t with None => legalb t (done t (m_hist m)) o | Some _ => true end
      | Step _ => true
      end && match mach_step code m i with Some m' => may_run code legalb m' r | None => true end
  end.
Lemma may_run_ok {S Op R} (code : Op -> prog S R) (legal : nat -> list (Op * R) -> Op -> Prop) legalb : (forall t h o, legalb t h o = true -> legal t h o) ->
  forall l m, may_run code legalb m l = true -> legal_run code legal m l.
Proof.
  intros HB. induction l as [|i l IH]; intros m H; cbn [may_run legal_run] in *; [exact I|].
  apply andb_prop in H as (H1 & H2). split.
  - destruct i as [t o|t]; [|exact I]. intros E. rewrite E in H1. apply HB. exact H1.
  - intros m' E. rewrite E in H2. apply IH. exact H2.
Qed.
