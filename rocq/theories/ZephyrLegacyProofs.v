(** Proofs about Zephyr's old log backend. *)
From Verif Require Import Base Log ZephyrLog ZephyrLogSpec ZephyrLogProofs ZephyrLegacy ZephyrLegacySpec.

Definition meets (r : option (list log_res * ll)) (q : option (list log_res * lg)) (P : ll -> Prop) : Prop :=
  match q with
  | None => r = None
  | Some (rs, l) => exists s, r = Some (rs, s) /\ ll_log s = l /\ P s
  end.
Lemma meets_app : forall cfg tse l a b (x : option (list log_res * ll)) k P Q,
  meets x (log_run cfg tse l a) P ->
  (forall s', P s' -> meets (k s') (log_run cfg tse (ll_log s') b) Q) ->
  meets (do x <- x; let (rs, s) := (x : list log_res * ll) in do y <- k s; Some (rs ++ fst (y : list log_res * ll), snd y)) (log_run cfg tse l (a ++ b)) Q.
Proof.
  intros cfg tse l a b x k P Q A K. rewrite log_run_app. unfold meets in *.
  destruct (log_run cfg tse l a) as [[rs l1]|]; cbn [bind fst snd].
  2:{ rewrite A. reflexivity. }
  destruct A as (s' & -> & L & PS). cbn [bind]. specialize (K s' PS). rewrite <- L.
  destruct (log_run cfg tse (ll_log s') b) as [[rs' l']|]; cbn [bind fst snd].
  - destruct K as (s2 & -> & L2 & Q2). cbn [bind fst snd]. exists s2. auto.
  - rewrite K. reflexivity.
Qed.
Lemma meets_map : forall r q (P Q : ll -> Prop) f, (forall s, ll_log (f s) = ll_log s) -> (forall s, P s -> Q (f s)) ->
  meets r q P -> meets (do x <- r; Some (fst (x : list log_res * ll), f (snd x))) q Q.
Proof.
  intros r q P Q f F H A. unfold meets in *. destruct q as [[rs l]|].
  - destruct A as (s & -> & L & PS). cbn [bind fst snd]. exists (f s). split; [reflexivity|]. split; [rewrite F; exact L|apply H; exact PS].
  - rewrite A. reflexivity.
Qed.
Lemma save_meets : forall cfg tse s level ts t (P : ll -> Prop), (forall l, P (lset_log s l)) ->
  meets (l_save cfg tse s level ts t) (log_run cfg tse (ll_log s) [LSave level 0 ts t]) P.
Proof.
  intros cfg tse s level ts t P H. unfold meets, l_save. cbn [log_run].
  destruct (log_step cfg tse (ll_log s) (LSave level 0 ts t)) as [[r l]|]; cbn [bind fst snd]; [|reflexivity].
  exists (lset_log s l). split; [reflexivity|]. split; [reflexivity|apply H].
Qed.
Definition level_of (c : owner) (junk : Z) : Z := match c with NoCtx => 3 | Live l => l | Gone => junk end.
Lemma out_meets : forall cfg tse s isr junk ts t (P : ll -> Prop), P s -> (forall l, P (lset_log s l)) ->
  meets (l_out cfg tse s isr junk ts t) (log_run cfg tse (ll_log s) (unless isr [LSave (level_of (ll_ctx s) junk) 0 ts t])) P.
Proof.
  intros cfg tse s isr junk ts t P P0 H. unfold l_out. destruct isr; cbn [unless].
  - cbn [log_run meets]. exists s. auto.
  - apply save_meets. exact H.
Qed.

(** The buffer holds the text [cur]. *)
Definition holds_text (c : owner) (cur : list Z) (s : ll) : Prop :=
  ll_ctx s = c /\ zlen (ll_buf s) = 128 /\ ll_off s = zlen cur /\ exists rest, ll_buf s = cur ++ rest.
Lemma holds_le c cur s : holds_text c cur s -> zlen cur <= 128.
Proof. intros (_ & L & _ & rest & B). rewrite B, zlen_app in L. pose proof (zlen_nonneg rest). lia. Qed.

Lemma flush_meets : forall cfg tse c isr junk ts cur s, holds_text c cur s ->
  meets (l_flush cfg tse s isr junk ts) (log_run cfg tse (ll_log s) (unless isr [LSave (level_of c junk) 0 ts cur])) (holds_text c []).
Proof.
  intros cfg tse c isr junk ts cur s H. pose proof (holds_le _ _ _ H) as HL. destruct H as (H1 & H2 & H3 & rest & B). unfold l_flush. rewrite H3.
  rewrite read_at_some by (pose proof (zlen_nonneg cur); lia). rewrite B, drop_0, take_app_exact by reflexivity. cbn [bind].
  rewrite <- H1.
  apply (meets_map _ _ (fun s' => ll_ctx s' = ll_ctx s /\ zlen (ll_buf s') = 128) _ (fun s' => lset_buf s' (ll_buf s') 0)); [reflexivity| |].
  - intros s' (A & L). unfold holds_text. cbn [lset_buf ll_ctx ll_buf ll_off]. rewrite A. split; [reflexivity|]. split; [exact L|].
    split; [reflexivity|]. exists (ll_buf s'). reflexivity.
  - apply out_meets; [auto|]. intros l. cbn [lset_log ll_ctx ll_buf]. auto.
Qed.
Lemma put_text : forall c cur s x, zlen cur < 128 -> holds_text c cur s ->
  exists b, put (ll_buf s) (ll_off s) x = Some b /\ holds_text c (cur ++ [x]) (lset_buf s b (ll_off s + 1)).
Proof.
  intros c cur s x C (W1 & W3 & W4 & rest & B). rewrite B, W4 in *.
  destruct rest as [|y rest]; [rewrite app_nil_r in W3; lia|]. rewrite put_app_pre by reflexivity.
  eexists. split; [reflexivity|]. unfold holds_text. cbn [lset_buf ll_ctx ll_buf ll_off].
  rewrite !zlen_app, !zlen_cons, zlen_nil in *. split; [exact W1|]. split; [lia|]. split; [lia|]. exists rest. now rewrite <- app_assoc.
Qed.

(** The calls of a message, and what is left in the buffer *)
Fixpoint leg_ops (isr : bool) (level : Z) (ts : option Z) (cur : list Z) (l : list litem) : list log_op * list Z :=
  match l with
  | [] => ([], cur)
  | LCh c :: r =>
      if zlen cur =? 128 then let (o, p) := leg_ops isr level ts [c] r in (unless isr [LSave level 0 ts cur] ++ o, p)
      else leg_ops isr level ts (cur ++ [c]) r
  | LUses o :: r => let (os, p) := leg_ops isr level ts cur r in (o :: os, p)
  end.
Lemma leg_ops_ok : forall isr level ts l cur, zlen cur <= 128 ->
  exists ps, pieces (cur ++ text_of l) (ps ++ [snd (leg_ops isr level ts cur l)]) /\
    mixed (others l) (unless isr (List.map (LSave level 0 ts) ps)) (fst (leg_ops isr level ts cur l)).
Proof.
  intros isr level ts l. induction l as [|i l IH]; intros cur C; cbn [leg_ops].
  - exists []. cbn [text_of others flat_map fst snd List.map]. rewrite app_nil_r. split; [apply pc_last; exact C|].
    destruct isr; constructor.
  - destruct i as [c|o]; cbn [text_of others flat_map app]; fold (text_of l); fold (others l).
    + destruct (Z.eqb_spec (zlen cur) 128) as [E|E].
      * destruct (IH [c]) as (ps & P & M); [rewrite zlen_cons, zlen_nil; lia|].
        destruct (leg_ops isr level ts [c] l) as (o & p). cbn [fst snd] in *.
        exists (cur :: ps). cbn [app]. split; [apply pc_more; [exact E|discriminate|exact P]|].
        destruct isr; cbn [unless List.map app] in *; [exact M|]. apply mx_r. exact M.
      * destruct (IH (cur ++ [c])) as (ps & P & M); [rewrite zlen_app, zlen_cons, zlen_nil; lia|].
        exists ps. rewrite <- app_assoc in P. split; assumption.
    + destruct (IH cur C) as (ps & P & M). destruct (leg_ops isr level ts cur l) as (os & p). cbn [fst snd] in *.
      exists ps. split; [exact P|]. apply mx_l. exact M.
Qed.
Lemma items_meet : forall cfg tse isr level ts l s cur, holds_text (Live level) cur s ->
  meets (l_items cfg tse s isr ts l) (log_run cfg tse (ll_log s) (fst (leg_ops isr level ts cur l)))
    (holds_text (Live level) (snd (leg_ops isr level ts cur l))).
Proof.
  intros cfg tse isr level ts l. induction l as [|i l IH]; intros s cur F; cbn [l_items leg_ops].
  - cbn [fst snd log_run meets]. exists s. auto.
  - pose proof (holds_le _ _ _ F) as C. destruct i as [c|o].
    + unfold l_char. pose proof F as (_ & _ & W4 & _). rewrite W4. destruct (Z.eqb_spec (zlen cur) 128) as [E|E].
      * destruct (leg_ops isr level ts [c] l) as (os & p) eqn:EO. cbn [fst snd].
        apply (meets_app cfg tse (ll_log s) _ _ _ (fun s => l_items cfg tse s isr ts l) (holds_text (Live level) [c])).
        -- pose proof (flush_meets cfg tse (Live level) isr 0 ts cur s F) as A. cbn [level_of] in A. unfold meets in *.
           destruct (log_run cfg tse (ll_log s) (unless isr [LSave level 0 ts cur])) as [[rs lg]|].
           ++ destruct A as (s' & -> & L & P). cbn [bind].
              destruct (put_text (Live level) [] s' c ltac:(rewrite zlen_nil; lia) P) as (b & PB & FB).
              rewrite PB. cbn [bind]. eexists. split; [reflexivity|]. split; [exact L|exact FB].
           ++ rewrite A. reflexivity.
        -- intros s' F'. pose proof (IH s' [c] F') as A. rewrite EO in A. exact A.
      * cbn [bind]. destruct (put_text (Live level) cur s c ltac:(lia) F) as (b & PB & FB). rewrite W4 in PB, FB. rewrite W4, PB. cbn [bind].
        specialize (IH _ (cur ++ [c]) FB). cbn [lset_buf ll_log] in IH. unfold meets in *.
        destruct (log_run cfg tse (ll_log s) (fst (leg_ops isr level ts (cur ++ [c]) l))) as [[rs lg]|].
        -- destruct IH as (s' & E' & L & P). exists s'. unfold lset_buf in *. rewrite E'. auto.
        -- unfold lset_buf in *. rewrite IH. reflexivity.
    + assert (FL : forall l', holds_text (Live level) cur (lset_log s l')) by (intros l'; exact F).
      destruct (leg_ops isr level ts cur l) as (os & p) eqn:EO. cbn [fst snd log_run].
      destruct (log_step cfg tse (ll_log s) o) as [[r l']|]; cbn [bind]; [|reflexivity].
      pose proof (IH (lset_log s l') cur (FL l')) as A. rewrite EO in A. cbn [fst snd lset_log ll_log] in A. unfold meets in *.
      destruct (log_run cfg tse l' os) as [[rs l2]|]; cbn [bind].
      * destruct A as (s2 & A & L2 & Q2). exists s2. unfold lset_log in *. rewrite A. auto.
      * unfold lset_log in *. rewrite A. reflexivity.
Qed.

Definition ctx_of (w : speaker) : owner := match w with Nobody => NoCtx | Speaking l => Live l | Spoke => Gone end.
Lemma level_said w junk : level_of (ctx_of w) junk = said w junk.
Proof. destruct w; reflexivity. Qed.
Lemma parts_meet : forall cfg tse w left isr junk ts parts s, holds_text (ctx_of w) left s ->
  meets (l_parts cfg tse s isr junk ts parts) (log_run cfg tse (ll_log s) (unless isr (List.map (LSave (said w junk) 0 ts) parts))) (holds_text (ctx_of w) left).
Proof.
  intros cfg tse w left isr junk ts parts. induction parts as [|p parts IH]; intros s R; cbn [l_parts List.map].
  - destruct isr; cbn [unless log_run meets]; exists s; auto.
  - replace (unless isr (LSave (said w junk) 0 ts p :: List.map (LSave (said w junk) 0 ts) parts))
      with (unless isr [LSave (said w junk) 0 ts p] ++ unless isr (List.map (LSave (said w junk) 0 ts) parts)) by (destruct isr; reflexivity).
    apply (meets_app cfg tse (ll_log s) _ _ (l_out cfg tse s isr junk ts p) (fun s => l_parts cfg tse s isr junk ts parts) (holds_text (ctx_of w) left)); [|exact IH].
    pose proof R as (RC & _). rewrite <- level_said.
    pose proof (out_meets cfg tse s isr junk ts p (holds_text (ctx_of w) left) R (fun _ => R)) as A. rewrite RC in A. exact A.
Qed.
Lemma map_severity z : map_level z = severity z.
Proof. exact (map_level_ok z). Qed.

Lemma pieces_le t ps p : pieces t (ps ++ [p]) -> zlen p <= 128.
Proof.
  revert t. induction ps as [|a ps IH]; intros t H; cbn [app] in H.
  - inversion H; subst; [assumption|]. match goal with X : pieces _ [] |- _ => inversion X end.
  - inversion H; subst; [destruct ps; discriminate|]. eapply IH. eassumption.
Qed.
Theorem history_meets : forall cfg tse h w left, 0 <= cfg -> zlen left <= 128 ->
  exists ops, comes_to cfg w left h ops /\
    forall s, holds_text (ctx_of w) left s -> meets (ll_run cfg tse s h) (log_run cfg tse (ll_log s) ops) (fun _ => True).
Proof.
  intros cfg tse h. induction h as [|o h IH]; intros w left CF LE.
  - exists []. split; [constructor|]. intros s R. exists s. auto.
  - assert (STEP : exists ops1 w' left', zlen left' <= 128 /\ (forall r, comes_to cfg w' left' h r -> comes_to cfg w left (o :: h) (ops1 ++ r)) /\
      forall s, holds_text (ctx_of w) left s -> meets (ll_step cfg tse s o) (log_run cfg tse (ll_log s) ops1) (holds_text (ctx_of w') left')).
    { destruct o as [whole isr z ts l|isr junk ts|isr junk ts parts|isr z ts text|o]; cbn [ll_step].
      - unfold l_put. destruct (Z.eqb_spec z 0) as [->|NZ].
        { exists [], w, left. split; [exact LE|]. split; [intros r; apply ct_none|]. intros s R. exists s. auto. }
        destruct (leg_ops_ok isr (severity z) ts l left LE) as (ps & P & M).
        set (os := fst (leg_ops isr (severity z) ts left l)) in *. set (p := snd (leg_ops isr (severity z) ts left l)) in *.
        assert (IT : forall s, holds_text (ctx_of w) left s ->
          meets (l_items cfg tse (lset_ctx s (Live (map_level z))) isr ts l) (log_run cfg tse (ll_log s) os) (holds_text (Live (severity z)) p)).
        { intros s R. rewrite map_severity. apply (items_meet cfg tse isr (severity z) ts l (lset_ctx s (Live (severity z))) left).
          destruct R as (_ & R). split; [reflexivity|exact R]. }
        destruct whole.
        + exists (os ++ unless isr [LSave (severity z) 0 ts p]), Spoke, []. split; [rewrite zlen_nil; lia|]. split.
          * intros r H. eapply ct_message; [exact NZ|exact P| |exact H].
            destruct isr; cbn [unless] in *; [rewrite app_nil_r; exact M|]. rewrite List.map_app. cbn [List.map]. clear -M.
            induction M; cbn [app]; [apply mx_r; constructor|apply mx_l; assumption|apply mx_r; assumption].
          * intros s R.
            pose proof (meets_app cfg tse (ll_log s) os (unless isr [LSave (severity z) 0 ts p]) _
              (fun s => do y <- l_flush cfg tse s isr 0 ts; Some (fst (y : list log_res * ll), lset_ctx (snd y) Gone)) _ (holds_text Gone []) (IT s R)) as A.
            assert (K : forall s', holds_text (Live (severity z)) p s' ->
              meets (do y <- l_flush cfg tse s' isr 0 ts; Some (fst (y : list log_res * ll), lset_ctx (snd y) Gone))
                (log_run cfg tse (ll_log s') (unless isr [LSave (severity z) 0 ts p])) (holds_text Gone [])).
            { intros s' F. apply (meets_map _ _ (holds_text (Live (severity z)) []) _ (fun s => lset_ctx s Gone)); [reflexivity| |].
              - intros s2 (_ & X). split; [reflexivity|exact X].
              - exact (flush_meets cfg tse (Live (severity z)) isr 0 ts p s' F). }
            specialize (A K). unfold meets in *. destruct (log_run cfg tse (ll_log s) (os ++ unless isr [LSave (severity z) 0 ts p])) as [[rs lg]|].
            -- destruct A as (s' & A & L & Q). exists s'. split; [|auto]. rewrite <- A.
               destruct (l_items _ _ _ _ _ _) as [[rs1 s1]|]; cbn [bind]; [|reflexivity].
               destruct (l_flush _ _ _ _ _ _) as [[rs2 s2]|]; reflexivity.
            -- rewrite <- A. destruct (l_items _ _ _ _ _ _) as [[rs1 s1]|]; cbn [bind]; [|reflexivity].
               destruct (l_flush _ _ _ _ _ _) as [[rs2 s2]|]; reflexivity.
        + exists os, (Speaking (severity z)), p. split; [exact (pieces_le _ _ _ P)|]. split.
          * intros r H. eapply ct_part; eassumption.
          * intros s R. specialize (IT s R). unfold meets in *. destruct (log_run cfg tse (ll_log s) os) as [[rs lg]|].
            -- destruct IT as (s' & A & L & Q). rewrite A. cbn [bind]. exists s'. auto.
            -- rewrite IT. reflexivity.
      - exists (unless isr [LSave (said w junk) 0 ts left]), w, []. split; [rewrite zlen_nil; lia|]. split; [intros r; apply ct_panic|].
        intros s R. rewrite <- level_said. apply flush_meets. exact R.
      - exists (unless isr (List.map (LSave (said w junk) 0 ts) parts)), w, left. split; [exact LE|]. split; [intros r; apply ct_drop|].
        intros s R. apply parts_meet. exact R.
      - exists (unless isr (match text with [] => [] | _ => [LSave (severity z) 0 ts (take cfg text)] end)), w, left.
        split; [exact LE|]. split; [intros r; apply ct_sync|]. intros s R. unfold l_sync. destruct isr; cbn [unless].
        + exists s. auto.
        + destruct text as [|x text]; [exists s; auto|]. replace (zlen (x :: text) =? 0) with false by (rewrite zlen_cons; pose proof (zlen_nonneg text); lia).
          rewrite map_severity. replace (take (Z.min (zlen (x :: text)) cfg) (x :: text)) with (take cfg (x :: text)).
          * apply save_meets. intros l. exact R.
          * destruct (Z.le_gt_cases (zlen (x :: text)) cfg) as [G|G]; [rewrite Z.min_l by lia|rewrite Z.min_r by lia; reflexivity].
            rewrite !take_all by lia. reflexivity.
      - exists [o], w, left. split; [exact LE|]. split; [intros r; apply ct_other|]. intros s R. cbn [log_run].
        destruct (log_step cfg tse (ll_log s) o) as [[res lg]|]; cbn [bind fst snd meets]; [|reflexivity].
        exists (lset_log s lg). split; [reflexivity|]. split; [reflexivity|exact R]. }
    destruct STEP as (ops1 & w' & left' & LE' & AM & A). destruct (IH w' left' CF LE') as (ops2 & AM2 & A2).
    exists (ops1 ++ ops2). split; [apply AM; exact AM2|]. intros s R. cbn [ll_run].
    apply (meets_app cfg tse (ll_log s) ops1 ops2 (ll_step cfg tse s o) (fun s => ll_run cfg tse s h) (holds_text (ctx_of w') left')); [apply A; exact R|exact A2].
Qed.
Theorem legacy_from_boot : forall cfg tse h, 0 <= cfg ->
  exists ops, comes_to cfg Nobody [] h ops /\
    forall l, match log_run cfg tse l ops with
              | Some (rs, l') => exists s, ll_run cfg tse (ll_boot l) h = Some (rs, s) /\ ll_log s = l'
              | None => ll_run cfg tse (ll_boot l) h = None
              end.
Proof.
  intros cfg tse h CF. destruct (history_meets cfg tse h Nobody [] CF ltac:(rewrite zlen_nil; lia)) as (ops & AM & A).
  exists ops. split; [exact AM|]. intros l. specialize (A (ll_boot l)). cbn [ll_boot ll_log] in A.
  assert (R : holds_text (ctx_of Nobody) [] (ll_boot l)).
  { split; [reflexivity|]. split; [reflexivity|]. split; [reflexivity|]. exists (fill 128 0). reflexivity. }
  specialize (A R). unfold meets in A. destruct (log_run cfg tse l ops) as [[rs l']|]; [|exact A]. destruct A as (s & E & L & _). eauto.
Qed.

(** In interrupts nothing is saved. *)
Lemma mixed_nil {A} (c : list A) : mixed [] [] c -> c = [].
Proof. intros H. inversion H; reflexivity. Qed.
Lemma interrupts_nothing : forall cfg w left h ops, comes_to cfg w left h ops -> Forall in_interrupt h -> ops = [].
Proof.
  intros cfg w left h ops H. induction H; intros F; try reflexivity; apply Forall_cons_iff in F as (F0 & F); cbn [in_interrupt] in F0.
  - destruct F0 as (-> & E). rewrite E in *. cbn [unless] in *. rewrite (mixed_nil _ ltac:(eassumption)). rewrite IHcomes_to by exact F. reflexivity.
  - destruct F0 as (-> & E). rewrite E in *. cbn [unless] in *. rewrite (mixed_nil _ ltac:(eassumption)). rewrite IHcomes_to by exact F. reflexivity.
  - auto.
  - subst isr. cbn [unless app]. auto.
  - subst isr. cbn [unless app]. auto.
  - subst isr. cbn [unless app]. auto.
  - contradiction.
Qed.
Lemma interrupts_save_nothing cfg tse l h : 0 <= cfg -> Forall in_interrupt h ->
  exists s, ll_run cfg tse (ll_boot l) h = Some ([], s) /\ ll_log s = l.
Proof.
  intros C F. destruct (legacy_from_boot cfg tse h C) as (ops & H & A). rewrite (interrupts_nothing _ _ _ _ _ H F) in A. apply (A l).
Qed.

(** A message that fits the buffer is one log. *)
Lemma pieces_short t ps : zlen t <= 128 -> pieces t ps -> ps = [t].
Proof.
  intros L H. inversion H; subst; [reflexivity|]. rewrite zlen_app in L.
  match goal with N : ?x <> [] |- _ => destruct x as [|y x']; [congruence|] end. rewrite zlen_cons in L. pose proof (zlen_nonneg x'). lia.
Qed.
Lemma short_message cfg tse l z ts t : 0 <= cfg -> z <> 0 -> zlen t <= 128 ->
  match log_run cfg tse l [LSave (severity z) 0 ts t] with
  | Some (rs, l') => exists s, ll_run cfg tse (ll_boot l) [LPut true false z ts (List.map LCh t)] = Some (rs, s) /\ ll_log s = l'
  | None => ll_run cfg tse (ll_boot l) [LPut true false z ts (List.map LCh t)] = None
  end.
Proof.
  intros C NZ L. destruct (legacy_from_boot cfg tse [LPut true false z ts (List.map LCh t)] C) as (ops & H & A).
  assert (T : text_of (List.map LCh t) = t /\ others (List.map LCh t) = []).
  { clear. induction t as [|x t (IH1 & IH2)]; [split; reflexivity|]. cbn [List.map text_of others flat_map app]. fold (text_of (List.map LCh t)) (others (List.map LCh t)). rewrite IH1, IH2. split; reflexivity. }
  destruct T as (T1 & T2). enough (ops = [LSave (severity z) 0 ts t]) as -> by exact (A l).
  inversion H; subst; [|congruence].
  match goal with X : comes_to _ _ _ [] _ |- _ => inversion X; subst end.
  rewrite T1, T2 in *. cbn [app unless] in *. match goal with X : pieces _ _ |- _ => apply (pieces_short _ _ L) in X; subst end.
  cbn [List.map] in *. match goal with X : mixed _ _ _ |- _ => inversion X; subst end.
  match goal with X : mixed [] [] _ |- _ => apply mixed_nil in X; subst end. reflexivity.
Qed.
