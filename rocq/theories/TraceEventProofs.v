From Verif Require Import Base Cbor CborSpec CborDoc CborProofs EventStorage EventStorageSpec EventStorageProofs SerializerHelper SerializerHelperSpec SerializerHelperProofs SerializerDocs
  CompactLog CompactLogSpec CompactLogProofs TraceEvent TraceEventSpec.

(** ** Tasks: at most one is not idle *)
Fixpoint phase (l : list tpc) : tpc := match l with [] => TIdle | TIdle :: r => phase r | p :: _ => p end.
Fixpoint lone (l : list tpc) : Prop := match l with [] => True | TIdle :: r => lone r | _ :: r => Forall idle r end.
Lemma idle_lone l : Forall idle l -> lone l /\ phase l = TIdle.
Proof. induction 1 as [|p l H F IH]; [split; reflexivity|]. destruct p; cbn in H; try contradiction. exact IH. Qed.
Lemma lone_idle l : lone l -> phase l = TIdle -> Forall idle l.
Proof. induction l as [|p l IH]; intros H E; [constructor|]. destruct p; cbn in *; try discriminate. constructor; [exact I|auto]. Qed.
Lemma idle_set q : forall l t, Forall idle l -> nth_error l t <> None -> lone (set_nth t q l) /\ phase (set_nth t q l) = q.
Proof.
  induction l as [|p l IH]; intros t F N; [destruct t; contradiction|]. inversion F as [|? ? A B]; subst. destruct t as [|t]; cbn [set_nth].
  - destruct q; cbn; auto. apply (idle_lone l B).
  - destruct p; cbn in A; try contradiction. cbn. now apply IH.
Qed.
Lemma lone_at : forall l t p, lone l -> nth_error l t = Some p -> p <> TIdle -> phase l = p.
Proof.
  induction l as [|x l IH]; intros [|t] p H N D; cbn in N; try discriminate.
  - inversion N; subst. destruct p; try reflexivity. congruence.
  - destruct x; cbn in *; try (now apply (IH t)); exfalso;
      (assert (X : idle p) by (eapply Forall_forall; [exact H|]; eapply nth_error_In; exact N)); destruct p; try contradiction; congruence.
Qed.
Lemma lone_set q : forall l t p, lone l -> nth_error l t = Some p -> p <> TIdle -> lone (set_nth t q l) /\ phase (set_nth t q l) = q.
Proof.
  induction l as [|x l IH]; intros [|t] p H N D; cbn in N; try discriminate.
  - inversion N; subst. cbn [set_nth]. assert (F : Forall idle l) by (destruct p; try exact H; congruence).
    destruct q; cbn; auto. apply (idle_lone l F).
  - destruct x; cbn [set_nth] in *; try (cbn in *; now apply (IH t p)); exfalso;
      (assert (X : idle p) by (eapply Forall_forall; [exact H|]; eapply nth_error_In; exact N)); destruct p; try contradiction; congruence.
Qed.

(** ** Interrupts *)
Definition is_check (f : iframe) : Prop := match f with ICheck i => ti_reason i <> 0 | _ => False end.
Definition quiet (s : list iframe) : Prop := Forall is_check s.
(** Where the slot stands, given the accepted and the flushed events so far. *)
Inductive slot_ok (reason : Z) (info : tinfo) (acc fl : list tinfo) : list iframe -> tpc -> Prop :=
| so_free : forall fs p, quiet fs -> (match p with TFlush _ | TClear _ => False | _ => True end) ->
    acc = fl ++ (if reason =? 0 then [] else [info]) -> slot_ok reason info acc fl fs p
| so_set : forall i fs p, ti_reason i <> 0 -> quiet fs -> (match p with TFlush _ | TClear _ => False | _ => True end) -> reason = 0 -> acc = fl -> slot_ok reason info acc fl (ISet i :: fs) p
| so_copy : forall i a fs p, quiet a -> quiet fs -> (match p with TFlush _ | TClear _ => False | _ => True end) -> reason <> 0 -> acc = fl ->
    slot_ok reason info acc fl (a ++ ICopy i :: fs) p
| so_flush : forall fs k, quiet fs -> reason <> 0 -> acc = fl ++ [info] -> slot_ok reason info acc fl fs (TFlush k)
| so_clear : forall fs k, quiet fs -> reason <> 0 -> acc = fl -> slot_ok reason info acc fl fs (TClear k).

Record tinv {St} (s : tmach St) (acc fl : list tinfo) : Prop := {
  ti_lone : lone (tm_tasks s);
  ti_slot : slot_ok (tm_reason s) (tm_info s) acc fl (tm_isrs s) (phase (tm_tasks s)) }.

Lemma slot_phase r i a f fs p q : slot_ok r i a f fs p -> (match p with TFlush _ | TClear _ => False | _ => True end) ->
  (match q with TFlush _ | TClear _ => False | _ => True end) -> slot_ok r i a f fs q.
Proof. intros H P Q. destruct H; try contradiction; [now apply so_free|now apply so_set|now apply so_copy]. Qed.
Lemma slot_rest r i a f p : slot_ok r i a f [] p -> (match p with TFlush _ | TClear _ => False | _ => True end) -> a = f ++ (if r =? 0 then [] else [i]).
Proof.
  intros H P. remember [] as fs eqn:E. destruct H; try contradiction; subst; auto; try discriminate. destruct a0; discriminate.
Qed.

Lemma acc_app a b : accepted (a ++ b) = accepted a ++ accepted b. Proof. apply flat_map_app. Qed.
Lemma fl_app a b : flushed (a ++ b) = flushed a ++ flushed b. Proof. apply flat_map_app. Qed.

Lemma step_inv {St} cfg sstep (s : tmach St) e l s' acc fl : tinv s acc fl -> follows all_rules cfg s e -> te_step cfg sstep s e = Some (l, s') ->
  tinv s' (acc ++ accepted l) (fl ++ flushed l).
Proof.
  intros [HL HS] HF E. destruct e as [t c|t env|c| |o]; cbn [te_step follows] in *.
  - (* call *)
    assert (NOP : tinv s (acc ++ accepted []) (fl ++ flushed [])) by (cbn; rewrite !app_nil_r; constructor; assumption).
    destruct (tm_isrs s) as [|f fs] eqn:EI; [|inversion E; subst; exact NOP].
    destruct (nth_error (tm_tasks s) t) as [[]|] eqn:EN; try (inversion E; subst; exact NOP).
    specialize (HF eq_refl). destruct (idle_lone _ HF) as [_ PH]. rewrite PH in HS.
    assert (G : forall k, tinv (set_task s t (TCheck k)) acc fl).
    { intros k. destruct (idle_set (TCheck k) (tm_tasks s) t HF ltac:(congruence)) as [L1 P1]. constructor; cbn; [exact L1|]. rewrite P1, EI.
      now apply (slot_phase _ _ _ _ _ TIdle). }
    destruct c as [c|]; [|inversion E; subst; cbn; rewrite !app_nil_r; apply G].
    binv E. destruct (tm_booted s); inversion E; subst; cbn; rewrite !app_nil_r; [apply G|constructor; [exact HL|now rewrite EI, PH]].
  - (* task step *)
    assert (NOP : tinv s (acc ++ accepted []) (fl ++ flushed [])) by (cbn; rewrite !app_nil_r; constructor; assumption).
    destruct (tm_isrs s) as [|f fs] eqn:EI; [|inversion E; subst; exact NOP].
    unfold task_step in E. destruct (nth_error (tm_tasks s) t) as [p|] eqn:EN; [|inversion E; subst; exact NOP].
    assert (SET : p <> TIdle -> forall q, lone (set_nth t q (tm_tasks s)) /\ phase (set_nth t q (tm_tasks s)) = q) by (intros D q; now apply (lone_set q _ t p)).
    destruct p as [|k|k|k|i]; [inversion E; subst; exact NOP| | | |];
      pose proof (lone_at _ _ _ HL EN ltac:(discriminate)) as PH; specialize (SET ltac:(discriminate)); rewrite PH in HS.
    + apply slot_rest in HS; [|exact I]. destruct (tm_reason s =? 0) eqn:ER.
      * destruct k as [i|]; inversion E; subst l s'; cbn; rewrite !app_nil_r; constructor; cbn; try apply SET;
          (rewrite (proj2 (SET _)), EI; apply so_free; [constructor|exact I|now rewrite ER]).
      * inversion E; subst l s'. cbn; rewrite !app_nil_r. constructor; cbn; [apply SET|]. rewrite (proj2 (SET _)), EI.
        apply so_flush; [constructor|lia|exact HS].
    + remember [] as fs eqn:EF in HS. remember (TFlush k) as ph eqn:EH in HS. destruct HS; subst; try contradiction; try discriminate.
      binv E. destruct v as [ok st]. destruct ok; inversion E; subst l s'; cbn; rewrite ?app_nil_r; constructor; cbn; try apply SET; rewrite (proj2 (SET _)), EI.
      * apply so_clear; [constructor|assumption|reflexivity].
      * apply so_free; [constructor|exact I|]. now replace (tm_reason s =? 0) with false by lia.
    + remember [] as fs eqn:EF in HS. remember (TClear k) as ph eqn:EH in HS. destruct HS; subst; try contradiction; try discriminate.
      destruct k as [i|]; inversion E; subst l s'; cbn; rewrite !app_nil_r; constructor; cbn; try apply SET; rewrite (proj2 (SET _)), EI;
        (apply so_free; [constructor|exact I|cbn; now rewrite app_nil_r]).
    + apply slot_rest in HS; [|exact I]. binv E. destruct v as [ok st]. inversion E; subst l s'.
      replace (flushed [LStored false i env ok; LDone t (if ok then 0 else -2)]) with (@nil tinfo) by (destruct ok; reflexivity).
      replace (accepted [LStored false i env ok; LDone t (if ok then 0 else -2)]) with (@nil tinfo) by (destruct ok; reflexivity).
      rewrite !app_nil_r. constructor; cbn; [apply SET|]. rewrite (proj2 (SET _)), EI. apply so_free; [constructor|exact I|exact HS].
  - (* an interrupt arrives *)
    destruct HF as [HT HR]. specialize (HT eq_refl). specialize (HR eq_refl). binv E. rewrite E0 in HR. destruct (tm_booted s); inversion E; subst l s'; cbn; rewrite !app_nil_r; [|constructor; assumption].
    constructor; cbn; [exact HL|]. remember (phase (tm_tasks s)) as p. clear Heqp E E0 HL.
    destruct HS; try contradiction.
    + apply so_free; try assumption. now constructor.
    + apply (so_copy _ _ _ _ i (ICheck v :: a)); try assumption. now constructor.
    + apply so_flush; try assumption. now constructor.
    + apply so_clear; try assumption. now constructor.
  - (* an interrupt runs *)
    unfold isr_step in E. destruct (tm_isrs s) as [|f fs] eqn:EI; [inversion E; subst; cbn; rewrite !app_nil_r; constructor; [exact HL|now rewrite EI]|].
    remember (phase (tm_tasks s)) as p eqn:EP. remember (f :: fs) as fr eqn:EF.
    destruct HS as [fr p Q PP A|i fr p HR Q PP R A|i a fr p Q1 Q2 PP R A|fr k Q R A|fr k Q R A].
    + subst fr. inversion Q as [|? ? HC Q']; subst. destruct f; cbn in HC; try contradiction.
      destruct (tm_reason s =? 0) eqn:ER; inversion E; subst l s'; cbn; rewrite ?app_nil_r; constructor; cbn; try exact HL; try rewrite <- EP.
      * apply so_set; auto; lia.
      * apply so_free; auto. now rewrite ER.
    + inversion EF; subst f fs. inversion E; subst l s'; cbn; rewrite ?app_nil_r; constructor; cbn; try exact HL; try rewrite <- EP.
      apply (so_copy _ _ _ _ i []); auto. constructor.
    + destruct a as [|x a]; cbn in EF; inversion EF; subst.
      * assert (E' : ([LIsr i 0], mk_tm (tm_booted s) (tm_reason s) i fs (tm_tasks s) (tm_store s)) = (l, s')).
        { clear -E. destruct (ti_log i) as [lg|]; [destruct (tc_max cfg <? zlen lg); [discriminate|]|]; now inversion E. }
        inversion E'; subst l s'. constructor; cbn; [exact HL|]. try rewrite <- EP. change (accepted [LIsr i 0]) with [i]. change (flushed [LIsr i 0]) with (@nil tinfo). rewrite app_nil_r. apply so_free; auto.
        change (0 =? 0) with true. rewrite app_nil_r. destruct (tm_reason s =? 0) eqn:ER; [lia|reflexivity].
      * inversion Q1 as [|? ? HC Q']; subst. destruct f; cbn in HC; try contradiction.
        replace (tm_reason s =? 0) with false in E by lia. inversion E; subst l s'; cbn; rewrite ?app_nil_r; constructor; cbn; try exact HL; try rewrite <- EP.
        now apply so_copy.
    + subst fr. inversion Q as [|? ? HC Q']; subst. destruct f; cbn in HC; try contradiction.
      replace (tm_reason s =? 0) with false in E by lia. inversion E; subst l s'; cbn; rewrite ?app_nil_r; constructor; cbn; try exact HL; try rewrite <- EP.
      now apply so_flush.
    + subst fr. inversion Q as [|? ? HC Q']; subst. destruct f; cbn in HC; try contradiction.
      replace (tm_reason s =? 0) with false in E by lia. inversion E; subst l s'; cbn; rewrite ?app_nil_r; constructor; cbn; try exact HL; try rewrite <- EP.
      now apply so_clear.
  - destruct (tm_isrs s) as [|f fs] eqn:EI; [|inversion E; subst; cbn; rewrite !app_nil_r; constructor; [exact HL|now rewrite EI]].
    binv E. destruct v as [r st]. inversion E; subst l s'. cbn; rewrite ?app_nil_r; constructor; cbn; [exact HL|exact HS].
Qed.
Lemma run_inv {St} cfg sstep : forall es (s : tmach St) l s' acc fl, tinv s acc fl -> follows_all all_rules cfg sstep s es -> te_run cfg sstep s es = Some (l, s') ->
  tinv s' (acc ++ accepted l) (fl ++ flushed l).
Proof.
  induction es as [|e es IH]; intros s l s' acc fl H F E; cbn [te_run follows_all] in *.
  - inversion E; subst. cbn. now rewrite !app_nil_r.
  - destruct F as [F1 F2]. binv E. destruct v as [l1 s1]. rewrite E0 in F2. binv E. destruct v as [l2 s2]. inversion E; subst l s'.
    rewrite acc_app, fl_app, !app_assoc. eapply IH; [|exact F2|exact E1]. eapply step_inv; eassumption.
Qed.
Lemma init_idle n : Forall idle (repeat TIdle n).
Proof. induction n; cbn; constructor; auto. exact I. Qed.
Lemma exactly_once {St} cfg sstep booted n (st : St) es l s' :
  follows_all all_rules cfg sstep (te_init booted n st) es -> te_run cfg sstep (te_init booted n st) es = Some (l, s') -> at_rest s' ->
  accepted l = flushed l ++ waiting s'.
Proof.
  intros F E [R1 R2]. destruct (idle_lone _ (init_idle n)) as [L0 P0].
  assert (I0 : tinv (te_init booted n st) [] []).
  { constructor; cbn; [exact L0|]. rewrite P0. apply so_free; [constructor|exact I|reflexivity]. }
  pose proof (run_inv cfg sstep es _ l s' [] [] I0 F E) as [_ HS]. cbn in HS. rewrite R1 in HS. destruct (idle_lone _ R2) as [_ P]. rewrite P in HS.
  now apply slot_rest in HS.
Qed.

(** ** Calls that are not interrupted *)
Definition slot {St} (s : tmach St) (r : Z) (i : tinfo) (st : St) : tmach St := mk_tm (tm_booted s) r i (tm_isrs s) (tm_tasks s) st.
Lemma isr_accepts {St} cfg (sstep : stepper St) s c i : tm_booted s = true -> cap_info cfg true c = Some i -> tinfo_ok cfg i -> tm_reason s = 0 ->
  te_run cfg sstep s [VIsrEnter c; VIsrStep; VIsrStep; VIsrStep] = Some ([LIsr i 0], slot s (ti_reason i) i (tm_store s)).
Proof.
  intros B C K R. cbn [te_run te_step]. rewrite C. cbn [bind]. rewrite B. cbn [bind app]. unfold isr_step at 1. cbn [tm_isrs tm_reason].
  rewrite R. change (0 =? 0) with true. cbn [bind app]. unfold isr_step at 1. cbn [tm_isrs bind app tm_booted tm_tasks tm_store tm_info]. unfold isr_step. cbn [tm_isrs tm_booted tm_tasks tm_store tm_info tm_reason].
  assert (X : match ti_log i with Some l => (tc_max cfg <? zlen l) = false | None => True end).
  { unfold tinfo_ok in K. destruct (ti_log i); [lia|exact I]. }
  destruct (ti_log i) as [l|]; [rewrite X|]; cbn [bind app]; unfold slot; rewrite B; reflexivity.
Qed.
Lemma isr_refuses {St} cfg (sstep : stepper St) s c i : tm_booted s = true -> cap_info cfg true c = Some i -> tm_reason s <> 0 ->
  te_run cfg sstep s [VIsrEnter c; VIsrStep] = Some ([LIsr i (-2)], s).
Proof.
  intros B C R. cbn [te_run te_step]. rewrite C. cbn [bind]. rewrite B. cbn [bind app]. unfold isr_step at 1. cbn [tm_isrs tm_reason].
  replace (tm_reason s =? 0) with false by lia. cbn. destruct s; cbn in *; subst; reflexivity.
Qed.

(** A task that captures (or flushes, [k = None]), nobody else running. *)
Lemma nth_set_same {A} : forall n (x : A) l, nth_error l n <> None -> nth_error (set_nth n x l) n = Some x.
Proof. induction n; intros x [|y l] H; cbn in *; try congruence; auto. Qed.
Lemma set_set {A} : forall n (x y : A) l, set_nth n x (set_nth n y l) = set_nth n x l.
Proof. induction n; intros x y [|z l]; cbn; try reflexivity. now rewrite IHn. Qed.
Lemma set_back {A} : forall n (x : A) l, nth_error l n = Some x -> set_nth n x l = l.
Proof. induction n; intros x [|z l] H; cbn in *; try congruence. now rewrite IHn. Qed.

Definition save {St} cfg (sstep : stepper St) (st : St) (env : senv) (i : tinfo) : option (bool * St) :=
  match sstep st (SEncode (e_trace_event cfg env i)) with Some (RSaved b, st) => Some (b, st) | _ => None end.
Definition at_task {St} (s : tmach St) (t : nat) (p : tpc) (r : Z) (st : St) : tmach St := mk_tm true r (tm_info s) [] (set_nth t p (tm_tasks s)) st.
Lemma at_task_step {St} cfg (sstep : stepper St) s t p r st env : nth_error (tm_tasks s) t = Some TIdle ->
  te_step cfg sstep (at_task s t p r st) (VStep t env) =
  match p with
  | TIdle => Some ([], at_task s t TIdle r st)
  | TCheck k => if r =? 0 then match k with None => Some ([LDone t 0], at_task s t TIdle r st) | Some i => Some ([], at_task s t (TStore i) r st) end
                else Some ([], at_task s t (TFlush k) r st)
  | TFlush k => do x <- save cfg sstep st env (tm_info s); let (b, st) := x in
                if b then Some ([LStored true (tm_info s) env true], at_task s t (TClear k) r st)
                else Some ([LStored true (tm_info s) env false; LDone t (-2)], at_task s t TIdle r st)
  | TClear k => match k with None => Some ([LDone t 0], at_task s t TIdle 0 st) | Some i => Some ([], at_task s t (TStore i) 0 st) end
  | TStore i => do x <- save cfg sstep st env i; let (b, st) := x in
                Some ([LStored false i env b; LDone t (if b then 0 else -2)], at_task s t TIdle r st)
  end.
Proof.
  intros N. unfold at_task. cbn [te_step tm_isrs]. unfold task_step, te_store, save, set_task. cbn [tm_booted tm_reason tm_info tm_isrs tm_tasks tm_store].
  rewrite nth_set_same by congruence. destruct p as [|k|k|k|i].
  - reflexivity.
  - destruct k; rewrite ?set_set; reflexivity.
  - destruct (sstep st (SEncode (e_trace_event cfg env (tm_info s)))) as [[[b| |] st1]|]; cbn [bind]; rewrite ?set_set; try reflexivity.
  - destruct k; rewrite ?set_set; reflexivity.
  - destruct (sstep st (SEncode (e_trace_event cfg env i))) as [[[b| |] st1]|]; cbn [bind]; rewrite ?set_set; reflexivity.
Qed.
Lemma call_step {St} cfg (sstep : stepper St) s t c k : tm_booted s = true -> tm_isrs s = [] -> nth_error (tm_tasks s) t = Some TIdle ->
  match c with Some c => exists i, cap_info cfg false c = Some i /\ k = Some i | None => k = None end ->
  te_step cfg sstep s (VCall t c) = Some ([], at_task s t (TCheck k) (tm_reason s) (tm_store s)).
Proof.
  intros B II N C. cbn [te_step]. rewrite II, N. unfold set_task, at_task. destruct c as [c|]; [destruct C as (i & -> & ->)|subst k]; cbn [bind]; now rewrite B, II.
Qed.
Lemma at_idle {St} (s : tmach St) t r st : tm_booted s = true -> tm_isrs s = [] -> nth_error (tm_tasks s) t = Some TIdle -> at_task s t TIdle r st = slot s r (tm_info s) st.
Proof. intros B II N. unfold at_task, slot. now rewrite set_back, B, II. Qed.
Lemma task_capture {St} cfg (sstep : stepper St) s t c i env env2 : tm_booted s = true -> tm_isrs s = [] -> nth_error (tm_tasks s) t = Some TIdle ->
  cap_info cfg false c = Some i -> tm_reason s = 0 ->
  te_run cfg sstep s [VCall t (Some c); VStep t env; VStep t env2] =
  (do x <- save cfg sstep (tm_store s) env2 i; let (b, st) := x in
   Some ([LStored false i env2 b; LDone t (if b then 0 else -2)], slot s 0 (tm_info s) st)).
Proof.
  intros B II N C R. cbn [te_run]. rewrite (call_step cfg sstep s t (Some c) (Some i)) by eauto. cbn [bind]. rewrite at_task_step by assumption. rewrite R. change (0 =? 0) with true. cbn [bind].
  rewrite at_task_step by assumption. destruct (save cfg sstep (tm_store s) env2 i) as [[b st]|]; cbn [bind app]; [|reflexivity]. now rewrite at_idle.
Qed.
Lemma task_flush_capture {St} cfg (sstep : stepper St) s t c i e1 e2 e3 e4 st1 : tm_booted s = true -> tm_isrs s = [] -> nth_error (tm_tasks s) t = Some TIdle ->
  cap_info cfg false c = Some i -> tm_reason s <> 0 -> save cfg sstep (tm_store s) e2 (tm_info s) = Some (true, st1) ->
  te_run cfg sstep s [VCall t (Some c); VStep t e1; VStep t e2; VStep t e3; VStep t e4] =
  (do x <- save cfg sstep st1 e4 i; let (b, st) := x in
   Some ([LStored true (tm_info s) e2 true; LStored false i e4 b; LDone t (if b then 0 else -2)], slot s 0 (tm_info s) st)).
Proof.
  intros B II N C R SV. cbn [te_run]. rewrite (call_step cfg sstep s t (Some c) (Some i)) by eauto. cbn [bind]. rewrite at_task_step by assumption. replace (tm_reason s =? 0) with false by lia. cbn [bind].
  rewrite at_task_step by assumption. rewrite SV. cbn [bind]. rewrite at_task_step by assumption. cbn [bind]. rewrite at_task_step by assumption.
  destruct (save cfg sstep st1 e4 i) as [[b st]|]; cbn [bind app]; [|reflexivity]. now rewrite at_idle.
Qed.
Lemma task_flush {St} cfg (sstep : stepper St) s t e1 e2 e3 st1 : tm_booted s = true -> tm_isrs s = [] -> nth_error (tm_tasks s) t = Some TIdle ->
  tm_reason s <> 0 -> save cfg sstep (tm_store s) e2 (tm_info s) = Some (true, st1) ->
  te_run cfg sstep s [VCall t None; VStep t e1; VStep t e2; VStep t e3] =
  Some ([LStored true (tm_info s) e2 true; LDone t 0], slot s 0 (tm_info s) st1).
Proof.
  intros B II N R SV. cbn [te_run]. rewrite (call_step cfg sstep s t None None) by eauto. cbn [bind]. rewrite at_task_step by assumption. replace (tm_reason s =? 0) with false by lia. cbn [bind].
  rewrite at_task_step by assumption. rewrite SV. cbn [bind]. rewrite at_task_step by assumption. cbn [bind app]. now rewrite at_idle.
Qed.
Lemma task_flush_fails {St} cfg (sstep : stepper St) s t c e1 e2 st1 : tm_booted s = true -> tm_isrs s = [] -> nth_error (tm_tasks s) t = Some TIdle ->
  match c with Some c => cap_info cfg false c <> None | None => True end -> tm_reason s <> 0 -> save cfg sstep (tm_store s) e2 (tm_info s) = Some (false, st1) ->
  te_run cfg sstep s [VCall t c; VStep t e1; VStep t e2] = Some ([LStored true (tm_info s) e2 false; LDone t (-2)], slot s (tm_reason s) (tm_info s) st1).
Proof.
  intros B II N C R SV. cbn [te_run].
  assert (CC : exists k, match c with Some c => exists i, cap_info cfg false c = Some i /\ k = Some i | None => k = None end).
  { destruct c as [c|]; [|eauto]. destruct (cap_info cfg false c) as [i|]; [eauto|congruence]. }
  destruct CC as [k CC]. rewrite (call_step cfg sstep s t c k) by assumption. cbn [bind]. rewrite at_task_step by assumption. replace (tm_reason s =? 0) with false by lia. cbn [bind].
  rewrite at_task_step by assumption. rewrite SV. cbn [bind app]. now rewrite at_idle.
Qed.

(** ** On the storage *)
Lemma cap_ok cfg isr c : tcfg_ok cfg -> tcap_ok cfg c -> exists i, cap_info cfg isr c = Some i /\ tinfo_ok cfg i.
Proof.
  unfold tcfg_ok. intros HC K. destruct c as [r pc lr|r pc lr st|r pc lr t|r lr id fmt args]; cbn [cap_info].
  - eexists; split; [reflexivity|exact I].
  - eexists; split; [reflexivity|exact I].
  - destruct (isr && negb (tc_isr_log cfg)); (eexists; split; [reflexivity|]); [exact I|]. unfold tinfo_ok. cbn [ti_log].
    destruct K as (_ & _ & _ & _ & K). destruct t as [t|]; [|split; [constructor|change (zlen (@nil Z)) with 0; lia]].
    split; [now apply bytes_take|]. rewrite zlen_take. lia.
  - destruct (isr && negb (tc_isr_log cfg)); [eexists; split; [reflexivity|exact I]|].
    destruct K as (_ & _ & _ & -> & FA & LA). destruct (compact_ok (tc_start cfg) id args FA LA) as (p & -> & EO & _). cbn [bind].
    eexists; split; [reflexivity|]. unfold tinfo_ok. cbn [ti_log].
    assert (U : is_u32 (tc_max cfg)) by (unfold is_u32; lia).
    destruct (prog_ok p (cbor_init (tc_max cfg)) (enc_wf_init _ U)) as (b & e & E & W & L & B); [cbn; lia|exact EO|constructor|].
    rewrite E. cbn [snd]. split; [exact B|]. rewrite <- (ew_size _ W). pose proof (ew_le _ W) as Y. rewrite L in Y. exact Y.
Qed.
Lemma eok_trace_event cfg env i : tcfg_ok cfg -> senv_ok env -> tinfo_ok cfg i -> eprog_ok (e_trace_event cfg env i).
Proof.
  unfold tcfg_ok. intros HC HE K. unfold e_trace_event. cbv zeta. apply eok_and; [now apply eok_trace|]. apply eok_and.
  - destruct (ti_status i); [apply eok_s32|exact I].
  - unfold tinfo_ok in K. destruct (ti_log i) as [l|]; [|exact I]. destruct K as [K1 K2].
    destruct (tc_compact cfg); [|unfold e_bytes]; eok; (split; [exact K1|cbn; lia]).
Qed.

Definition frame_info (f : iframe) : tinfo := match f with ICheck i | ISet i | ICopy i => i end.
Definition tpc_ok cfg (p : tpc) : Prop := match p with TCheck (Some i) | TFlush (Some i) | TClear (Some i) | TStore i => tinfo_ok cfg i | _ => True end.
Record msim cfg ecfg cap (a : tmach ssv) (b : tmach sh) : Prop := {
  ms_booted : tm_booted b = tm_booted a; ms_reason : tm_reason b = tm_reason a; ms_info : tm_info b = tm_info a;
  ms_isrs : tm_isrs b = tm_isrs a; ms_tasks : tm_tasks b = tm_tasks a;
  ms_store : ssim ecfg cap (tm_store b) (tm_store a);
  ms_iok : tinfo_ok cfg (tm_info a); ms_fok : Forall (fun f => tinfo_ok cfg (frame_info f)) (tm_isrs a);
  ms_tok : Forall (tpc_ok cfg) (tm_tasks a) }.
Lemma set_ok {A} (P : A -> Prop) x : P x -> forall n l, Forall P l -> Forall P (set_nth n x l).
Proof. intros H. induction n; intros [|y l] F; cbn; auto; inversion F; subst; constructor; auto. Qed.
Lemma store_sim cfg ecfg cap a b env i ok st : tcfg_ok cfg -> msim cfg ecfg cap a b -> senv_ok env -> tinfo_ok cfg i -> te_store cfg (ssv_step ecfg cap) a env i = Some (ok, st) ->
  exists st', te_store cfg (sh_step ecfg) b env i = Some (ok, st') /\ ssim ecfg cap st' st.
Proof.
  intros HC M HE K E. unfold te_store in *. rewrite (ms_booted _ _ _ _ _ M). destruct (tm_booted a); [|discriminate]. binv E. destruct v as [[r| |] q]; try discriminate.
  inversion E; subst r q. destruct (sh_step_ok _ _ _ _ (SEncode (e_trace_event cfg env i)) _ _ (ms_store _ _ _ _ _ M) (eok_trace_event _ _ _ HC HE K) E0) as (st' & -> & S').
  cbn. eauto.
Qed.
Ltac msim := constructor; cbn; try (first [reflexivity|assumption|congruence]).
Lemma step_sim cfg ecfg cap a b e l a' : tcfg_ok cfg -> msim cfg ecfg cap a b -> tsched_ok cfg e -> te_step cfg (ssv_step ecfg cap) a e = Some (l, a') ->
  exists b', te_step cfg (sh_step ecfg) b e = Some (l, b') /\ msim cfg ecfg cap a' b'.
Proof.
  intros HC M K E. pose proof M as [Hb Hr Hi Hf Ht Hs O1 O2 O3].
  assert (SET : forall t p, tpc_ok cfg p -> msim cfg ecfg cap (set_task a t p) (set_task b t p)).
  { intros t p P. msim; try (now rewrite Ht). now apply set_ok. }
  destruct e as [t c|t env|c| |o]; cbn [te_step tsched_ok] in *.
  - rewrite Hf, Ht, Hb. destruct (tm_isrs a) as [|f fs]; [|inversion E; subst; eauto].
    destruct (nth_error (tm_tasks a) t) as [[]|]; try (inversion E; subst; eauto; fail).
    destruct c as [c|]; [|inversion E; subst; eexists; split; [reflexivity|now apply SET]].
    destruct (cap_ok cfg false c HC K) as (i & CI & IO). rewrite CI in *. cbn [bind] in *.
    destruct (tm_booted a); inversion E; subst; eexists; (split; [reflexivity|]); [now apply SET|exact M].
  - rewrite Hf. destruct (tm_isrs a) as [|f fs] eqn:EI; [|inversion E; subst; eauto].
    unfold task_step in *. rewrite Ht, Hr, Hi, Hb. destruct (nth_error (tm_tasks a) t) as [p|] eqn:EN; [|inversion E; subst; eauto].
    assert (PK : tpc_ok cfg p) by (eapply Forall_forall; [exact O3|eapply nth_error_In; exact EN]).
    destruct p as [|k|k|k|i]; [inversion E; subst; eauto| | | |].
    + destruct (tm_reason a =? 0); [destruct k|]; inversion E; subst; eexists; (split; [reflexivity|]); now apply SET.
    + binv E. destruct v as [ok st]. destruct (store_sim _ _ _ _ _ _ _ _ _ HC M K O1 E0) as (st' & -> & S'). cbn [bind].
      destruct ok; inversion E; subst; eexists; (split; [reflexivity|]); msim; try (now rewrite Hf, EI); try (rewrite EI; constructor); now apply set_ok.
    + destruct k; inversion E; subst; eexists; (split; [reflexivity|]); msim; try (now rewrite Hf, EI); try (rewrite EI; constructor); now apply set_ok.
    + binv E. destruct v as [ok st]. destruct (store_sim _ _ _ _ _ _ _ _ _ HC M K PK E0) as (st' & -> & S'). cbn [bind].
      inversion E; subst; eexists; (split; [reflexivity|]); msim; try (now rewrite Hf, EI); try (rewrite EI; constructor); now apply set_ok.
  - destruct (cap_ok cfg true c HC K) as (i & CI & IO). rewrite CI in *. cbn [bind] in *. rewrite Hb.
    destruct (tm_booted a); inversion E; subst; eexists; (split; [reflexivity|]); [|exact M]. msim. now constructor.
  - unfold isr_step in *. rewrite Hf, Hr, Hi, Hb, Ht. destruct (tm_isrs a) as [|f fs] eqn:EI; [inversion E; subst; eauto|]. inversion O2 as [|? ? F1 F2]; subst.
    destruct f as [i|i|i]; cbn in F1.
    + destruct (tm_reason a =? 0); inversion E; subst; eexists; (split; [reflexivity|]); msim. now constructor.
    + inversion E; subst; eexists; (split; [reflexivity|]); msim. now constructor.
    + destruct (ti_log i) as [lg|]; [destruct (tc_max cfg <? zlen lg); [discriminate|]|]; inversion E; subst; eexists; (split; [reflexivity|]); msim.
  - rewrite Hf. destruct (tm_isrs a) as [|f fs] eqn:EI; [|inversion E; subst; eauto].
    binv E. destruct v as [r st]. destruct (sh_step_ok _ _ _ _ o _ _ Hs K E0) as (st' & -> & S'). cbn [bind]. inversion E; subst.
    eexists; (split; [reflexivity|]); msim; try (now rewrite Hf, EI); constructor.
Qed.
Lemma run_sim cfg ecfg cap : tcfg_ok cfg -> forall es a b l a', msim cfg ecfg cap a b -> Forall (tsched_ok cfg) es -> te_run cfg (ssv_step ecfg cap) a es = Some (l, a') ->
  exists b', te_run cfg (sh_step ecfg) b es = Some (l, b') /\ msim cfg ecfg cap a' b'.
Proof.
  intros HC. induction es as [|e es IH]; intros a b l a' M F E; cbn [te_run] in *; [inversion E; subst; eauto|].
  inversion F as [|? ? F1 F2]; subst. binv E. destruct v as [l1 a1]. binv E. destruct v as [l2 a2]. inversion E; subst l a2.
  destruct (step_sim _ _ _ _ _ _ _ _ HC M F1 E0) as (b1 & -> & M1). cbn [bind]. destruct (IH _ _ _ _ M1 F2 E1) as (b2 & -> & M2). cbn. eauto.
Qed.
Lemma real_storage cfg ecfg storage booted n es l a : tcfg_ok cfg -> 0 < zlen storage <= 2147483648 -> Forall (tsched_ok cfg) es ->
  te_run cfg (ssv_step ecfg (zlen storage)) (te_init booted n (mk_ssv (mk_sev [] None 0) 0)) es = Some (l, a) ->
  exists s b, es_boot storage (zlen storage) = Some (Some s) /\ te_run cfg (sh_step ecfg) (te_init booted n (mk_sh s 0 0)) es = Some (l, b) /\
    waiting b = waiting a.
Proof.
  intros HC HS F E. destruct (sh_boot_ok ecfg storage HS) as (s & EB & M).
  assert (M0 : msim cfg ecfg (zlen storage) (te_init booted n (mk_ssv (mk_sev [] None 0) 0)) (te_init booted n (mk_sh s 0 0))).
  { constructor; cbn; try reflexivity; try assumption; try exact I; try constructor. clear. induction n; cbn; constructor; auto. exact I. }
  destruct (run_sim _ _ _ HC _ _ _ _ _ M0 F E) as (b & R & [X1 X2 X3 _ _ _ _ _ _]). exists s, b. split; [exact EB|]. split; [exact R|]. unfold waiting. now rewrite X2, X3.
Qed.

(** ** What is stored *)
(** As doc_encode and doc_in_history, for calls that write the bytes of a document in another way. *)
Lemma bytes_encode cfg cap v p xs d : runs p xs -> ops_bytes xs = ops_bytes (doc_ops d) -> doc_ok d -> 0 <= cap <= 2147483648 -> 0 <= used (q_store v) ->
  v_part (q_store v) = None -> doc_size d <= 65532 ->
  ssv_step cfg cap v (SEncode p) =
    (if used (q_store v) + 2 + doc_size d <=? cap
     then Some (RSaved true, mk_ssv (mk_sev (v_events (q_store v) ++ [ops_bytes (doc_ops d)]) None (v_reading (q_store v))) (q_missed v))
     else Some (RSaved false, mk_ssv (q_store v) (q_missed v + 1))).
Proof.
  intros R EX K HC HU P HS. cbn [ssv_step]. rewrite P. unfold doc_size in *. rewrite <- EX in *.
  assert (HQ : is_u32 (q_space cap (q_store v))) by (unfold is_u32, q_space; lia).
  assert (HL : ce_size (cbor_init (q_space cap (q_store v))) + zlen (ops_bytes xs) < 4294967296) by (cbn [cbor_init ce_size]; lia).
  rewrite R; [|now right; apply enc_wf_init|exact HL].
  destruct (doc_reads d K) as [L1 _]. rewrite <- EX in L1.
  destruct (cbor_seq_ok xs _ (enc_wf_init _ HQ) HL) as (b & e & o & E & W & LE & B & O & T & _). rewrite E.
  cbn [cbor_init ce_size ce_len] in *. unfold q_space in B.
  destruct b.
  - rewrite O, (T eq_refl). change (ce_output (cbor_init (q_space cap (q_store v)))) with (@nil Z). cbn [app].
    destruct B as [B _]. specialize (B eq_refl). assert (1 <= zlen (ops_bytes xs)) by (unfold zlen; lia).
    set (m := ops_bytes xs) in *.
    replace (1 <=? zlen m) with true by lia. replace (zlen m <=? 65532) with true by lia.
    replace (used (q_store v) + 2 + zlen m <=? cap) with true by lia. reflexivity.
  - destruct (used (q_store v) + 2 + zlen (ops_bytes xs) <=? cap) eqn:EE; [|reflexivity].
    exfalso. assert (false = true) by (apply B; lia). discriminate.
Qed.
Lemma bytes_in_history cfg storage ops rs v p xs d :
  0 < zlen storage <= 2147483648 -> Forall shop_ok ops ->
  ssv_run cfg (zlen storage) (mk_ssv (mk_sev [] None 0) 0) ops = Some (rs, v) -> v_part (q_store v) = None ->
  runs p xs -> ops_bytes xs = ops_bytes (doc_ops d) -> eprog_ok p -> doc_ok d -> doc_size d <= 65532 ->
  exists s b s' v', es_boot storage (zlen storage) = Some (Some s) /\
    sh_run cfg (mk_sh s 0 0) (ops ++ [SEncode p]) = Some (rs ++ [RSaved b], s') /\
    ssv_run cfg (zlen storage) (mk_ssv (mk_sev [] None 0) 0) (ops ++ [SEncode p]) = Some (rs ++ [RSaved b], v') /\
    sh_compute_size p = doc_size d /\
    (b = true <-> used (q_store v) + 2 + sh_compute_size p <= zlen storage) /\
    (b = true -> exists ev, v' = mk_ssv (mk_sev (v_events (q_store v) ++ [ev]) None (v_reading (q_store v))) (q_missed v) /\
       zlen ev = sh_compute_size p /\ cbor_read ev = Some (doc_value d, [])) /\
    (b = false -> v' = mk_ssv (q_store v) (q_missed v + 1)).
Proof.
  intros HS HO HR P R EX K KD SZ. destruct (sh_boot_ok cfg storage HS) as (s & EB & M).
  assert (HU : 0 <= used (q_store v)).
  { destruct (sh_run_ok _ _ _ _ _ _ _ M HO HR) as (s1 & _ & [M1 _ _ _]). destruct (esim_sz _ _ _ _ M1) as (_ & _ & HU & _). lia. }
  pose proof (bytes_encode cfg (zlen storage) v p xs d R EX KD ltac:(lia) HU P SZ) as ST.
  pose proof (zlen_nonneg (ops_bytes (doc_ops d))).
  assert (CS : sh_compute_size p = doc_size d).
  { unfold doc_size. rewrite <- EX. apply runs_size; [exact R|unfold doc_size in SZ; rewrite EX; lia]. }
  set (b := used (q_store v) + 2 + doc_size d <=? zlen storage) in *.
  assert (exists v', ssv_step cfg (zlen storage) v (SEncode p) = Some (RSaved b, v') /\
    (b = true -> exists ev, v' = mk_ssv (mk_sev (v_events (q_store v) ++ [ev]) None (v_reading (q_store v))) (q_missed v) /\
       zlen ev = sh_compute_size p /\ cbor_read ev = Some (doc_value d, [])) /\
    (b = false -> v' = mk_ssv (q_store v) (q_missed v + 1))) as (v' & E & V1 & V2).
  { destruct b; (eexists; split; [exact ST|]); (split; [|try reflexivity]); try discriminate.
    intros _. exists (ops_bytes (doc_ops d)). split; [reflexivity|]. split; [now rewrite CS|].
    rewrite <- (app_nil_r (ops_bytes (doc_ops d))). now apply doc_cbor_read. }
  assert (ER : ssv_run cfg (zlen storage) (mk_ssv (mk_sev [] None 0) 0) (ops ++ [SEncode p]) = Some (rs ++ [RSaved b], v')).
  { rewrite ssv_run_app, HR. cbn [bind ssv_run]. rewrite E. reflexivity. }
  assert (HO' : Forall shop_ok (ops ++ [SEncode p])) by (apply Forall_app; split; [exact HO|constructor; [exact K|constructor]]).
  destruct (sh_run_ok _ _ _ _ _ _ _ M HO' ER) as (s' & RR & _).
  exists s, b, s', v'. split; [exact EB|]. split; [exact RR|]. split; [exact ER|]. split; [exact CS|].
  split; [rewrite CS; unfold b; lia|]. split; assumption.
Qed.

Definition trace_head (env : senv) (rk r pc lr n : Z) : list cbor_op :=
  meta_ops env 2 (en_time env) ++ [OpUnsigned 4; OpDict (u32 (1 + (if pc =? 0 then 0 else 1) + (if lr =? 0 then 0 else 1) + n))] ++ [OpUnsigned rk; OpUnsigned r]
  ++ (if pc =? 0 then [] else [OpUnsigned 2; OpUnsigned pc]) ++ (if lr =? 0 then [] else [OpUnsigned 3; OpUnsigned lr]).
Lemma runs_head env rk r pc lr n p xs : runs p xs -> runs (e_and (e_trace env rk r pc lr n) p) (trace_head env rk r pc lr n ++ xs).
Proof.
  intros HP. apply runs_and; [|exact HP]. unfold e_trace. cbv zeta. unfold trace_head.
  apply runs_and; [apply runs_meta|]. apply runs_and; [apply runs_all|]. apply runs_and; [apply runs_all|].
  apply runs_and; apply runs_unless, runs_all.
Qed.
Lemma head_doc env rk r pc lr more : zlen more < 4294967290 ->
  doc_ops (event_doc env 2 (en_time env) (DMap (trace_pairs rk r pc lr ++ more))) = trace_head env rk r pc lr (zlen more) ++ pair_ops more.
Proof.
  intros HM. rewrite event_doc_ops. cbn [doc_ops]. fold (pair_ops (trace_pairs rk r pc lr ++ more)). rewrite pair_ops_app. unfold trace_head.
  assert (EN : u32 (1 + (if pc =? 0 then 0 else 1) + (if lr =? 0 then 0 else 1) + zlen more) = zlen (trace_pairs rk r pc lr ++ more)).
  { pose proof (zlen_nonneg more). rewrite zlen_app. unfold trace_pairs. rewrite u32_id by (unfold is_u32; destruct (pc =? 0), (lr =? 0); lia).
    destruct (pc =? 0), (lr =? 0); cbn [app]; rewrite !zlen_cons; change (zlen (@nil (doc * doc))) with 0; lia. }
  rewrite EN. unfold trace_pairs. destruct (pc =? 0), (lr =? 0); rewrite <- !app_assoc; reflexivity.
Qed.

Definition cap_head (c : tcap) : Z * Z * Z :=
  match c with CPlain r pc lr | CStatus r pc lr _ | CLog r pc lr _ => (r, pc, lr) | CCompact r lr _ _ _ => (r, 0, lr) end.
Definition cap_more (cfg : tcfg) (isr : bool) (c : tcap) : list (doc * doc) :=
  match c with
  | CPlain _ _ _ => []
  | CStatus _ _ _ st => [dkv 7 (DSigned st)]
  | CLog _ _ _ t => if isr && negb (tc_isr_log cfg) then [] else [dkv 8 (DBytes (match t with Some t => take (tc_max cfg - 1) t | None => [] end))]
  | CCompact _ _ id _ args => if isr && negb (tc_isr_log cfg) then [] else [dkv 9 (compact_doc ((id - tc_start cfg) mod 4294967296) args)]
  end.
Definition cap_doc cfg env isr c : doc :=
  let '(r, pc, lr) := cap_head c in event_doc env 2 (en_time env) (DMap (trace_pairs 6 r pc lr ++ cap_more cfg isr c)).
Lemma cap_doc_value cfg env isr c : doc_value (cap_doc cfg env isr c) = cap_item cfg env isr c.
Proof.
  unfold cap_doc, cap_item, trace_item, cap_head, cap_more. destruct c as [r pc lr|r pc lr st|r pc lr t|r lr id fmt args];
    rewrite event_doc_value; f_equal; cbn [doc_value map]; unfold trace_pairs, kv_if, kv_opt, dkv.
  - destruct (pc =? 0), (lr =? 0); reflexivity.
  - destruct (pc =? 0), (lr =? 0); reflexivity.
  - destruct (isr && negb (tc_isr_log cfg)), (pc =? 0), (lr =? 0); reflexivity.
  - change (0 =? 0) with true. destruct (isr && negb (tc_isr_log cfg)), (lr =? 0); cbn [app map fst snd negb]; rewrite ?compact_doc_value; reflexivity.
Qed.
Lemma cap_doc_ok cfg env isr c : tcfg_ok cfg -> senv_ok env -> tcap_ok cfg c -> doc_ok (cap_doc cfg env isr c).
Proof.
  intros HC HE K. unfold cap_doc, cap_head, cap_more.
  assert (ALL : forall r pc lr more, is_u32 r -> is_u32 pc -> is_u32 lr -> (more = [] \/ exists k d, more = [dkv k d] /\ is_u32 k /\ doc_ok d) ->
    doc_ok (event_doc env 2 (en_time env) (DMap (trace_pairs 6 r pc lr ++ more)))).
  { intros r pc lr more U1 U2 U3 HM. apply event_doc_ok; [exact HE|unfold is_u32; lia|]. unfold trace_pairs, dkv.
    destruct HM as [->|(k & d & -> & HK & HD)]; destruct (pc =? 0), (lr =? 0); cbn [app doc_ok fst snd];
    (split; [unfold is_u32; rewrite ?zlen_cons; change (zlen (@nil (doc * doc))) with 0; lia|]);
    repeat match goal with |- _ /\ _ => split end; try exact I; try assumption; unfold is_u32; lia. }
  unfold tcfg_ok in HC. destruct c as [r pc lr|r pc lr st|r pc lr t|r lr id fmt args]; cbn [tcap_ok] in K.
  - apply ALL; try apply K. now left.
  - apply ALL; try apply K. right. exists 7, (DSigned st). split; [reflexivity|]. split; [unfold is_u32; lia|apply K].
  - apply ALL; try apply K. destruct (isr && negb (tc_isr_log cfg)); [now left|right]. eexists _, _. split; [reflexivity|]. split; [unfold is_u32; lia|].
    cbn [doc_ok]. unfold is_u32. destruct t as [t|]; [rewrite zlen_take; pose proof (zlen_nonneg t); lia|change (zlen (@nil Z)) with 0; lia].
  - apply ALL; try apply K; [unfold is_u32; lia|]. destruct (isr && negb (tc_isr_log cfg)); [now left|right]. eexists _, _. split; [reflexivity|]. split; [unfold is_u32; lia|].
    apply compact_doc_ok; [unfold is_u32; apply Z.mod_pos_bound; lia|apply K|apply K].
Qed.
Lemma cap_runs cfg env isr c i : tcfg_ok cfg -> tcap_ok cfg c -> cap_fits cfg c -> cap_info cfg isr c = Some i ->
  exists xs, runs (e_trace_event cfg env i) xs /\ ops_bytes xs = ops_bytes (doc_ops (cap_doc cfg env isr c)).
Proof.
  unfold tcfg_ok. intros HC K FIT E. unfold cap_doc, e_trace_event. cbv zeta.
  assert (PLAIN : forall r pc lr, exists xs, runs (e_and (e_trace env 6 r pc lr (0 + 0)) (e_and (ERet true) (ERet true))) xs /\
     ops_bytes xs = ops_bytes (doc_ops (event_doc env 2 (en_time env) (DMap (trace_pairs 6 r pc lr ++ []))))).
  { intros r pc lr. eexists. split; [apply runs_head; apply (runs_and _ _ [] []); apply runs_ret|]. rewrite head_doc by (change (zlen (@nil (doc * doc))) with 0; lia). reflexivity. }
  destruct c as [r pc lr|r pc lr st|r pc lr t|r lr id fmt args]; cbn [cap_info cap_head cap_more tcap_ok cap_fits] in *.
  - inversion E; subst i. cbn. apply PLAIN.
  - inversion E; subst i. cbn [ti_reason ti_pc ti_lr ti_status ti_log]. eexists. split; [apply runs_head; eapply runs_and; [apply runs_all|apply runs_ret]|].
    rewrite head_doc by (change (zlen [dkv 7 (DSigned st)]) with 1; lia). reflexivity.
  - destruct (isr && negb (tc_isr_log cfg)); inversion E; subst i; cbn [ti_reason ti_pc ti_lr ti_status ti_log]; [apply PLAIN|].
    destruct K as (-> & K). eexists. split; [apply runs_head; eapply runs_and; [apply runs_ret|apply runs_all]|].
    rewrite head_doc by (change (zlen [dkv 8 (DBytes match t with Some t0 => take (tc_max cfg - 1) t0 | None => [] end)]) with 1; lia).
    replace (match t with Some t0 => take (Z.min (tc_max cfg - 1) (zlen t0)) t0 | None => [] end) with (match t with Some t0 => take (tc_max cfg - 1) t0 | None => [] end).
    { reflexivity. }
    destruct t as [t|]; [|reflexivity]. destruct (Z.le_ge_cases (tc_max cfg - 1) (zlen t)); [now rewrite Z.min_l|].
    rewrite Z.min_r by lia. now rewrite !take_all by lia.
  - destruct (isr && negb (tc_isr_log cfg)); [inversion E; subst i; cbn; apply PLAIN|]. destruct K as (CT & U1 & U2 & -> & FA & LA).
    destruct (compact_in_buffer (tc_start cfg) id args (tc_max cfg) FA LA ltac:(unfold is_u32; lia)) as (p & b & e & P & RE & LE & B & _).
    destruct (compact_ok (tc_start cfg) id args FA LA) as (p' & P' & EO & R). rewrite P in *. inversion P'; subst p'. clear P'. cbn [bind] in E. rewrite RE in E.
    assert (b = true) as -> by (apply B; exact FIT). inversion E; subst i. cbn [ti_reason ti_pc ti_lr ti_status ti_log snd]. rewrite CT.
    set (d := compact_doc ((id - tc_start cfg) mod 4294967296) args) in *.
    assert (O : ce_output e = ops_bytes (doc_ops d)).
    { assert (U : is_u32 (tc_max cfg)) by (unfold is_u32; lia).
      assert (SB : zlen (ops_bytes (doc_ops d)) < 4000000) by (apply compact_doc_small; assumption).
      assert (SL : ce_size (cbor_init (tc_max cfg)) + zlen (ops_bytes (doc_ops d)) < 4294967296) by (change (ce_size (cbor_init (tc_max cfg))) with 0; lia).
      rewrite R in RE; [|right; now apply enc_wf_init|exact SL].
      destruct (cbor_seq_ok (doc_ops d) (cbor_init (tc_max cfg)) (enc_wf_init _ U) SL) as (b2 & e2 & o & E2 & _ & _ & _ & O & T & _).
      rewrite RE in E2. inversion E2; subst b2 e2. rewrite O, (T eq_refl). reflexivity. }
    rewrite O. eexists. split; [apply runs_head; eapply runs_and; [apply runs_ret|apply runs_all]|].
    rewrite head_doc by (change (zlen [dkv 9 d]) with 1; lia). change (zlen [dkv 9 d]) with (0 + 1). cbn [app]. rewrite !ops_bytes_app. f_equal.
    change (pair_ops [dkv 9 d]) with (OpUnsigned 9 :: doc_ops d ++ []). rewrite app_nil_r. cbn [app]. rewrite !ops_bytes_cons. f_equal.
    change (ops_bytes []) with (@nil Z). rewrite app_nil_r. unfold op_bytes at 1. cbn [op_chunks concat]. apply app_nil_r.
Qed.
Lemma cap_doc_small cfg env isr c : tcfg_ok cfg -> senv_ok env -> tcap_ok cfg c -> zlen (ops_bytes (doc_ops (cap_doc cfg env isr c))) < 4294967296.
Proof.
  unfold tcfg_ok. intros HC HE K. unfold cap_doc. destruct (cap_head c) as [[r pc] lr].
  assert (X : zlen (cap_more cfg isr c) <= 1 /\ zlen (ops_bytes (pair_ops (cap_more cfg isr c))) < 4000100).
  { unfold cap_more. destruct c as [r' pc' lr'|r' pc' lr' st|r' pc' lr' t|r' lr' id fmt args]; cbn [tcap_ok] in K.
    - split; [discriminate|reflexivity].
    - change (zlen [dkv 7 (DSigned st)]) with 1. split; [lia|]. apply Z.le_lt_trans with (1 := ops_bytes_len _). cbn [pair_ops flat_map dkv fst snd doc_ops app calls_bound fold_right op_data]. change (zlen (@nil Z)) with 0. lia.
    - destruct (isr && negb (tc_isr_log cfg)); [split; [discriminate|reflexivity]|]. match goal with |- zlen [?x] <= 1 /\ _ => change (zlen [x]) with 1 end. split; [lia|].
      apply Z.le_lt_trans with (1 := ops_bytes_len _). cbn [pair_ops flat_map dkv fst snd doc_ops app calls_bound fold_right op_data]. change (zlen (@nil Z)) with 0.
      destruct t as [t|]; [rewrite zlen_take; lia|change (zlen (@nil Z)) with 0; lia].
    - destruct (isr && negb (tc_isr_log cfg)); [split; [discriminate|reflexivity]|]. match goal with |- zlen [?x] <= 1 /\ _ => change (zlen [x]) with 1 end. split; [lia|].
      destruct K as (_ & _ & _ & _ & FA & LA). pose proof (compact_doc_small ((id - tc_start cfg) mod 4294967296) args FA LA) as B.
      match goal with |- zlen (ops_bytes (pair_ops [dkv 9 ?d])) < _ => change (pair_ops [dkv 9 d]) with (OpUnsigned 9 :: doc_ops d ++ []) end.
      rewrite app_nil_r, ops_bytes_cons, zlen_app, u_len. change (zlen (cbor_head 0 9)) with 1. lia. }
  destruct X as [X1 X2]. rewrite head_doc by lia. rewrite ops_bytes_app, zlen_app. unfold trace_head. rewrite !ops_bytes_app, !zlen_app.
  pose proof (meta_len env 2 (en_time env) HE) as [_ ML].
  assert (Y : forall l, Forall (fun o => op_data o = []) l -> zlen l <= 2 -> zlen (ops_bytes l) <= 18).
  { intros l F HL. pose proof (ops_bytes_len l) as B. assert (C : calls_bound l <= 9 * zlen l); [|lia]. clear -F.
    induction F as [|o l H F IH]; [reflexivity|]. rewrite zlen_cons. unfold calls_bound in *. cbn [fold_right]. rewrite H. change (zlen (@nil Z)) with 0. lia. }
  assert (Z2 : forall a b : cbor_op, zlen [a; b] = 2) by reflexivity.
  assert (Y1 := Y [OpUnsigned 4; OpDict (u32 (1 + (if pc =? 0 then 0 else 1) + (if lr =? 0 then 0 else 1) + zlen (cap_more cfg isr c)))] ltac:(repeat constructor) ltac:(rewrite Z2; lia)).
  assert (Y2 := Y [OpUnsigned 6; OpUnsigned r] ltac:(repeat constructor) ltac:(rewrite Z2; lia)).
  assert (Y3 : zlen (ops_bytes (if pc =? 0 then [] else [OpUnsigned 2; OpUnsigned pc])) <= 18) by (apply Y; destruct (pc =? 0); rewrite ?Z2; try (change (zlen (@nil cbor_op)) with 0; lia); repeat constructor; lia).
  assert (Y4 : zlen (ops_bytes (if lr =? 0 then [] else [OpUnsigned 3; OpUnsigned lr])) <= 18) by (apply Y; destruct (lr =? 0); rewrite ?Z2; try (change (zlen (@nil cbor_op)) with 0; lia); repeat constructor; lia).
  lia.
Qed.
Lemma cap_in_history ecfg storage ops rs v cfg env isr c i :
  0 < zlen storage <= 2147483648 -> Forall shop_ok ops ->
  ssv_run ecfg (zlen storage) (mk_ssv (mk_sev [] None 0) 0) ops = Some (rs, v) -> v_part (q_store v) = None ->
  tcfg_ok cfg -> senv_ok env -> tcap_ok cfg c -> cap_fits cfg c -> cap_info cfg isr c = Some i ->
  let p := e_trace_event cfg env i in sh_compute_size p <= 65532 ->
  exists s b s' v', es_boot storage (zlen storage) = Some (Some s) /\
    sh_run ecfg (mk_sh s 0 0) (ops ++ [SEncode p]) = Some (rs ++ [RSaved b], s') /\
    ssv_run ecfg (zlen storage) (mk_ssv (mk_sev [] None 0) 0) (ops ++ [SEncode p]) = Some (rs ++ [RSaved b], v') /\
    (b = true <-> used (q_store v) + 2 + sh_compute_size p <= zlen storage) /\
    (b = true -> exists ev, v' = mk_ssv (mk_sev (v_events (q_store v) ++ [ev]) None (v_reading (q_store v))) (q_missed v) /\
       zlen ev = sh_compute_size p /\ cbor_read ev = Some (cap_item cfg env isr c, [])) /\
    (b = false -> v' = mk_ssv (q_store v) (q_missed v + 1)).
Proof.
  intros HS HO HR P HC HE K FIT E p SZ. destruct (cap_runs cfg env isr c i HC K FIT E) as (xs & R & EX). fold p in R.
  destruct (cap_ok cfg isr c HC K) as (i' & E' & IO). rewrite E in E'. inversion E'; subst i'.
  assert (BD : zlen (ops_bytes (doc_ops (cap_doc cfg env isr c))) < 4294967296) by (now apply cap_doc_small).
  rewrite (runs_size _ _ R) in SZ by (rewrite EX; exact BD). rewrite EX in SZ.
  destruct (bytes_in_history ecfg storage ops rs v p xs _ HS HO HR P R EX (eok_trace_event _ _ _ HC HE IO) (cap_doc_ok _ _ isr _ HC HE K) SZ)
    as (s & b & s' & v' & A1 & A2 & A3 & A4 & A5). rewrite cap_doc_value in A5. exists s, b, s', v'. auto.
Qed.

(** ** The worst case *)
Lemma head_len env r pc lr n : 0 <= n <= 20 -> zlen (ops_bytes (trace_head env 6 r pc lr n)) =
  zlen (ops_bytes (meta_ops env 2 (en_time env))) + 2 + (1 + zlen (cbor_head 0 r))
  + (if pc =? 0 then 0 else 1 + zlen (cbor_head 0 pc)) + (if lr =? 0 then 0 else 1 + zlen (cbor_head 0 lr)).
Proof.
  intros HN. unfold trace_head. rewrite !ops_bytes_app, !zlen_app.
  assert (D : zlen (ops_bytes [OpUnsigned 4; OpDict (u32 (1 + (if pc =? 0 then 0 else 1) + (if lr =? 0 then 0 else 1) + n))]) = 2).
  { rewrite !ops_bytes_cons, !zlen_app, u_len, d_len. change (zlen (ops_bytes [])) with 0. change (zlen (cbor_head 0 4)) with 1. 
    assert (K : 0 <= 1 + (if pc =? 0 then 0 else 1) + (if lr =? 0 then 0 else 1) + n < 24) by (destruct (pc =? 0), (lr =? 0); lia).
    rewrite u32_id by (unfold is_u32; lia). unfold cbor_head. cbv zeta. replace (1 + (if pc =? 0 then 0 else 1) + (if lr =? 0 then 0 else 1) + n <? 24) with true by lia. reflexivity. }
  rewrite D.
  assert (KV : forall k v, zlen (ops_bytes [OpUnsigned k; OpUnsigned v]) = zlen (cbor_head 0 k) + zlen (cbor_head 0 v)).
  { intros k v. rewrite !ops_bytes_cons, !zlen_app, !u_len. change (zlen (ops_bytes [])) with 0. lia. }
  generalize (zlen (ops_bytes (meta_ops env 2 (en_time env)))). intros m. rewrite KV. change (zlen (cbor_head 0 6)) with 1.
  destruct (pc =? 0), (lr =? 0); rewrite ?KV; change (zlen (ops_bytes [])) with 0; change (zlen (cbor_head 0 2)) with 1; change (zlen (cbor_head 0 3)) with 1; lia.
Qed.
Lemma status_len st : is_s32 st -> zlen (ops_bytes [OpUnsigned 7; OpSigned st]) = 1 + zlen (op_bytes (OpSigned st)) /\ zlen (op_bytes (OpSigned st)) <= 5.
Proof.
  intros H. rewrite !ops_bytes_cons, !zlen_app, u_len. change (zlen (ops_bytes [])) with 0. change (zlen (cbor_head 0 7)) with 1. split; [lia|].
  rewrite signed_chunk by exact H. pose proof (cbor_head_len (fst (int_head st)) (snd (int_head st))). lia.
Qed.
Lemma trace_worst cfg env num i : senv_ok env -> is_u32 num -> is_u32 (ti_reason i) -> ti_reason i <= num -> ti_log i = None ->
  match ti_status i with Some st => is_s32 st | None => True end ->
  sh_compute_size (e_trace_event cfg env i) <= trace_worst_size cfg env num.
Proof.
  intros HE HN HR HM HL HS. unfold trace_worst_size. pose proof (meta_len env 2 (en_time env) HE) as ML. unfold is_u32 in *.
  assert (R : forall i, ti_log i = None -> runs (e_trace_event cfg env i)
     (trace_head env 6 (ti_reason i) (ti_pc i) (ti_lr i) (match ti_status i with Some _ => 1 | None => 0 end)
      ++ match ti_status i with Some st => [OpUnsigned 7; OpSigned st] | None => [] end)).
  { intros j EJ. unfold e_trace_event. rewrite EJ. cbv zeta. rewrite Z.add_0_r. apply runs_head.
    rewrite <- (app_nil_r (match ti_status j with Some st => [OpUnsigned 7; OpSigned st] | None => [] end)). apply runs_and; [|apply runs_ret].
    destruct (ti_status j); [apply runs_all|apply runs_ret]. }
  pose proof (R (worst_trace num) eq_refl) as RW. cbn [worst_trace ti_reason ti_pc ti_lr ti_status] in RW.
  pose proof (cbor_head_len 0 num). pose proof (cbor_head_len 0 (ti_reason i)). pose proof (cbor_head_len 0 (ti_pc i)). pose proof (cbor_head_len 0 (ti_lr i)).
  pose proof (head_len_le 0 (ti_reason i) num ltac:(lia)) as LE.
  pose proof (head_len env num 4294967295 4294967295 1 ltac:(lia)) as HW. change (4294967295 =? 0) with false in HW. change (zlen (cbor_head 0 4294967295)) with 5 in HW. cbv iota in HW.
  assert (SW : zlen (ops_bytes [OpUnsigned 7; OpSigned 2147483647]) = 6) by reflexivity.
  assert (HI : zlen (ops_bytes (trace_head env 6 (ti_reason i) (ti_pc i) (ti_lr i) (match ti_status i with Some _ => 1 | None => 0 end)))
    <= zlen (ops_bytes (meta_ops env 2 (en_time env))) + 2 + (1 + zlen (cbor_head 0 (ti_reason i))) + 6 + 6).
  { rewrite head_len by (destruct (ti_status i); lia). destruct (ti_pc i =? 0), (ti_lr i =? 0); lia. }
  assert (SI : zlen (ops_bytes (match ti_status i with Some st => [OpUnsigned 7; OpSigned st] | None => [] end)) <= 6).
  { destruct (ti_status i) as [st|]; [|discriminate]. destruct (status_len st HS). lia. }
  rewrite (runs_size _ _ RW) by (rewrite ops_bytes_app, zlen_app; lia). rewrite (runs_size _ _ (R i HL)) by (rewrite ops_bytes_app, zlen_app; lia).
  rewrite !ops_bytes_app, !zlen_app. lia.
Qed.
