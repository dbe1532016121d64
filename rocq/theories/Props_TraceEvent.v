(** C31 and part of C46: trace events. *)
From Coq Require Import String.
From Verif Require Import Base Cbor CborSpec EventStorage EventStorageSpec SerializerHelper SerializerHelperSpec CompactLog CompactLogSpec
  TraceEvent TraceEventSpec TraceEventProofs.

(** C31: with any number of tasks, interrupts arriving between any two accesses to the slot (and
    nesting), any storage accepting and refusing events as it likes: whenever nothing is running, the
    events interrupts were told had been captured are exactly those stored from the slot, each once
    and in order, followed by the one still waiting. *)
Theorem C31_isr_events_stored_exactly_once : forall St cfg (sstep : stepper St) booted n st es l s',
  follows_all all_rules cfg sstep (te_init booted n st) es -> te_run cfg sstep (te_init booted n st) es = Some (l, s') -> at_rest s' ->
  accepted l = flushed l ++ waiting s'.
Proof. intros St. exact (@exactly_once St). Qed.
Print Assumptions C31_isr_events_stored_exactly_once.

Definition C31_cfg : tcfg := mk_tc false true 80 0.
Definition C31_env : senv := mk_senv [] (str "a") (str "b") (str "c") false None 6 None.
(** The storage refuses the first flush; an interrupt arrives inside a flush and inside another interrupt. *)
Example C31_case :
  let es := [VCall 0 (Some (CPlain 1 2 3)); VStep 0 C31_env; VIsrEnter (CPlain 7 8 9); VIsrStep; VIsrStep; VIsrEnter (CStatus 6 0 0 1); VIsrStep; VIsrStep;
             VStep 0 C31_env; VCall 1 None; VStep 1 C31_env; VIsrEnter (CPlain 5 0 0); VIsrStep; VStep 1 C31_env; VCall 1 None; VStep 1 C31_env; VStep 1 C31_env; VStep 1 C31_env;
             VIsrEnter (CLog 9 0 0 (Some [65; 66])); VIsrStep; VIsrStep; VIsrStep] in
  let storage (st : Z) (o : sh_op) := Some (RSaved (negb (st =? 1)), st + 1) in
  follows_all all_rules C31_cfg storage (te_init true 2 0) es /\
  (do x <- te_run C31_cfg storage (te_init true 2 0) es;
   Some (fst x, tm_isrs (snd x), tm_tasks (snd x), waiting (snd x))) =
  Some ([LIsr (mk_ti 6 0 0 (Some 1) None) (-2); LIsr (mk_ti 7 8 9 None None) 0; LStored false (mk_ti 1 2 3 None None) C31_env true; LDone 0 0;
         LIsr (mk_ti 5 0 0 None None) (-2); LStored true (mk_ti 7 8 9 None None) C31_env false; LDone 1 (-2);
         LStored true (mk_ti 7 8 9 None None) C31_env true; LDone 1 0; LIsr (mk_ti 9 0 0 None (Some [65; 66])) 0],
        [], [TIdle; TIdle], [mk_ti 9 0 0 None (Some [65; 66])]).
Proof. split; [|vm_compute; reflexivity]. vm_compute. repeat split; repeat constructor; intros; discriminate. Qed.

(** C31 on the event storage: what a schedule does over the queue of events the specification of the
    storage describes, it does over the model of the storage. *)
Theorem C31_on_the_event_storage : forall cfg ecfg storage booted n es l a,
  tcfg_ok cfg -> 0 < zlen storage <= 2147483648 -> Forall (tsched_ok cfg) es ->
  te_run cfg (ssv_step ecfg (zlen storage)) (te_init booted n (mk_ssv (mk_sev [] None 0) 0)) es = Some (l, a) ->
  exists s b, es_boot storage (zlen storage) = Some (Some s) /\ te_run cfg (sh_step ecfg) (te_init booted n (mk_sh s 0 0)) es = Some (l, b) /\
    waiting b = waiting a.
Proof. exact real_storage. Qed.
Print Assumptions C31_on_the_event_storage.
Example C31_storage_case :
  let es := [VIsrEnter (CPlain 7 8 9); VIsrStep; VIsrStep; VIsrStep; VCall 0 (Some (CPlain 1 2 3));
             VStep 0 C31_env; VStep 0 C31_env; VStep 0 C31_env; VStep 0 C31_env; VOther SReadDrops; VOther (SStore EHas)] in
  (do x <- te_run C31_cfg (ssv_step None 40) (te_init true 1 (mk_ssv (mk_sev [] None 0) 0)) es; Some (fst x)) =
  Some [LIsr (mk_ti 7 8 9 None None) 0; LStored true (mk_ti 7 8 9 None None) C31_env true; LStored false (mk_ti 1 2 3 None None) C31_env false;
        LDone 0 (-2); LOther (RDrops 1); LOther (RStore (RSome true 22))].
Proof. vm_compute. reflexivity. Qed.

(** C31: a capture in an interrupt with the slot free is accepted and waits in the slot; with the
    slot taken it is refused and nothing changes. *)
Theorem C31_capture_in_an_interrupt : forall St cfg (sstep : stepper St) s c i,
  tm_booted s = true -> cap_info cfg true c = Some i -> tinfo_ok cfg i ->
  (tm_reason s = 0 -> te_run cfg sstep s [VIsrEnter c; VIsrStep; VIsrStep; VIsrStep] = Some ([LIsr i 0], slot s (ti_reason i) i (tm_store s))) /\
  (tm_reason s <> 0 -> te_run cfg sstep s [VIsrEnter c; VIsrStep] = Some ([LIsr i (-2)], s)).
Proof. intros St cfg sstep s c i B C K. split; intros R; [now apply isr_accepts|now apply isr_refuses]. Qed.
Print Assumptions C31_capture_in_an_interrupt.

(** C31: a capture in a task stores the waiting event first, then its own.  If the storage refuses
    the waiting one, it stays in the slot and the call fails without storing anything. *)
Theorem C31_capture_in_a_task : forall St cfg (sstep : stepper St) s t c i,
  tm_booted s = true -> tm_isrs s = [] -> nth_error (tm_tasks s) t = Some TIdle -> cap_info cfg false c = Some i ->
  (tm_reason s = 0 -> forall e1 e2, te_run cfg sstep s [VCall t (Some c); VStep t e1; VStep t e2] =
     (do x <- save cfg sstep (tm_store s) e2 i; let (b, st) := x in
      Some ([LStored false i e2 b; LDone t (if b then 0 else -2)], slot s 0 (tm_info s) st))) /\
  (tm_reason s <> 0 -> forall e1 e2 e3 e4 st1, save cfg sstep (tm_store s) e2 (tm_info s) = Some (true, st1) ->
     te_run cfg sstep s [VCall t (Some c); VStep t e1; VStep t e2; VStep t e3; VStep t e4] =
     (do x <- save cfg sstep st1 e4 i; let (b, st) := x in
      Some ([LStored true (tm_info s) e2 true; LStored false i e4 b; LDone t (if b then 0 else -2)], slot s 0 (tm_info s) st))) /\
  (tm_reason s <> 0 -> forall e1 e2 st1, save cfg sstep (tm_store s) e2 (tm_info s) = Some (false, st1) ->
     te_run cfg sstep s [VCall t (Some c); VStep t e1; VStep t e2] =
     Some ([LStored true (tm_info s) e2 false; LDone t (-2)], slot s (tm_reason s) (tm_info s) st1)).
Proof.
  intros St cfg sstep s t c i B II N C. split; [|split].
  - intros R e1 e2. now apply task_capture.
  - intros R e1 e2 e3 e4 st1 SV. now apply task_flush_capture.
  - intros R e1 e2 st1 SV. apply task_flush_fails; try assumption. congruence.
Qed.
Print Assumptions C31_capture_in_a_task.

(** C31: a capture given to the storage after any history is stored exactly when it fits, and then
    means what was captured: reason, addresses that are not zero, status, log. *)
Theorem C31_stored_event_means_the_capture : forall ecfg storage ops rs v cfg env isr c i,
  0 < zlen storage <= 2147483648 -> Forall shop_ok ops ->
  ssv_run ecfg (zlen storage) (mk_ssv (mk_sev [] None 0) 0) ops = Some (rs, v) -> v_part (q_store v) = None ->
  tcfg_ok cfg -> senv_ok env -> tcap_ok cfg c -> cap_fits cfg c -> cap_info cfg isr c = Some i ->
  let p := e_trace_event cfg env i in sh_compute_size p <= 65532 ->
  exists s b s' v', es_boot storage (zlen storage) = Some (Some s) /\
    sh_run ecfg (mk_sh s 0 0) (ops ++ [SEncode p]) = Some (rs ++ [RSaved b], s') /\
    ssv_run ecfg (zlen storage) (mk_ssv (mk_sev [] None 0) 0) (ops ++ [SEncode p]) = Some (rs ++ [RSaved b], v') /\
    (b = true <-> used (q_store v) + 2 + sh_compute_size p <= zlen storage) /\
    (b = true -> exists ev, v' = mk_ssv (mk_sev (v_events (q_store v) ++ [ev]) None (v_reading (q_store v))) (q_missed v) /\
       zlen ev = sh_compute_size p /\ cbor_read ev = Some (cap_item cfg env isr c, [])) /\
    (b = false -> v' = mk_ssv (q_store v) (q_missed v + 1)).
Proof. exact cap_in_history. Qed.
Print Assumptions C31_stored_event_means_the_capture.
Example C31_event_case :
  let cfg := mk_tc true false 80 1000 in
  let c := CCompact 5 258 1016 (compressed_fmt [AInt 3; AStr (Some (str "x"))]) [AInt 3; AStr (Some (str "x"))] in
  tcap_ok cfg c /\ cap_fits cfg c /\
  (do i <- cap_info cfg false c; let (b, e) := eprog_run (cbor_init 100) (e_trace_event cfg C31_env i) in cbor_read (ce_output e)) =
  Some (IMap [(IInt 2, IInt 2); (IInt 3, IInt 1); (IInt 10, IText (str "a")); (IInt 9, IText (str "b")); (IInt 6, IText (str "c"));
              (IInt 4, IMap [(IInt 6, IInt 5); (IInt 3, IInt 258); (IInt 9, IArray [IInt 16; IInt 3; IText (str "x")])])], []).
Proof.
  split; [|split; [vm_compute; discriminate|vm_compute; reflexivity]].
  split; [reflexivity|]. split; [unfold is_u32; lia|]. split; [unfold is_u32; lia|]. split; [reflexivity|]. split; [|vm_compute; discriminate].
  repeat constructor; unfold is_s32, is_u8; cbn; lia.
Qed.

(** C46 for trace events: no event without a log is larger than the announced worst case. *)
Theorem C46_trace_worst_case_is_one : forall cfg env num i,
  senv_ok env -> is_u32 num -> is_u32 (ti_reason i) -> ti_reason i <= num -> ti_log i = None ->
  match ti_status i with Some st => is_s32 st | None => True end ->
  sh_compute_size (e_trace_event cfg env i) <= trace_worst_size cfg env num.
Proof. exact trace_worst. Qed.
Print Assumptions C46_trace_worst_case_is_one.
Example C46_trace_case : trace_worst_size C31_cfg C31_env 30 = 37 /\
  sh_compute_size (e_trace_event C31_cfg C31_env (mk_ti 24 70000 300 (Some (-70000)) None)) = 35.
Proof. split; vm_compute; reflexivity. Qed.

(** ... but events with a log can be: the worst case does not count it. *)
Theorem C46_trace_worst_case_with_log_refuted : ~ (forall cfg env num i,
  tcfg_ok cfg -> senv_ok env -> is_u32 num -> tinfo_ok cfg i -> is_u32 (ti_reason i) -> ti_reason i <= num ->
  match ti_status i with Some st => is_s32 st | None => True end ->
  sh_compute_size (e_trace_event cfg env i) <= trace_worst_size cfg env num).
Proof.
  intros H. specialize (H C31_cfg C31_env 30 (mk_ti 1 0 0 None (Some (fill 50 65)))).
  assert (X : sh_compute_size (e_trace_event C31_cfg C31_env (mk_ti 1 0 0 None (Some (fill 50 65)))) = 71) by (vm_compute; reflexivity).
  assert (Y : trace_worst_size C31_cfg C31_env 30 = 37) by (vm_compute; reflexivity). rewrite X, Y in H. cut (71 <= 37); [lia|]. apply H.
  - unfold tcfg_ok. cbn. lia.
  - split; [|split; [cbn; lia|split; exact I]]. repeat constructor; unfold is_u8; cbn; lia.
  - unfold is_u32. lia.
  - split; [|vm_compute; discriminate]. apply bytes_fill. unfold is_u8. lia.
  - unfold is_u32. cbn. lia.
  - cbn. lia.
  - exact I.
Qed.
Print Assumptions C46_trace_worst_case_with_log_refuted.

(** Each of the rules is needed.  A storage that accepts everything: *)
Definition accept_all : stepper unit := fun _ _ => Some (RSaved true, tt).

(** Two tasks that flush at the same time store an event twice. *)
Theorem C31_with_two_tasks_inside_refuted : ~ (forall es l s',
  follows_all (mk_rules false true true) C31_cfg accept_all (te_init true 2 tt) es ->
  te_run C31_cfg accept_all (te_init true 2 tt) es = Some (l, s') -> at_rest s' -> accepted l = flushed l ++ waiting s').
Proof.
  intros H. specialize (H [VIsrEnter (CPlain 7 8 9); VIsrStep; VIsrStep; VIsrStep; VCall 0 None; VCall 1 None; VStep 0 C31_env; VStep 1 C31_env;
    VStep 0 C31_env; VStep 1 C31_env; VStep 0 C31_env; VStep 1 C31_env]). vm_compute in H.
  specialize (H _ _ ltac:(repeat split; intros; discriminate) eq_refl ltac:(repeat constructor)). discriminate.
Qed.
Print Assumptions C31_with_two_tasks_inside_refuted.

(** An interrupt that captures between another's test and write: both are told their event was
    captured, only one is stored. *)
Theorem C31_with_racing_interrupts_refuted : ~ (forall es l s',
  follows_all (mk_rules true false true) C31_cfg accept_all (te_init true 2 tt) es ->
  te_run C31_cfg accept_all (te_init true 2 tt) es = Some (l, s') -> at_rest s' -> accepted l = flushed l ++ waiting s').
Proof.
  intros H. specialize (H [VIsrEnter (CPlain 7 8 9); VIsrStep; VIsrEnter (CPlain 6 5 4); VIsrStep; VIsrStep; VIsrStep; VIsrStep; VIsrStep]). vm_compute in H.
  specialize (H _ _ ltac:(repeat split; intros; discriminate) eq_refl ltac:(repeat constructor)). discriminate.
Qed.
Print Assumptions C31_with_racing_interrupts_refuted.

(** The reason Unknown is the value of a free slot. *)
Theorem C31_with_reason_unknown_refuted : ~ (forall es l s',
  follows_all (mk_rules true true false) C31_cfg accept_all (te_init true 2 tt) es ->
  te_run C31_cfg accept_all (te_init true 2 tt) es = Some (l, s') -> at_rest s' -> accepted l = flushed l ++ waiting s').
Proof.
  intros H. specialize (H [VIsrEnter (CPlain 0 8 9); VIsrStep; VIsrStep; VIsrStep]). vm_compute in H.
  specialize (H _ _ ltac:(repeat split; intros; discriminate) eq_refl ltac:(repeat constructor)). discriminate.
Qed.
Print Assumptions C31_with_reason_unknown_refuted.

(** A compact log that does not fit the buffer on the stack: the failure is ignored, the cut log is
    put into the event, and the event is not CBOR. *)
Theorem C31_with_long_compact_log_refuted : ~ (forall cfg env isr c i e,
  tcfg_ok cfg -> senv_ok env -> tcap_ok cfg c -> cap_info cfg isr c = Some i ->
  eprog_run (cbor_init 1000) (e_trace_event cfg env i) = (true, e) -> cbor_read (ce_output e) = Some (cap_item cfg env isr c, [])).
Proof.
  intros H. set (args := [AStr (Some (fill 60 65)); AStr (Some (fill 60 66))]). set (cfg := mk_tc true false 80 1000).
  specialize (H cfg C31_env false (CCompact 5 258 1016 (compressed_fmt args) args)).
  assert (X : match cap_info cfg false (CCompact 5 258 1016 (compressed_fmt args) args) with
              | Some i => let (b, e) := eprog_run (cbor_init 1000) (e_trace_event cfg C31_env i) in b = true /\ cbor_read (ce_output e) = None
              | None => False end) by (vm_compute; split; reflexivity).
  destruct (cap_info cfg false (CCompact 5 258 1016 (compressed_fmt args) args)) as [i|] eqn:EC; [|contradiction].
  destruct (eprog_run (cbor_init 1000) (e_trace_event cfg C31_env i)) as [b e] eqn:ER. destruct X as [-> X]. specialize (H i e). rewrite X in H.
  assert (Y : @None (item * list Z) = Some (cap_item cfg C31_env false (CCompact 5 258 1016 (compressed_fmt args) args), [])); [|discriminate].
  apply H; try assumption; try reflexivity.
  - unfold tcfg_ok. cbn. lia.
  - split; [|split; [cbn; lia|split; exact I]]. repeat constructor; unfold is_u8; cbn; lia.
  - split; [reflexivity|]. split; [unfold is_u32; lia|]. split; [unfold is_u32; lia|]. split; [reflexivity|]. split; [|vm_compute; discriminate].
    apply Forall_cons; [split; [apply bytes_fill; unfold is_u8; lia|reflexivity]|]. apply Forall_cons; [split; [apply bytes_fill; unfold is_u8; lia|reflexivity]|constructor].
Qed.
Print Assumptions C31_with_long_compact_log_refuted.
