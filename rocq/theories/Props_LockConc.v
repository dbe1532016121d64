(** Properties C104 and C105: calls of the log and of the metrics made by tasks that interrupt each other. *)
From Coq Require Import String.
From Verif Require Import Base CircularBuffer CircularBufferProofs
  SerializerHelper CborSpec LogDataSource Metrics MetricsSpec Log LogSpec Conc ConcSpec LockConc LockConcSpec LockConcProofs LockUsesProofs LockMetricsProofs.

(** Any number of tasks save, read and count logs, switching between any two accesses: no access faults, the
    tasks never all wait, and what each call returns is what it returns when the calls are made one after
    the other in some order that keeps calls which do not overlap in place; when the lock is free the
    buffer holds the logs of that order.  This for any body of the sections that does what the call does. *)
Theorem C104_log_calls_interleaved M tse storage min (body : log_op -> prog lg log_res) sched :
  0 < zlen storage < 2147483648 -> 4 <= M <= 255 ->
  (forall o, log_call tse o -> lock_free (body o) /\ keeps lg_min (body o)) ->
  (forall o s, log_call tse o -> match log_early o with Some f => f (lg_min s) | None => None end = None ->
     solo (body o) s = log_step M tse s o) ->
  starts_only (log_call tse) sched ->
  exists s m h, log_boot storage (zlen storage) min = Some (Some s) /\
    mach_run (log_code body) (start_mach s) sched = Some m /\ no_deadlock m /\
    linearizes (hist_step M (zlen storage)) (hist_init min) (m_hist m) h /\
    (m_owner m = None -> parse_logs (Z.to_nat (zlen storage)) (content (lg_cb (m_shared m))) =
       Some (flagged (h_next h) (h_sent h) (first (zlen storage) (h_saved h)) (fit (zlen storage) (h_saved h)))).
Proof. exact (log_calls_ok M tse storage min body sched). Qed.
Print Assumptions C104_log_calls_interleaved.

(** Any number of tasks set, add to and read metrics: the same, with what every metric then says. *)
Theorem C104_metric_calls_interleaved defs timers (body : mop -> prog mstate mres) sched : mdefs_ok defs ->
  (forall o, arg_ok o -> lock_free (body o)) ->
  (forall o s, arg_ok o -> solo (body o) s = me_step defs timers s o) ->
  starts_only arg_ok sched ->
  exists m a, mach_run (me_code body) (start_mach (ms_init defs)) sched = Some m /\ no_deadlock m /\
    linearizes (am_step defs timers) (am_init defs) (m_hist m) a /\
    (m_owner m = None -> forall j d v, get defs j = Some d -> get a j = Some v -> item_of defs (m_shared m) j = Some (a_item d v)).
Proof. exact (metrics_calls_ok defs timers body sched). Qed.
Print Assumptions C104_metric_calls_interleaved.

(** The bodies of the model are such bodies. *)
Theorem C104_bodies_fit M tse defs timers :
  (forall o, log_call tse o -> lock_free (log_body M tse o) /\ keeps lg_min (log_body M tse o)) /\
  (forall o s, log_call tse o -> match log_early o with Some f => f (lg_min s) | None => None end = None ->
     solo (log_body M tse o) s = log_step M tse s o) /\
  (forall o, lock_free (me_body defs timers o)) /\ (forall o s, solo (me_body defs timers o) s = me_step defs timers s o).
Proof.
  split; [exact (log_body_ok M tse)|]. split; [exact (log_body_solo M tse)|].
  split; [exact (me_body_free defs timers)|exact (me_body_solo defs timers)].
Qed.
Print Assumptions C104_bodies_fit.

(** Two tasks add to one counter, every access of theirs alternating: nothing is lost.  The same without
    the lock: one addition is lost. *)
Definition two_adds : list (item mop) :=
  [Start 0%nat (OAdd 0 5); Start 1%nat (OAdd 0 7)] ++ flat_map (fun _ => [Step 0%nat; Step 1%nat]) (repeat tt 14).
Definition counter (code : mop -> prog mstate mres) : option mitem :=
  do m <- mach_run code (start_mach (ms_init [mk_mdef MUnsigned 0 0])) two_adds; item_of [mk_mdef MUnsigned 0 0] (m_shared m) 0.
Example C104_case :
  counter (me_code (me_body [mk_mdef MUnsigned 0 0] [])) = Some (IUnsigned 12) /\
  counter (me_body [mk_mdef MUnsigned 0 0] []) = Some (IUnsigned 7).
Proof. vm_compute. split; reflexivity. Qed.
(** Two tasks log, a third reads: what was saved first is read. *)
Definition two_logs : list (item log_op) :=
  [Start 0%nat (LSave 1 0 None (str "ab")); Start 1%nat (LSave 2 0 None (str "cd")); Start 2%nat LRead] ++
  [Step 1%nat; Step 0%nat; Step 1%nat] ++ flat_map (fun _ => [Step 0%nat; Step 1%nat; Step 2%nat]) (repeat tt 26).
Example C104_log_case :
  (do s <- log_boot (fill 16 0) 16 0; do s <- s;
   do m <- mach_run (log_code (log_body 8 false)) (start_mach s) two_logs; Some (m_hist m))
  = Some [Inv 0%nat (LSave 1 0 None (str "ab")); Inv 1%nat (LSave 2 0 None (str "cd")); Inv 2%nat LRead;
          Res 1%nat (LSave 2 0 None (str "cd")) (RSaved true);
          Res 2%nat LRead (RLog (Some (mk_rlog 2 0 0 (str "cd"))));
          Res 0%nat (LSave 1 0 None (str "ab")) (RSaved true)].
Proof. vm_compute. reflexivity. Qed.

(** Triggering an upload counts the logs in one section and sets the trigger in the next.  In between logs
    can be evicted: one task triggers uploads, another one logs, and the upload announces two logs where
    there is one. *)
Definition save (t : nat) (text : string) : list (item log_op) := Start t (LSave 1 0 None (str text)) :: repeat (Step t) 9.
Definition evicted_between : list (item log_op) :=
  save 1 "abc" ++ save 1 "def" ++ [Start 0%nat (LTrigger None)] ++ repeat (Step 0%nat) 4 ++
  save 1 "ghijklmno" ++ repeat (Step 0%nat) 8.
Theorem C105_announced_logs_kept_refuted : ~ (forall M tse storage min s sched m,
  0 < zlen storage < 2147483648 -> 4 <= M <= 255 -> log_boot storage (zlen storage) min = Some (Some s) ->
  Forall (one_uploader tse) sched -> mach_run (log_prog M tse) (start_mach s) sched = Some m -> upload_there (zlen storage) m).
Proof.
  intros X. destruct (log_boot (fill 12 0) 12 0) as [[s|]|] eqn:EB; try (vm_compute in EB; discriminate).
  assert (G : match mach_run (log_prog 80 false) (start_mach s) evicted_between with Some m => gone 12 [0%nat; 1%nat] m | None => false end = true).
  { vm_compute in EB. injection EB as <-. vm_compute. reflexivity. }
  destruct (mach_run (log_prog 80 false) (start_mach s) evicted_between) as [m|] eqn:EM; [|discriminate].
  apply (gone_ok 12 [0%nat; 1%nat] (log_prog 80 false) s evicted_between m); [vm_compute; reflexivity|exact EM|exact G|].
  apply (X 80 false (fill 12 0) 0 s evicted_between m); [vm_compute; split; reflexivity|lia|exact EB| |exact EM].
  unfold evicted_between, save. cbn [repeat app]. repeat (apply Forall_cons || apply Forall_nil); cbn [one_uploader log_call log_op_ok]; auto;
    (split; [lia|]; split; [lia|]; split; [vm_compute; repeat constructor; discriminate|]; split; [vm_compute; reflexivity|exact I]).
Qed.
Print Assumptions C105_announced_logs_kept_refuted.

(** With two tasks that trigger, no log needs to be evicted: one counts, the other triggers, the upload is
    sent and marked, and the first then triggers an upload of the logs it counted. *)
Definition counted_before : list (item log_op) :=
  [Start 1%nat (LTrigger None)] ++ repeat (Step 1%nat) 4 ++
  [Start 0%nat (LTrigger None)] ++ repeat (Step 0%nat) 10 ++ [Start 0%nat LMarkSent] ++ repeat (Step 0%nat) 10 ++ repeat (Step 1%nat) 6.
Theorem C105_sent_once_refuted : ~ (forall M tse storage min ops rs s0 s sched m,
  0 < zlen storage < 2147483648 -> 4 <= M <= 255 -> Forall (log_op_ok tse) ops ->
  log_boot storage (zlen storage) min = Some (Some s0) -> log_run M tse s0 ops = Some (rs, s) ->
  Forall no_more_logs sched -> mach_run (log_prog M tse) (start_mach s) sched = Some m -> upload_there (zlen storage) m).
Proof.
  intros X. destruct (log_boot (fill 12 0) 12 0) as [[s0|]|] eqn:EB; try (vm_compute in EB; discriminate).
  destruct (log_run 80 false s0 [LSave 1 0 None (str "abc")]) as [(rs & s)|] eqn:EL; [|vm_compute in EB; injection EB as <-; vm_compute in EL; discriminate].
  assert (G : match mach_run (log_prog 80 false) (start_mach s) counted_before with Some m => gone 12 [0%nat; 1%nat] m | None => false end = true).
  { vm_compute in EB. injection EB as <-. vm_compute in EL. injection EL as <- <-. vm_compute. reflexivity. }
  destruct (mach_run (log_prog 80 false) (start_mach s) counted_before) as [m|] eqn:EM; [|discriminate].
  apply (gone_ok 12 [0%nat; 1%nat] (log_prog 80 false) s counted_before m); [vm_compute; reflexivity|exact EM|exact G|].
  apply (X 80 false (fill 12 0) 0 [LSave 1 0 None (str "abc")] rs s0 s counted_before m); [vm_compute; split; reflexivity|lia| |exact EB|exact EL| |exact EM].
  - constructor; [|constructor]. cbn [log_op_ok].
    split; [lia|]; split; [lia|]; split; [vm_compute; repeat constructor; discriminate|]; split; [vm_compute; reflexivity|exact I].
  - unfold counted_before. cbn [repeat app]. repeat (apply Forall_cons || apply Forall_nil); cbn [no_more_logs]; auto.
Qed.
Print Assumptions C105_sent_once_refuted.

(** What is then sent after the first: the array announces the elements of two logs and holds one, so that
    the message does not decode; sequentially, the same calls give a message that does. *)
Definition c105_env : senv := mk_senv [] (str "app") (str "1.0") (str "evt") false None 6 None.
Definition sent_as (s : lg) : option (option (CborSpec.item * list Z)) :=
  do n <- lds_has c105_env false s; do n <- n; do r <- lds_read c105_env false s 0 (fill n 0);
  if fst r then Some (cbor_read (snd r)) else None.
Definition one_after_another : list (item log_op) :=
  save 1 "abc" ++ save 1 "def" ++ save 1 "ghijklmno" ++ [Start 0%nat (LTrigger None)] ++ repeat (Step 0%nat) 12.
Definition sent_after (sched : list (item log_op)) : option bool :=
  do s <- log_boot (fill 12 0) 12 0; do s <- s; do m <- mach_run (log_prog 80 false) (start_mach s) sched;
  do x <- sent_as (m_shared m); Some (match x with Some (_, []) => true | _ => false end).
Example C105_case : sent_after evicted_between = Some false /\ sent_after one_after_another = Some true.
Proof. vm_compute. split; reflexivity. Qed.

(** With no other task between their sections the two calls do what they do as one. *)
Theorem C105_alone M tse s : (forall t, solo (log_prog M tse (LTrigger t)) s = log_step M tse s (LTrigger t)) /\
  solo (log_prog M tse LMarkSent) s = log_step M tse s LMarkSent.
Proof.
  split; [intros t|]; cbn [log_prog log_step].
  - unfold p_trigger, log_trigger, section, fetch, change, lock, unlock. cbn.
    destruct (lg_trig s) eqn:E; [reflexivity|]. cbn. destruct (log_count_unsent s) as [n|]; [|reflexivity]. cbn.
    destruct (n =? 0); cbn; [reflexivity|]. rewrite E. reflexivity.
  - unfold p_mark_sent, log_mark_sent, section, fetch, change, lock, unlock. cbn -[log_iterate log_iter_fuel].
    match goal with |- context [log_iterate ?f ?g ?c ?a ?b] => destruct (log_iterate f g c a b) as [((c' & a') & b')|] end; reflexivity.
Qed.
Print Assumptions C105_alone.

(** Two tasks trigger: the one that counted first comes second, and leaves the upload of the other as it is. *)
Definition both_trigger : list (item log_op) :=
  save 1 "abc" ++ [Start 0%nat (LTrigger (Some 9))] ++ repeat (Step 0%nat) 4 ++
  save 1 "de" ++ [Start 1%nat (LTrigger (Some 5))] ++ repeat (Step 1%nat) 12 ++ repeat (Step 0%nat) 8.
Example C105_first_trigger_kept :
  (do s <- log_boot (fill 24 0) 24 0; do s <- s;
   do m <- mach_run (log_prog 8 false) (start_mach s) both_trigger;
   Some (lg_trig (m_shared m), lg_num (m_shared m), lg_time (m_shared m), m_owner m)) = Some (true, 2, Some 5, None).
Proof. vm_compute. reflexivity. Qed.
