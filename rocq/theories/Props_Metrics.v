(** C39, C40 and C51: metrics (memfault_metrics.c). *)
From Verif Require Import Base Metrics MetricsSpec MetricsProofs.

(** C39: for every table of metrics and every history that keeps the rules, the code (tables, flag bytes,
    string buffers, 31-bit clocks) answers as if every metric were a variable of its own. *)
Theorem C39_every_metric_is_its_own_variable : forall defs timers ops rs a,
  mdefs_ok defs -> am_run defs timers (am_init defs) ops = Some (rs, a) ->
  exists s, me_run defs timers (ms_init defs) ops = Some (rs, s).
Proof. exact metrics_run. Qed.
Print Assumptions C39_every_metric_is_its_own_variable.

(** Adding any amount gives the exact sum clamped to the type's range. *)
Theorem C39_add_saturates : forall defs timers s k d n,
  mdefs_ok defs -> reachable defs timers s -> get defs k = Some d ->
  md_type d = MUnsigned \/ md_type d = MSigned -> is_s32 n ->
  exists s' v, me_add defs s k n = Some (0, s') /\
    (me_read defs s k (md_type d) = Some (0, Some v) \/ me_read defs s k (md_type d) = Some (VALUE_NOT_SET, None) /\ v = 0) /\
    me_read defs s' k (md_type d) = Some (0, Some (match md_type d with
      | MUnsigned => Z.max 0 (Z.min 4294967295 (v + n)) | _ => Z.max (-2147483648) (Z.min 2147483647 (v + n)) end)).
Proof. exact add_saturates. Qed.
Print Assumptions C39_add_saturates.

Theorem C39_set_reads_back : forall defs timers s k d v,
  mdefs_ok defs -> reachable defs timers s -> get defs k = Some d ->
  (md_type d = MUnsigned /\ is_u32 v \/ md_type d = MSigned /\ is_s32 v) ->
  exists s', me_set defs s k (md_type d) (u32 v) = Some (0, s') /\ me_read defs s' k (md_type d) = Some (0, Some v).
Proof. exact set_reads_back. Qed.
Print Assumptions C39_set_reads_back.

(** A call about one metric succeeds or not, but never changes what is reported of another. *)
Theorem C39_others_unchanged : forall defs timers s o k,
  mdefs_ok defs -> reachable defs timers s -> op_key o = Some k -> arg_ok o ->
  exists res s', me_step defs timers s o = Some (res, s') /\ forall j, j <> k -> item_of defs s' j = item_of defs s j.
Proof. exact others_unchanged. Qed.
Print Assumptions C39_others_unchanged.

(** What is not true: the heartbeat takes no lock between storing the event and the reset
    (memfault_metrics.c:926-935), so an amount another task adds in between is never reported. *)
Fixpoint added (k : Z) (ops : list mop) : Z :=
  match ops with [] => 0 | OAdd j n :: r => (if j =? k then n else 0) + added k r | _ :: r => added k r end.
Definition reported_sum (i : Z) (rs : list mres) : Z :=
  fold_right (fun x t => (match x with Some (IUnsigned v) => v | _ => 0 end) + t) 0 (reported i rs).
Definition demo_defs : list mdef := [mk_mdef MTimer 0 0; mk_mdef MUnsigned 0 0; mk_mdef MString 3 0; mk_mdef MSigned 0 1; mk_mdef MTimer 0 1; mk_mdef MTimer 0 1].
Theorem C39_every_add_is_reported_refuted : ~ (forall defs timers k d ops rs s,
  mdefs_ok defs -> get defs k = Some d -> md_type d = MUnsigned -> md_session d = 0 ->
  me_run defs timers (ms_init defs) (ops ++ heartbeat_ops 0 1000) = Some (rs, s) ->
  reported_sum (event_index 0 defs k) rs = added k ops).
Proof.
  intros H.
  specialize (H demo_defs [] 1 (mk_mdef MUnsigned 0 0) [OAdd 1 5; OTally 10; OSerialize 0; OAdd 1 7; OReset 0]).
  destruct (me_run demo_defs [] (ms_init demo_defs) ([OAdd 1 5; OTally 10; OSerialize 0; OAdd 1 7; OReset 0] ++ heartbeat_ops 0 1000))
    as [(rs & s)|] eqn:E; [|vm_compute in E; discriminate].
  specialize (H rs s ltac:(unfold mdefs_ok, demo_defs; repeat (apply Forall_cons; [cbn; lia|]); apply Forall_nil) eq_refl eq_refl eq_refl eq_refl).
  vm_compute in E. injection E as <- <-. vm_compute in H. discriminate.
Qed.
Print Assumptions C39_every_add_is_reported_refuted.

(** C40: a timer shows the sum of its runs, each from start to stop, whatever the times (the clock has 31
    bits in the code) and however often it is read, as long as it is looked at or stopped within 2^31 ms. *)
Theorem C40_timer_shows_the_sum_of_its_runs : forall defs timers k d xs now,
  mdefs_ok defs -> get defs k = Some d -> md_type d = MTimer -> Forall run_good xs -> 0 <= now ->
  exists rs s, me_run defs timers (ms_init defs) (concat (map (run_ops k) xs) ++ [OReadT k now]) =
    Some (rs ++ [RVal 0 (Some (fold_right Z.add 0 (map run_time xs) mod 4294967296))], s).
Proof. exact timer_sums_runs. Qed.
Print Assumptions C40_timer_shows_the_sum_of_its_runs.

(** Every heartbeat reports of a running timer exactly the time since the one before: nothing is counted
    twice or lost at the borders. *)
Theorem C40_heartbeats_report_the_time_between : forall defs timers h k d t0 ts,
  mdefs_ok defs -> get defs k = Some d -> md_type d = MTimer -> md_session d = h -> 0 <= t0 -> beats t0 ts ->
  exists rs s, me_run defs timers (ms_init defs) (OStart k t0 :: concat (map (heartbeat_ops h) ts)) = Some (rs, s)
    /\ reported (event_index h defs k) rs = map (fun dt => Some (IUnsigned dt)) (diffs t0 ts).
Proof. exact heartbeats_report. Qed.
Print Assumptions C40_heartbeats_report_the_time_between.

(** What is not true: the total is exact only modulo 2^32 ms (unlike the counters, it wraps). *)
Theorem C40_total_saturates_refuted : ~ (forall defs k d xs now rs s v,
  mdefs_ok defs -> get defs k = Some d -> md_type d = MTimer -> Forall run_good xs -> 0 <= now ->
  me_run defs [] (ms_init defs) (concat (map (run_ops k) xs) ++ [OReadT k now]) = Some (rs ++ [RVal 0 (Some v)], s) ->
  v = Z.min 4294967295 (fold_right Z.add 0 (map run_time xs))).
Proof.
  intros H. set (xs := [(0, [2000000000; 4000000000], 4294967296)] : list run).
  assert (F : Forall run_good xs).
  { apply Forall_cons; [|apply Forall_nil]. cbn. lia. }
  assert (D : mdefs_ok demo_defs) by (unfold mdefs_ok, demo_defs; repeat (apply Forall_cons; [cbn; lia|]); apply Forall_nil).
  destruct (timer_sums_runs demo_defs [] 0 _ xs 0 D eq_refl eq_refl F ltac:(lia)) as (rs & s & E).
  specialize (H demo_defs 0 _ xs 0 rs s _ D eq_refl eq_refl F ltac:(lia) E). vm_compute in H. discriminate.
Qed.
Print Assumptions C40_total_saturates_refuted.

(** What is not true: starting a session does not restart a timer of the session that is already running
    (memfault_metrics.c:1103 resets the values, not the start times): although the start succeeds and
    promises to discard what happened before, the time before it is counted in the session. *)
Theorem C40_session_counts_from_its_start_refuted : ~ (forall defs timers session k0 k d before t1 t t2 rs s s' items v,
  mdefs_ok defs -> get timers session = Some k0 -> get defs k = Some d -> md_type d = MTimer -> md_session d = session ->
  me_run defs timers (ms_init defs) before = Some (rs, s) -> 0 <= t1 <= t /\ t <= t2 ->
  me_run defs timers s [OSessStart session true t1; OTally t; OSessEnd session true t2 true] = Some ([RRv 0; RUnit; REnd 0 (Some items)], s') ->
  get items (event_index session defs k) = Some (IUnsigned v) -> v <= t2 - t1).
Proof.
  intros H. assert (D : mdefs_ok demo_defs) by (unfold mdefs_ok, demo_defs; repeat (apply Forall_cons; [cbn; lia|]); apply Forall_nil).
  specialize (H demo_defs [0; 4] 1 4 5 (mk_mdef MTimer 0 1) [OStart 5 0] 1000 1400 1500).
  specialize (H [RRv 0] (mk_ms [0; 0; 0; 0; 0] [0] [[0; 0; 0; 0]] [(false, 0); (false, 0); (true, 0); (false, 0)])
    (mk_ms [0; 0; 0; 500; 1400] [0] [[0; 0; 0; 0]] [(false, 0); (false, 0); (true, 1400); (false, 0)]) [INull; IUnsigned 500; IUnsigned 1400] 1400 D).
  assert (C : 1400 <= 1500 - 1000); [|lia].
  apply H; [vm_compute; reflexivity|vm_compute; reflexivity|reflexivity|reflexivity|vm_compute; reflexivity|lia|vm_compute; reflexivity|vm_compute; reflexivity].
Qed.
Print Assumptions C40_session_counts_from_its_start_refuted.

(** What is not true: the end of a session does not bring the other timers of the session up to date
    (memfault_metrics.c:1137-1146; only a heartbeat does), so its event reports too little of them. *)
Theorem C40_session_end_reports_running_timers_refuted : ~ (forall defs timers session k0 k d t0 t1 t2 rs s l s' v,
  mdefs_ok defs -> get timers session = Some k0 -> get defs k = Some d -> md_type d = MTimer -> md_session d = session ->
  0 <= t0 <= t1 /\ t1 <= t2 < t1 + 2147483648 ->
  me_run defs timers (ms_init defs) [OSessStart session true t0; OStart k t1] = Some (rs, s) ->
  me_run defs timers s [OSessEnd session true t2 true] = Some (l, s') ->
  (exists items, l = [REnd 0 (Some items)] /\ get items (event_index session defs k) = Some (IUnsigned v)) -> v = t2 - t1).
Proof.
  intros H. assert (D : mdefs_ok demo_defs) by (unfold mdefs_ok, demo_defs; repeat (apply Forall_cons; [cbn; lia|]); apply Forall_nil).
  specialize (H demo_defs [0; 4] 1 4 5 (mk_mdef MTimer 0 1) 0 10 100).
  destruct (me_run demo_defs [0; 4] (ms_init demo_defs) [OSessStart 1 true 0; OStart 5 10]) as [(rs & s)|] eqn:E; [|vm_compute in E; discriminate].
  specialize (H rs s). destruct (me_run demo_defs [0; 4] s [OSessEnd 1 true 100 true]) as [(l & s')|] eqn:E2;
    [|vm_compute in E; injection E as <- <-; vm_compute in E2; discriminate].
  specialize (H l s' 0 D eq_refl eq_refl eq_refl eq_refl ltac:(lia) eq_refl eq_refl).
  vm_compute in E. injection E as <- <-. vm_compute in E2. injection E2 as <- <-.
  assert (C : 0 = 100 - 10); [|lia]. apply H. eexists. split; reflexivity.
Qed.
Print Assumptions C40_session_end_reports_running_timers_refuted.

(** C51: a string metric holds as many characters of what it is set to as fit its buffer; reading it fills
    the caller's buffer, never beyond its end, with as many as fit and a NUL. *)
Theorem C51_string_metric_reads_back : forall defs timers s k d c out,
  mdefs_ok defs -> reachable defs timers s -> get defs k = Some d -> md_type d = MString -> Forall charz c -> 0 < zlen out ->
  exists s' out', me_set_string defs s k c = Some (0, s') /\ me_read_string defs s' k out = Some (0, out')
    /\ cstr out' = Some (take (zlen out - 1) (take (md_range d) c)) /\ zlen out' = zlen out.
Proof. exact read_string_cstr. Qed.
Print Assumptions C51_string_metric_reads_back.

Example C39_case :
  match me_run demo_defs [0; 4] (ms_init demo_defs)
    [OReadU 1; OAdd 1 (-3); OReadU 1; OSetU 1 4294967290; OAdd 1 100; OReadU 1; OAdd 3 (-2147483648); OAdd 3 (-5); OReadS 3; OReadS 1; OReadU 9; OReset 0; OReadU 1; OReadS 3] with
  | Some (rs, _) => rs = [RVal (-7) None; RRv 0; RVal 0 (Some 0); RRv 0; RRv 0; RVal 0 (Some 4294967295); RRv 0; RRv 0;
                          RVal 0 (Some (-2147483648)); RVal (-2) None; RVal (-1) None; RUnit; RVal (-7) None; RVal 0 (Some (-2147483648))]
  | None => False
  end.
Proof. vm_compute. reflexivity. Qed.
(** A run across the wrap of the 31-bit clock. *)
Example C40_case :
  match me_run demo_defs [0; 4] (ms_init demo_defs)
    [OStart 0 2147483000; OReadT 0 2147484000; OStart 0 5; OStop 0 2147485000; OReadT 0 9000000000; OStop 0 1; OStart 0 4294967290; OTally 4294967300; OSerialize 0] with
  | Some (rs, _) => rs = [RRv 0; RVal 0 (Some 1000); RRv (-4); RRv 0; RVal 0 (Some 2000); RRv (-4); RRv 0; RUnit;
                          RItems [IUnsigned 2010; INull; IText []]]
  | None => False
  end.
Proof. vm_compute. reflexivity. Qed.
Example C51_case :
  match me_run demo_defs [0; 4] (ms_init demo_defs)
    [OSetStr 2 [104; 101; 108; 108; 111]; OReadStr 2 [9; 9; 9; 9; 9; 9]; OReadStr 2 [9; 9]; OReadStr 2 []; OSerialize 0; OSetStr 1 [65]] with
  | Some (rs, _) => rs = [RRv 0; RStr 0 [104; 101; 108; 0; 9; 0]; RStr 0 [104; 0]; RStr (-3) []; RItems [IUnsigned 0; INull; IText [104; 101; 108]]; RRv (-1)]
  | None => False
  end.
Proof. vm_compute. reflexivity. Qed.
