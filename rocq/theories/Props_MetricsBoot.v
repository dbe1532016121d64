(** C63: booting the metrics; sessions cut off by a crash. *)
From Verif Require Import Base Metrics MetricsSpec MetricsProofs Reboot RebootSpec RebootProofs MetricsBoot MetricsBootSpec MetricsBootProofs.

(** For every table, every memory found at power on and every history, the device (value tables, flag
    bytes, 31-bit clocks, retained memory) does what the specification says. *)
Theorem C63_device_does_as_specified : forall defs timers cfg m ops rs a,
  mdefs_ok defs -> tables_ok defs cfg -> rinfo_ok m -> Forall dop_ok ops ->
  dv_run defs timers cfg (dv_init defs m) ops = Some (rs, a) ->
  exists s, dev_run defs timers cfg (dev_init defs m) ops = Some (rs, s).
Proof. exact device_refines. Qed.
Print Assumptions C63_device_does_as_specified.

(** Whatever happens while the device runs: when it then resets, keeping its memory, and boots, exactly
    the sessions that were started and not ended are reported, each once, in order, with one crash and
    nothing else -- if the reason of the reset is a crash, and none otherwise. *)
Theorem C63_crash_reports_the_open_sessions : forall defs timers cfg m before rs a v ops rs1 s1 info c now st,
  mdefs_ok defs -> tables_ok defs cfg -> rinfo_ok m ->
  Forall dop_ok before -> Forall dop_ok ops -> match info with Some (r, _) => is_u16 r | None => True end ->
  dv_run defs timers cfg (dv_init defs m) before = Some (rs, (a, v)) -> r_up v = true -> (forall k, k_active (r_k v) k = false) ->
  forallb running ops = true -> dv_run defs timers cfg (a, v) ops = Some (rs1, s1) -> 0 <= now -> is_u32 c ->
  exists s, dev_run defs timers cfg (dev_init defs m) (before ++ ops ++ reboot_ops info c now st) =
    Some (rs ++ rs1 ++ [DRTrack TOk; DRTrack TOk;
            DRBoot 0 (if crash (boot_reason (marked (k_first (r_k v)) ops) info)
                      then map (crash_event defs cfg st) (filter (fun k => open_after k false ops) (sessions cfg)) else [])], s).
Proof. exact crash_reports_open_sessions. Qed.
Print Assumptions C63_crash_reports_the_open_sessions.

(** Two user sessions 0 and 1; the heartbeat is session 2. *)
Definition bt_defs : list mdef :=
  [mk_mdef MTimer 0 2; mk_mdef MUnsigned 0 2; mk_mdef MTimer 0 0; mk_mdef MUnsigned 0 0; mk_mdef MString 4 0;
   mk_mdef MTimer 0 1; mk_mdef MUnsigned 0 1; mk_mdef MSigned 0 1].
Definition bt_timers : list Z := [2; 5].
Definition bt_cfg : mb_cfg := mk_mbc [3; 6] 0 1.
Definition bt_mem : rinfo := mk_rin 0 0 0 0 0 0 0 0 0.
Definition bt_up : list dop := [DTrack (TBoot true None (Some (2, 0))); DTrack TClear; DBoot true true 0 0 (fun _ => true)].
Example bt_tables : tables_ok bt_defs bt_cfg.
Proof.
  constructor.
  - change (zlen (mb_crash bt_cfg)) with 2. lia.
  - intros k key G. destruct (get_range _ _ _ G) as (L & H). change (zlen (mb_crash bt_cfg)) with 2 in H.
    assert (k = 0 \/ k = 1) as [-> | ->] by lia; injection G as <-; eexists; repeat split; reflexivity.
  - eexists. split; [reflexivity|]. split; [reflexivity|]. vm_compute. discriminate.
  - eexists. split; [reflexivity|]. split; [reflexivity|]. vm_compute. discriminate.
Qed.

Example C63_case : match dev_run bt_defs bt_timers bt_cfg (dev_init bt_defs bt_mem)
    (bt_up ++ [DStart 0 10; DMetric (OAdd 3 4); DMetric (OSetStr 4 [65; 66]); DStart 1 20; DEnd 0 35 true; DStart 0 50; DMetric (OAdd 7 (-3))]
     ++ reboot_ops (Some (0x8000, 0)) 1 7 (fun _ => true) ++ reboot_ops (Some (0x8000, 0)) 1 7 (fun _ => true)) with
  | Some (rs, _) => get rs 7 = Some (DRMetric (REnd 0 (Some [IUnsigned 25; IUnsigned 4; IText [65; 66]])) [(0, [IUnsigned 25; IUnsigned 4; IText [65; 66]], true)]) /\
                    get rs 12 = Some (DRBoot 0 [(0, [IUnsigned 0; IUnsigned 1; IText []], true); (1, [IUnsigned 0; IUnsigned 1; INull], true)]) /\
                    get rs 15 = Some (DRBoot 0 [])
  | None => False
  end.
Proof. vm_compute. repeat split. Qed.

(** What is not true: a boot that fails early -- the timer of the port could not be started, the storage
    is too small -- leaves the marks of the sessions, so that the next boot reports a session that was
    not open when the device crashed. *)
Definition bt_before : list dop := bt_up ++ [DStart 0 10; DTrack (TReset None); DTrack (TBoot true None (Some (0x8000, 0)))].
Theorem C63_reported_sessions_were_open_refuted : ~ (forall defs timers cfg m before t z c0 now0 st0 ops info c now st rs ev s,
  mdefs_ok defs -> tables_ok defs cfg -> rinfo_ok m -> forallb running ops = true ->
  dev_run defs timers cfg (dev_init defs m) (before ++ [DBoot t z c0 now0 st0] ++ ops ++ reboot_ops info c now st) = Some (rs ++ [DRBoot 0 ev], s) ->
  forall k l x, In (k, l, x) ev -> open_after k false ops = true).
Proof.
  intros H. pose (run := dev_run bt_defs bt_timers bt_cfg (dev_init bt_defs bt_mem)
    (bt_before ++ [DBoot false true 0 3 (fun _ => true)] ++ [DStart 1 4] ++ reboot_ops (Some (0x8000, 0)) 1 7 (fun _ => true))).
  assert (A : match run with Some (rs, _) => exists r0, rs = r0 ++ [DRBoot 0 [(0, [IUnsigned 0; IUnsigned 1; IText []], true); (1, [IUnsigned 0; IUnsigned 1; INull], true)]] | None => False end).
  { vm_compute. match goal with |- exists r0, ?l = _ => exists (removelast l) end. reflexivity. }
  destruct run as [(rs & s)|] eqn:E; [|contradiction]. destruct A as (r0 & ->). unfold run in E.
  specialize (H bt_defs bt_timers bt_cfg bt_mem bt_before false true 0 3 (fun _ => true) [DStart 1 4] (Some (0x8000, 0)) 1 7 (fun _ => true) r0
    [(0, [IUnsigned 0; IUnsigned 1; IText []], true); (1, [IUnsigned 0; IUnsigned 1; INull], true)] s).
  specialize (H ltac:(unfold mdefs_ok, bt_defs; repeat (apply Forall_cons; [cbn; lia|]); apply Forall_nil) bt_tables ltac:(unfold rinfo_ok, is_u8; cbn; lia) eq_refl E 0 _ true (or_introl eq_refl)).
  clear E. cbv in H. discriminate H.
Qed.
Print Assumptions C63_reported_sessions_were_open_refuted.

(** Nor is a session whose event the storage refused reported at the next boot: it is lost. *)
Theorem C63_refused_event_comes_again_refuted : ~ (forall defs timers cfg m ops info c now st info2 c2 now2 st2 rs ev1 ev2 s,
  mdefs_ok defs -> tables_ok defs cfg -> rinfo_ok m ->
  dev_run defs timers cfg (dev_init defs m) (ops ++ reboot_ops info c now st ++ reboot_ops info2 c2 now2 st2) =
    Some (rs ++ [DRBoot 0 ev1; DRTrack TOk; DRTrack TOk; DRBoot 0 ev2], s) ->
  forall k l, In (k, l, false) ev1 -> exists l' x, In (k, l', x) ev2).
Proof.
  intros H. pose (run := dev_run bt_defs bt_timers bt_cfg (dev_init bt_defs bt_mem)
    ((bt_up ++ [DStart 0 10]) ++ reboot_ops (Some (0x8000, 0)) 1 7 (fun _ => false) ++ reboot_ops (Some (0x8000, 0)) 1 7 (fun _ => true))).
  assert (A : match run with Some (rs, _) => exists r0, rs = r0 ++ [DRBoot 0 [(0, [IUnsigned 0; IUnsigned 1; IText []], false)]; DRTrack TOk; DRTrack TOk; DRBoot 0 []] | None => False end).
  { vm_compute. match goal with |- exists r0, ?l = _ => exists (removelast (removelast (removelast (removelast l)))) end. reflexivity. }
  destruct run as [(rs & s)|] eqn:E; [|contradiction]. destruct A as (r0 & ->). unfold run in E.
  destruct (H bt_defs bt_timers bt_cfg bt_mem (bt_up ++ [DStart 0 10]) (Some (0x8000, 0)) 1 7 (fun _ => false) (Some (0x8000, 0)) 1 7 (fun _ => true) r0
    [(0, [IUnsigned 0; IUnsigned 1; IText []], false)] [] s
    ltac:(unfold mdefs_ok, bt_defs; repeat (apply Forall_cons; [cbn; lia|]); apply Forall_nil) bt_tables ltac:(unfold rinfo_ok, is_u8; cbn; lia) E
    0 _ (or_introl eq_refl)) as (l & x & []).
Qed.
Print Assumptions C63_refused_event_comes_again_refuted.

(** Nor does a boot that returns an error leave the metrics alone: a second call without a reset of the
    device answers that the interval is already running and has by then forgotten every value. *)
Theorem C63_failed_boot_changes_nothing_refuted : ~ (forall defs timers cfg m ops t z c now st key rv x y rs s,
  mdefs_ok defs -> tables_ok defs cfg -> rinfo_ok m -> rv <> 0 ->
  dev_run defs timers cfg (dev_init defs m) (ops ++ [DMetric (OReadU key); DBoot t z c now st; DMetric (OReadU key)]) =
    Some (rs ++ [x; DRBoot rv []; y], s) -> x = y).
Proof.
  intros H. pose (run := dev_run bt_defs bt_timers bt_cfg (dev_init bt_defs bt_mem)
    ((bt_up ++ [DMetric (OSetU 3 9)]) ++ [DMetric (OReadU 3); DBoot true true 0 5 (fun _ => true); DMetric (OReadU 3)])).
  assert (A : match run with Some (rs, _) => exists r0, rs = r0 ++ [DRMetric (RVal 0 (Some 9)) []; DRBoot NO_CHANGE []; DRMetric (RVal VALUE_NOT_SET None) []] | None => False end).
  { vm_compute. match goal with |- exists r0, ?l = _ => exists (removelast (removelast (removelast l))) end. reflexivity. }
  destruct run as [(rs & s)|] eqn:E; [|contradiction]. destruct A as (r0 & ->). unfold run in E.
  specialize (H bt_defs bt_timers bt_cfg bt_mem (bt_up ++ [DMetric (OSetU 3 9)]) true true 0 5 (fun _ => true) 3 NO_CHANGE _ _ r0 s
    ltac:(unfold mdefs_ok, bt_defs; repeat (apply Forall_cons; [cbn; lia|]); apply Forall_nil) bt_tables ltac:(unfold rinfo_ok, is_u8; cbn; lia) ltac:(unfold NO_CHANGE; lia) E).
  clear E. cbv in H. discriminate H.
Qed.
Print Assumptions C63_failed_boot_changes_nothing_refuted.
