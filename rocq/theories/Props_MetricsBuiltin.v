(** C53-C57: the metrics the SDK collects itself. *)
From Verif Require Import Base Metrics MetricsSpec MetricsProofs MetricsBuiltin MetricsBuiltinSpec MetricsBuiltinProofs.

(** C53: each heartbeat adds exactly the full hours since boot completed since the one before, although
    the code keeps 32-bit milliseconds; the first of them are one fewer "crash-free" after an unexpected
    reboot. *)
Theorem C53_hours_are_exact : forall k l, rel_times 0 l -> rel_run k rel_init l = rel_spec k 0 l.
Proof. exact rel_hours. Qed.
Print Assumptions C53_hours_are_exact.

Theorem C53_total_hours : forall k l, bk_hours k <> bk_crashfree k -> rel_times 0 l ->
  let ops := concat (rel_run k rel_init l) in
  total_added (bk_hours k) ops = last_beat 0 l / 3600000 /\
  total_added (bk_crashfree k) ops = last_beat 0 l / 3600000 - (if first_hour_crash 0 l then 1 else 0).
Proof. exact reliability_totals. Qed.
Print Assumptions C53_total_hours.

Definition bk : bkeys := mk_bk 1 2 3 4 5 6 7 8 9 10.
(** What is not true: that no time is lost whatever the time between heartbeats. *)
Theorem C53_any_interval_refuted : ~ (forall k now un, 0 <= now ->
  total_added (bk_hours k) (concat (rel_run k rel_init [(now, un)])) = now / 3600000).
Proof. intros H. specialize (H bk 4294967296 false ltac:(lia)). vm_compute in H. discriminate. Qed.
Print Assumptions C53_any_interval_refuted.

(** Heartbeats every 50 minutes over a wrap of the 32-bit clock, after an unexpected reboot. *)
Example C53_case :
  rel_run bk rel_init [(3000000, true); (6000000, true); (9000000, true); (4294000000, false); (4297600000, false)] =
  [[]; [OAdd 1 1; OAdd 2 0]; [OAdd 1 1; OAdd 2 1]; [OAdd 1 1190; OAdd 2 1190]; [OAdd 1 1; OAdd 2 1]].
Proof. vm_compute. reflexivity. Qed.

(** C54: in any history, a collection reports a drop only if the device was discharging at the sample
    before and now, was not said to have stopped in between and both levels are known and falling; then it
    is the difference of the levels, over the time between the two. *)
Theorem C54_battery_drop_is_of_a_whole_discharge : forall k pre e0 r0 t0 n r now,
  Forall bev_ok pre -> bev_ok e0 -> sample e0 = Some (r0, t0) -> rd_ok r -> 0 <= now ->
  exists os s, bat_run k bat_init (pre ++ [e0] ++ repeat BStop n ++ [BCollect r now]) = Some (os ++ [bat_report k r0 t0 n r now], s).
Proof. exact battery_report. Qed.
Print Assumptions C54_battery_drop_is_of_a_whole_discharge.

(** Over an uninterrupted discharge the reported drops and durations add up to the whole. *)
Theorem C54_drops_add_up : forall k l, bk_drop k <> bk_duration k -> bk_drop k <> bk_soc k -> bk_duration k <> bk_soc k ->
  forall soc t, 0 <= soc < 2147483647 -> 0 <= t -> falling soc t l ->
  exists os s, bat_run k (mk_bat soc t false) (map level l) = Some (os, s) /\
    total_set (bk_drop k) (concat os) = soc - fst (last_pair (soc, t) l) /\
    total_set (bk_duration k) (concat os) = snd (last_pair (soc, t) l) - t.
Proof. exact discharge_sum. Qed.
Print Assumptions C54_drops_add_up.

Example C54_case :
  match bat_run bk bat_init [BBoot (mk_rd 0 90 true) 10; BCollect (mk_rd 0 85 true) 3600010; BStop; BCollect (mk_rd 0 95 true) 7200010;
                             BCollect (mk_rd 1 0 true) 10800010; BCollect (mk_rd 0 93 true) 14400010; BCollect (mk_rd 0 93 true) 18000010] with
  | Some (os, _) => os = [[]; [OSetU 3 5; OSetU 4 3600000; OSetU 5 85]; []; [OSetU 5 95]; []; [OSetU 5 93]; [OSetU 3 0; OSetU 4 3600000; OSetU 5 93]]
  | None => False
  end.
Proof. vm_compute. reflexivity. Qed.

(** C55: for every table of metrics and every history of state changes, heartbeats and calls about other
    metrics, each heartbeat reports as expected time the time since the last one during which the state
    was not "stopped", and as connected time the time it was "connected" (when the device never goes from
    connected back to started). *)
Theorem C55_connectivity_times : forall defs timers k h d1 d2 l rs a, mdefs_ok defs -> bk_expected k <> bk_connected k ->
  get defs (bk_expected k) = Some d1 -> md_type d1 = MTimer -> md_session d1 = h ->
  get defs (bk_connected k) = Some d2 -> md_type d2 = MTimer -> md_session d2 = h ->
  Forall (cev_ok k) l -> cev_times 0 l ->
  am_run defs timers (am_init defs) (flat_map (cev_ops k h) l) = Some (rs, a) ->
  exists s, me_run defs timers (ms_init defs) (flat_map (cev_ops k h) l) = Some (rs, s) /\
    reported (event_index h defs (bk_expected k)) rs = shows (time_in not_stopped CStopped 0 0 l) /\
    (no_restart CStopped l -> reported (event_index h defs (bk_connected k)) rs = shows (time_in is_connected CStopped 0 0 l)).
Proof. exact connectivity. Qed.
Print Assumptions C55_connectivity_times.

Definition cn_defs : list mdef := [mk_mdef MUnsigned 0 0; mk_mdef MTimer 0 0; mk_mdef MTimer 0 0].
Definition cn_keys : bkeys := mk_bk 9 9 9 9 9 9 9 9 2 1.
Lemma cn_ok : mdefs_ok cn_defs.
Proof. unfold mdefs_ok, cn_defs. repeat (apply Forall_cons; [cbn; lia|]). apply Forall_nil. Qed.
(** What is not true: "started" announced while connected does not stop the connected timer
    (memfault_metrics_connectivity.c:45-47). *)
Definition cn_back : list cev := [CChange CConnected 100; CChange CStarted 200; CBeat 1000].
Theorem C55_connected_time_after_restart_refuted : ~ (forall defs timers k h d1 d2 l rs s, mdefs_ok defs -> bk_expected k <> bk_connected k ->
  get defs (bk_expected k) = Some d1 -> md_type d1 = MTimer -> md_session d1 = h ->
  get defs (bk_connected k) = Some d2 -> md_type d2 = MTimer -> md_session d2 = h ->
  Forall (cev_ok k) l -> cev_times 0 l ->
  me_run defs timers (ms_init defs) (flat_map (cev_ops k h) l) = Some (rs, s) ->
  reported (event_index h defs (bk_connected k)) rs = shows (time_in is_connected CStopped 0 0 l)).
Proof.
  intros H. specialize (H cn_defs [] cn_keys 0 (mk_mdef MTimer 0 0) (mk_mdef MTimer 0 0) cn_back).
  destruct (me_run cn_defs [] (ms_init cn_defs) (flat_map (cev_ops cn_keys 0) cn_back)) as [(rs & s)|] eqn:E; [|vm_compute in E; discriminate].
  specialize (H rs s cn_ok ltac:(discriminate) eq_refl eq_refl eq_refl eq_refl eq_refl eq_refl
    ltac:(unfold cn_back; repeat (apply Forall_cons; [exact I|]); apply Forall_nil) ltac:(cbn; lia) eq_refl).
  vm_compute in E. injection E as <- <-. vm_compute in H. discriminate.
Qed.
Print Assumptions C55_connected_time_after_restart_refuted.

Example C55_case :
  match me_run cn_defs [] (ms_init cn_defs) (flat_map (cev_ops cn_keys 0)
          [CChange CStarted 50; CChange CConnected 100; COther (OAdd 0 1); CBeat 1000; CChange CLost 1200; CChange CConnected 1500; CChange CStopped 1800; CBeat 2000]) with
  | Some (rs, _) => reported (event_index 0 cn_defs 2) rs = [Some (IUnsigned 950); Some (IUnsigned 800)] /\
                    reported (event_index 0 cn_defs 1) rs = [Some (IUnsigned 900); Some (IUnsigned 500)]
  | None => False
  end.
Proof. vm_compute. split; reflexivity. Qed.

(** C56: the uptime is never more than the seconds since boot, never goes back, and is behind by at most
    one second, and another for every 168 days, for 136 years. *)
Theorem C56_uptime_bounds : forall ms, 0 <= ms <= 4294967592000 ->
  uptime_seconds ms <= ms / 1000 /\ ms / 1000 - uptime_seconds ms <= 1 + ms * 296 / 4294967296000.
Proof. exact uptime_bounds. Qed.
Print Assumptions C56_uptime_bounds.
Theorem C56_uptime_never_goes_back : forall a b, 0 <= a -> a <= b -> b <= 4294967592000 -> uptime_seconds a <= uptime_seconds b.
Proof. exact uptime_mono. Qed.
Print Assumptions C56_uptime_never_goes_back.
(** What is not true: that it is the number of full seconds (after exactly one second it is 0), nor that
    136 years are the range of the metric: the value wraps after that. *)
Theorem C56_uptime_is_the_full_seconds_refuted : ~ (forall ms, 0 <= ms < 4294967296000 -> uptime_seconds ms = ms / 1000).
Proof. intros H. specialize (H 1000 ltac:(lia)). vm_compute in H. discriminate. Qed.
Print Assumptions C56_uptime_is_the_full_seconds_refuted.
Example C56_case : map uptime_seconds [0; 999; 1000; 1001; 86400001; 31536000000] = [0; 0; 0; 1; 86399; 31535997] /\ 31536000000 / 1000 = 31536000.
Proof. vm_compute. split; reflexivity. Qed.

(** C57: the counts of lines dropped and recorded added at each heartbeat are the lines since the one
    before, also when the counters wrap, for less than 2^31 lines. *)
Theorem C57_log_lines_are_exact : forall k l d0 r0, log_steps 2147483648 d0 r0 l ->
  log_run k (d0 mod 4294967296, r0 mod 4294967296) (map counters l) = log_spec k d0 r0 l.
Proof. exact log_run_ok. Qed.
Print Assumptions C57_log_lines_are_exact.
(** What is not true: that any number up to 2^32 is right, as the comment at memfault_metrics.c:537 says;
    the cast makes 2^31 or more negative. *)
Theorem C57_up_to_2_32_refuted : ~ (forall k l d0 r0, log_steps 4294967296 d0 r0 l ->
  log_run k (d0 mod 4294967296, r0 mod 4294967296) (map counters l) = log_spec k d0 r0 l).
Proof. intros H. specialize (H bk [(2147483648, 0)] 0 0 ltac:(cbn; lia)). vm_compute in H. discriminate. Qed.
Print Assumptions C57_up_to_2_32_refuted.
Example C57_case : log_run bk (4294967290 mod 4294967296, 5) (map counters [(4294967300, 12); (4294967301, 12)]) =
  [[OAdd 7 10; OAdd 8 7]; [OAdd 7 1; OAdd 8 0]].
Proof. vm_compute. reflexivity. Qed.
