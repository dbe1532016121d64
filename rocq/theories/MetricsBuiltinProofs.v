(** The metrics the SDK collects itself. *)
From Verif Require Import Base Metrics MetricsSpec MetricsProofs MetricsBuiltin MetricsBuiltinSpec.

(** ** Reliability *)
Definition rel_ok (s : rel) (before : Z) : Prop :=
  rl_last s = before mod 4294967296 /\ rl_ms s = before mod 3600000 /\ rl_counted s = negb (hour_of before =? 0).
Lemma s32_small x : 0 <= x < 2147483648 -> s32 x = x.
Proof. intros. unfold s32, u32. rewrite Z.mod_small by lia. ifz; lia. Qed.
Lemma rel_step k s before now un : rel_ok s before -> 0 <= before -> before <= now < before + 4291367296 ->
  exists s', rel_collect k s now un =
    ((let n := hour_of now - hour_of before in
      if n =? 0 then [] else [OAdd (bk_hours k) n; OAdd (bk_crashfree k) (n - (if (hour_of before =? 0) && un then 1 else 0))]), s')
    /\ rel_ok s' now.
Proof.
  intros (H1 & H2 & H3) P T. unfold rel_collect. rewrite H1, H2. cbv zeta.
  assert (E : u32 (before mod 3600000 + u32 (u32 now - before mod 4294967296)) = before mod 3600000 + (now - before)).
  { unfold u32. rewrite <- Zminus_mod. rewrite (Z.mod_small (now - before)) by lia.
    apply Z.mod_small. pose proof (Z.mod_pos_bound before 3600000). lia. }
  rewrite E. set (ms := before mod 3600000 + (now - before)).
  assert (HM : 0 <= ms < 4294967296) by (unfold ms; pose proof (Z.mod_pos_bound before 3600000); lia).
  assert (HH : ms / 1000 / 3600 = hour_of now - hour_of before).
  { rewrite Z.div_div by lia. change (1000 * 3600) with 3600000. unfold ms, hour_of. clear.
    Z.div_mod_to_equations. lia. }
  rewrite HH. set (n := hour_of now - hour_of before) in *.
  assert (HN : n * 3600000 <= ms < n * 3600000 + 3600000).
  { rewrite Z.div_div in HH by lia. change (1000 * 3600) with 3600000 in HH. clearbody ms n. clear - HH. Z.div_mod_to_equations. lia. }
  assert (N0 : 0 <= n <= 1193) by lia.
  assert (U1 : u32 (n * 3600) = n * 3600) by (unfold u32; apply Z.mod_small; lia).
  assert (U2 : u32 (n * 3600 * 1000) = n * 3600000) by (unfold u32; rewrite Z.mod_small by lia; lia).
  rewrite U1, U2.
  assert (U3 : u32 (ms - n * 3600000) = now mod 3600000).
  { unfold u32. rewrite Z.mod_small by lia. unfold ms, n, hour_of in *. clear. Z.div_mod_to_equations. lia. }
  rewrite U3, H3.
  destruct (n =? 0) eqn:N.
  - eexists. split; [reflexivity|]. unfold rel_ok. cbn [rl_last rl_ms rl_counted]. split; [reflexivity|]. split; [reflexivity|].
    f_equal. unfold n in N. destruct (hour_of before =? 0) eqn:B; lia.
  - eexists. split.
    + f_equal. rewrite (s32_small n) by lia. f_equal. f_equal. f_equal.
      destruct (hour_of before =? 0) eqn:B; cbn [negb andb].
      * destruct un; (unfold u32; rewrite Z.mod_small by lia; apply s32_small; lia).
      * unfold u32; rewrite Z.mod_small by lia; apply s32_small; lia.
    + unfold rel_ok. cbn [rl_last rl_ms rl_counted]. split; [reflexivity|]. split; [reflexivity|].
      assert (0 <= hour_of before) by (unfold hour_of; apply Z.div_pos; lia). unfold n in N, N0.
      replace (hour_of now =? 0) with false by lia. reflexivity.
Qed.
Lemma rel_run_ok k l : forall s before, rel_ok s before -> 0 <= before -> rel_times before l -> rel_run k s l = rel_spec k before l.
Proof.
  induction l as [|[now un] r IH]; intros s before H P T; [reflexivity|]. cbn [rel_times] in T. destruct T as [T1 T2].
  destruct (rel_step k s before now un H P T1) as (s' & E & H'). cbn [rel_run rel_spec]. rewrite E. f_equal. apply IH; [exact H'|lia|exact T2].
Qed.
Lemma rel_hours k l : rel_times 0 l -> rel_run k rel_init l = rel_spec k 0 l.
Proof. intros T. apply rel_run_ok; [repeat split|lia|exact T]. Qed.
Lemma total_added_app key a b : total_added key (a ++ b) = total_added key a + total_added key b.
Proof. induction a as [|o r IH]; [reflexivity|]. destruct o; cbn [app total_added]; lia. Qed.
Lemma rel_total_hours k l : bk_hours k <> bk_crashfree k -> forall before,
  total_added (bk_hours k) (concat (rel_spec k before l)) = hour_of (last_beat before l) - hour_of before.
Proof.
  intros D. induction l as [|[now un] r IH]; intros before; [cbn; lia|]. cbn [rel_spec concat]. rewrite total_added_app, IH.
  change (last_beat before ((now, un) :: r)) with (last_beat now r). cbv zeta.
  destruct (hour_of now - hour_of before =? 0) eqn:N; cbn [total_added]; [lia|].
  rewrite Z.eqb_refl. replace (bk_crashfree k =? bk_hours k) with false by lia. lia.
Qed.
Lemma rel_total_crashfree_after k l : bk_hours k <> bk_crashfree k -> forall before, 0 < hour_of before -> rel_times before l ->
  total_added (bk_crashfree k) (concat (rel_spec k before l)) = hour_of (last_beat before l) - hour_of before.
Proof.
  intros D. induction l as [|[now un] r IH]; intros before P T; [cbn; lia|]. cbn [rel_spec concat]. rewrite total_added_app.
  cbn [rel_times] in T. destruct T as [T1 T2].
  assert (hour_of before <= hour_of now) by (unfold hour_of; apply Z.div_le_mono; lia).
  rewrite IH by (assumption || lia). change (last_beat before ((now, un) :: r)) with (last_beat now r). cbv zeta.
  replace (hour_of before =? 0) with false by lia. cbn [andb].
  destruct (hour_of now - hour_of before =? 0) eqn:N; cbn [total_added]; [lia|].
  rewrite Z.eqb_refl. replace (bk_hours k =? bk_crashfree k) with false by lia. lia.
Qed.
Lemma rel_total_crashfree k l : bk_hours k <> bk_crashfree k -> forall before, 0 <= before -> hour_of before = 0 -> rel_times before l ->
  total_added (bk_crashfree k) (concat (rel_spec k before l)) = hour_of (last_beat before l) - (if first_hour_crash before l then 1 else 0).
Proof.
  intros D. induction l as [|[now un] r IH]; intros before P0 P T; [cbn; lia|]. cbn [rel_spec concat]. rewrite total_added_app.
  cbn [rel_times] in T. destruct T as [T1 T2].
  assert (hour_of before <= hour_of now) by (unfold hour_of; apply Z.div_le_mono; lia).
  change (last_beat before ((now, un) :: r)) with (last_beat now r). cbv zeta. cbn [first_hour_crash]. rewrite P, Z.sub_0_r.
  destruct (hour_of now =? 0) eqn:N; cbn [total_added].
  - rewrite IH by (assumption || lia). lia.
  - rewrite rel_total_crashfree_after by (assumption || lia). rewrite (Z.eqb_refl (bk_crashfree k)). replace (bk_hours k =? bk_crashfree k) with false by lia.
    change (0 =? 0) with true. cbn [andb]. destruct un; lia.
Qed.
Lemma reliability_totals k l : bk_hours k <> bk_crashfree k -> rel_times 0 l ->
  let ops := concat (rel_run k rel_init l) in
  total_added (bk_hours k) ops = last_beat 0 l / 3600000 /\
  total_added (bk_crashfree k) ops = last_beat 0 l / 3600000 - (if first_hour_crash 0 l then 1 else 0).
Proof.
  intros D T. cbv zeta. rewrite rel_hours by exact T. split.
  - rewrite rel_total_hours by exact D. change (hour_of 0) with 0. unfold hour_of. lia.
  - rewrite rel_total_crashfree by (assumption || reflexivity || lia). reflexivity.
Qed.

(** ** Uptime *)
Lemma uptime_value ms : 0 <= ms <= 4294967592000 -> uptime_seconds ms = ms * 4294967 / 4294967296.
Proof.
  intros H. unfold uptime_seconds, u64. rewrite Z.mod_small by lia. rewrite Z.shiftr_div_pow2 by lia. change (2 ^ 32) with 4294967296.
  unfold u32. apply Z.mod_small. split; [apply Z.div_pos; lia|]. apply Z.div_lt_upper_bound; lia.
Qed.
Lemma uptime_bounds ms : 0 <= ms <= 4294967592000 ->
  uptime_seconds ms <= ms / 1000 /\ ms / 1000 - uptime_seconds ms <= 1 + ms * 296 / 4294967296000.
Proof.
  intros H. rewrite uptime_value by exact H. assert (P : 0 <= ms) by lia. clear H. Z.div_mod_to_equations. lia.
Qed.
Lemma uptime_mono a b : 0 <= a -> a <= b -> b <= 4294967592000 -> uptime_seconds a <= uptime_seconds b.
Proof. intros. rewrite !uptime_value by lia. apply Z.div_le_mono; lia. Qed.

(** ** Log lines *)
Lemma log_run_ok k l : forall d0 r0, log_steps 2147483648 d0 r0 l ->
  log_run k (d0 mod 4294967296, r0 mod 4294967296) (map counters l) = log_spec k d0 r0 l.
Proof.
  induction l as [|[d r] t IH]; intros d0 r0 H; [reflexivity|]. cbn [log_steps] in H. destruct H as (H1 & H2 & H3).
  cbn [map counters fst snd log_run log_collect log_spec]. rewrite (IH d r H3). f_equal.
  assert (E : forall a b, a <= b < a + 2147483648 -> s32 (u32 (b mod 4294967296 - a mod 4294967296)) = b - a).
  { intros a b L. unfold u32. rewrite <- Zminus_mod, Z.mod_small by lia. apply s32_small. lia. }
  rewrite !E by assumption. reflexivity.
Qed.

(** ** Battery *)
Lemma bat_run_app k : forall l1 l2 s o1 s1 o2 s2, bat_run k s l1 = Some (o1, s1) -> bat_run k s1 l2 = Some (o2, s2) -> bat_run k s (l1 ++ l2) = Some (o1 ++ o2, s2).
Proof.
  induction l1 as [|e r IH]; intros l2 s o1 s1 o2 s2 H1 H2; cbn [bat_run app] in *.
  - injection H1 as <- <-. exact H2.
  - destruct (bat_step k s e) as [[ops s']|]; [|discriminate]. cbn [bind] in *. destruct (bat_run k s' r) as [[os s'']|] eqn:E; [|discriminate].
    cbn [bind] in H1. injection H1 as <- <-. rewrite (IH _ _ _ _ _ _ E H2). reflexivity.
Qed.
Lemma rd_current_val r : rd_ok r -> rd_current r = if rd_rv r =? 0 then rd_soc r else -1.
Proof. intros H. unfold rd_ok in H. unfold rd_current. destruct (rd_rv r =? 0); [apply s32_small; lia|reflexivity]. Qed.
Definition bat_wf (s : bat) : Prop := -1 <= ba_last s < 2147483647.
Lemma bat_step_wf k s e : bat_wf s -> bev_ok e -> exists ops s', bat_step k s e = Some (ops, s') /\ bat_wf s'.
Proof.
  intros W H. unfold bat_wf in *. destruct e as [r now| |r now]; cbn [bat_step bev_ok] in *.
  - eexists _, _. split; [reflexivity|]. cbn [bat_boot ba_last]. destruct H as [H _]. rewrite rd_current_val by exact H. unfold rd_ok in H. destruct (rd_rv r =? 0); lia.
  - eexists _, _. split; [reflexivity|]. exact W.
  - destruct H as [H _]. unfold bat_collect. cbv zeta. rewrite rd_current_val by exact H. unfold rd_ok in H.
    set (c := if rd_rv r =? 0 then rd_soc r else -1). assert (-1 <= c < 2147483647) by (unfold c; destruct (rd_rv r =? 0); lia).
    replace ((-2147483648 <=? ba_last s - c) && (ba_last s - c <=? 2147483647)) with true by lia.
    eexists _, _. split; [reflexivity|]. exact H0.
Qed.
Lemma bat_run_wf k l : forall s, bat_wf s -> Forall bev_ok l -> exists os s', bat_run k s l = Some (os, s') /\ bat_wf s'.
Proof.
  induction l as [|e r IH]; intros s W F; [eexists _, _; split; [reflexivity|exact W]|]. inv F.
  destruct (bat_step_wf k s e W H1) as (ops & s1 & E & W1). destruct (IH s1 W1 H2) as (os & s2 & E2 & W2).
  cbn [bat_run]. rewrite E. cbn [bind]. rewrite E2. eexists _, _. split; [reflexivity|exact W2].
Qed.
Lemma bat_stops k n : forall s, bat_run k s (repeat BStop n) = Some (repeat [] n, match n with O => s | _ => bat_stop s end).
Proof.
  induction n as [|n IH]; intros s; [reflexivity|]. cbn [repeat bat_run bat_step bind]. rewrite IH. destruct n; reflexivity.
Qed.
Lemma bat_sample k s e r0 t0 ops s' : rd_ok r0 -> sample e = Some (r0, t0) -> bat_step k s e = Some (ops, s') ->
  s' = mk_bat (if rd_rv r0 =? 0 then rd_soc r0 else -1) t0 (negb (rd_discharging r0)).
Proof.
  intros H S E. destruct e as [r now| |r now]; cbn [sample bat_step] in *; [|discriminate|].
  - injection S as -> ->. injection E as <- <-. unfold bat_boot. rewrite rd_current_val by exact H. reflexivity.
  - injection S as -> ->. unfold bat_collect in E. cbv zeta in E. match type of E with (if ?c then _ else _) = _ => destruct c end; [|discriminate]. injection E as <- <-.
    rewrite rd_current_val by exact H. reflexivity.
Qed.
Lemma battery_report k pre e0 r0 t0 n r now : Forall bev_ok pre -> bev_ok e0 -> sample e0 = Some (r0, t0) -> rd_ok r -> 0 <= now ->
  exists os s, bat_run k bat_init (pre ++ [e0] ++ repeat BStop n ++ [BCollect r now]) = Some (os ++ [bat_report k r0 t0 n r now], s).
Proof.
  intros FP H0 S HR HN. assert (HR0 : rd_ok r0) by (destruct e0; cbn in *; try discriminate; injection S as <- <-; apply H0).
  destruct (bat_run_wf k pre bat_init ltac:(unfold bat_wf; cbn; lia) FP) as (o1 & s1 & E1 & W1).
  destruct (bat_step_wf k s1 e0 W1 H0) as (o2 & s2 & E2 & W2). pose proof (bat_sample _ _ _ _ _ _ _ HR0 S E2) as ->.
  assert (EE : bat_run k s1 [e0] = Some ([o2], mk_bat (if rd_rv r0 =? 0 then rd_soc r0 else -1) t0 (negb (rd_discharging r0)))).
  { cbn [bat_run]. rewrite E2. reflexivity. }
  match type of EE with _ = Some (_, ?s) => set (s2 := s) in * end.
  set (s3 := match n with O => s2 | _ => bat_stop s2 end).
  assert (EC : exists s4, bat_run k s3 [BCollect r now] = Some ([bat_report k r0 t0 n r now], s4)).
  { cbn [bat_run bat_step]. unfold bat_collect. cbv zeta. rewrite rd_current_val by exact HR.
    assert (L3 : ba_last s3 = if rd_rv r0 =? 0 then rd_soc r0 else -1) by (unfold s3, s2; destruct n; reflexivity).
    assert (T3 : ba_start s3 = t0) by (unfold s3, s2; destruct n; reflexivity).
    assert (P3 : ba_stopped s3 = negb (rd_discharging r0 && Nat.eqb n 0)).
    { unfold s3, s2. destruct n; cbn; [rewrite andb_true_r|rewrite andb_false_r]; reflexivity. }
    rewrite L3, T3, P3. unfold rd_ok in HR, HR0. unfold bat_report. clear - HR HR0.
    destruct (rd_rv r0 =? 0), (rd_rv r =? 0), (rd_discharging r0), (rd_discharging r), (Nat.eqb n 0); cbn [negb andb];
      match goal with |- context [if ?c then Some _ else None] => replace c with true by lia end; cbn [bind];
      try (change (0 <=? -1) with false; cbn [andb app]);
      try (replace (0 <=? rd_soc r) with true by lia); try (replace (0 <=? rd_soc r0) with true by lia); cbn [andb];
      try (replace (0 <=? rd_soc r0 - rd_soc r) with (rd_soc r <=? rd_soc r0) by lia);
      try destruct (rd_soc r <=? rd_soc r0); cbn [app]; eexists; reflexivity. }
  destruct EC as (s4 & EC). eexists (o1 ++ [o2] ++ repeat [] n), s4.
  rewrite <- !app_assoc. apply (bat_run_app _ _ _ _ _ _ _ _ E1). apply (bat_run_app _ _ _ _ _ _ _ _ EE).
  apply (bat_run_app k (repeat BStop n) [BCollect r now] _ _ _ _ _ (bat_stops k n s2)). exact EC.
Qed.

Lemma total_set_app key a b : total_set key (a ++ b) = total_set key a + total_set key b.
Proof. induction a as [|o r IH]; [reflexivity|]. destruct o; cbn [app total_set]; lia. Qed.
Lemma discharge_sum k l : bk_drop k <> bk_duration k -> bk_drop k <> bk_soc k -> bk_duration k <> bk_soc k ->
  forall soc t, 0 <= soc < 2147483647 -> 0 <= t -> falling soc t l ->
  exists os s, bat_run k (mk_bat soc t false) (map level l) = Some (os, s) /\
    total_set (bk_drop k) (concat os) = soc - fst (last_pair (soc, t) l) /\
    total_set (bk_duration k) (concat os) = snd (last_pair (soc, t) l) - t.
Proof.
  intros D1 D2 D3. induction l as [|[c n] r IH]; intros soc t H T F.
  - eexists _, _. split; [reflexivity|]. cbn. lia.
  - cbn [falling] in F. destruct F as (F1 & F2 & F3). destruct (IH c n ltac:(lia) ltac:(lia) F3) as (os & s & E & S1 & S2).
    cbn [map level fst snd bat_run bat_step]. unfold bat_collect, rd_current. cbv zeta. cbn [rd_rv rd_soc rd_discharging ba_last ba_start ba_stopped negb].
    change (0 =? 0) with true. cbv iota. rewrite s32_small by lia.
    match goal with |- context [if ?c then Some _ else None] => replace c with true by lia end. cbn [bind].
    replace (true && true && ((0 <=? c) && (0 <=? soc)) && (0 <=? soc - c)) with true by lia. replace (0 <=? c) with true by lia.
    rewrite E. cbn [bind]. eexists _, _. split; [reflexivity|]. cbn [concat]. rewrite !total_set_app, S1, S2.
    change (last_pair (soc, t) ((c, n) :: r)) with (last_pair (c, n) r). cbn [app total_set].
    replace (bk_drop k =? bk_duration k) with false by lia. replace (bk_duration k =? bk_drop k) with false by lia.
    replace (bk_soc k =? bk_drop k) with false by lia. replace (bk_soc k =? bk_duration k) with false by lia.
    rewrite !Z.eqb_refl. unfold u32. rewrite Z.mod_small by lia. lia.
Qed.

(** ** Connectivity *)
(** A timer that [run]s or not, brought to time [last] with [acc] ms since its reset. *)
Definition trel (run : bool) (last acc : Z) (v : aval) : Prop :=
  match v with
  | ATimer t None => run = false /\ acc = t
  | ATimer t (Some (since, upd)) => run = true /\ since <= upd <= last /\ acc = t + (last - since)
  | _ => False
  end.
Lemma trel_wait run last acc v now : trel run last acc v -> last <= now -> trel run now (acc + (if run then now - last else 0)) v.
Proof. destruct v as [o|t [[since upd]|]|c]; cbn; try contradiction; intros H L; destruct H as [-> H]; split; lia. Qed.
Lemma trel_start run last acc v now : trel run last acc v -> last <= now ->
  trel true now (acc + (if run then now - last else 0)) (snd (a_start now v)).
Proof. destruct v as [o|t [[since upd]|]|c]; cbn; try contradiction; intros H L; destruct H as [-> H]; split; lia. Qed.
Lemma trel_stop run last acc v now rv v' : trel run last acc v -> last <= now -> a_stop now v = Some (rv, v') ->
  trel false now (acc + (if run then now - last else 0)) v'.
Proof.
  destruct v as [o|t [[since upd]|]|c]; cbn; try contradiction; intros H L E; destruct H as [-> H].
  - destruct (gap_ok upd now); [|discriminate]. injection E as <- <-. cbn. split; [reflexivity|lia].
  - injection E as <- <-. cbn. split; [reflexivity|lia].
Qed.
Lemma trel_force run last acc v now v' : trel run last acc v -> last <= now -> a_force now v = Some v' ->
  trel run now (acc + (if run then now - last else 0)) v' /\ a_shows v' = acc + (if run then now - last else 0) /\ trel run now 0 (a_reset v').
Proof.
  destruct v as [o|t [[since upd]|]|c]; cbn; try contradiction; intros H L E; destruct H as [-> H].
  - destruct (gap_ok upd now) eqn:GK; [|discriminate]. injection E as <-. unfold gap_ok in GK. cbn. repeat split; lia.
  - injection E as <-. cbn. repeat split; lia.
Qed.

Section Conn.
  Variables (defs : list mdef) (timers : list Z) (x : Z) (d : mdef) (h : Z).
  Hypothesis GX : get defs x = Some d.
  Hypothesis TX : md_type d = MTimer.
  Hypothesis SX : md_session d = h.

  Lemma am_put_here a v w : get a x = Some w -> get (am_put a x v) x = Some v.
  Proof. intros G. apply get_am_put. exact (get_range _ _ _ G). Qed.
  Lemma step_start a now res a' v : am_step defs timers a (OStart x now) = Some (res, a') -> get a x = Some v ->
    get a' x = Some (snd (a_start now v)).
  Proof.
    intros H G. cbn [am_step] in H. destruct (0 <=? now); [|discriminate]. unfold am_timer, am_get in H. rewrite GX, G, TX in H.
    cbn [mtype_eqb bind fst snd] in H. injection H as <- <-. exact (am_put_here a _ _ G).
  Qed.
  Lemma step_stop a now res a' v : am_step defs timers a (OStop x now) = Some (res, a') -> get a x = Some v ->
    exists rv v', a_stop now v = Some (rv, v') /\ get a' x = Some v'.
  Proof.
    intros H G. cbn [am_step] in H. destruct (0 <=? now); [|discriminate]. unfold am_timer, am_get in H. rewrite GX, G, TX in H.
    cbn [mtype_eqb] in H. destruct (a_stop now v) as [[rv v']|]; [|discriminate]. cbn [bind fst snd] in H. injection H as <- <-.
    exists rv, v'. split; [reflexivity|]. exact (am_put_here a _ _ G).
  Qed.
  (** Operations on [x] of one change. *)
  Definition x_ops (good : cstate -> bool) (k : bkeys) : Prop := forall c0 c now a rs a' last acc v,
    (good CStarted = false -> c0 = CConnected -> c <> CStarted) ->
    am_run defs timers a (conn_change k c now) = Some (rs, a') -> get a x = Some v -> trel (good c0) last acc v -> last <= now ->
    exists v', get a' x = Some v' /\ trel (good c) now (acc + (if good c0 then now - last else 0)) v'.
  Lemma each_get f : forall ds a a' j e v, am_each f ds a = Some a' -> get ds j = Some e -> get a j = Some v ->
    exists v', f e v = Some v' /\ get a' j = Some v'.
  Proof.
    induction ds as [|e0 ds IH]; intros [|v0 vs] a' j e v H G GA; try discriminate.
    - apply get_range in G. change (zlen (@nil mdef)) with 0 in G. lia.
    - cbn [am_each] in H. binv H. binv H. injection H as <-. pose proof (get_range _ _ _ G) as R. destruct (Z.eq_dec j 0) as [->|N].
      + rewrite get_cons_0 in G. rewrite get_cons_0 in GA. injection G as ->. injection GA as ->. rewrite get_cons_0. eauto.
      + rewrite get_cons_S in G by lia. rewrite get_cons_S in GA by lia. rewrite get_cons_S by lia. eauto.
  Qed.
  Lemma am_run_split : forall o1 o2 a rs a', am_run defs timers a (o1 ++ o2) = Some (rs, a') ->
    exists r1 a1 r2, am_run defs timers a o1 = Some (r1, a1) /\ am_run defs timers a1 o2 = Some (r2, a') /\ rs = r1 ++ r2.
  Proof.
    induction o1 as [|o r IH]; intros o2 a rs a' H; cbn [app am_run] in *.
    - exists [], a, rs. auto.
    - binv H. destruct v as [res a1]. binv H. destruct v as [rs1 a2]. injection H as <- <-.
      destruct (IH _ _ _ _ E0) as (r1 & a3 & r2 & E1 & E2 & ->). rewrite E. cbn [bind]. rewrite E1. cbn [bind].
      exists (res :: r1), a3, r2. auto.
  Qed.
  Lemma reported_app i r1 : forall r2, reported i (r1 ++ r2) = reported i r1 ++ reported i r2.
  Proof. induction r1 as [|r0 r IH]; intros r2; [reflexivity|]. destruct r0; cbn [app reported]; rewrite IH; reflexivity. Qed.
  Lemma keyed_no_items a o j res a' i : op_key o = Some j -> am_step defs timers a o = Some (res, a') -> reported i [res] = [].
  Proof.
    intros K H. destruct o; try discriminate; cbn [am_step] in H; unfold bind in H;
    repeat match type of H with
      | match ?w with _ => _ end = Some _ => destruct w; try discriminate
      end; injection H as <- <-; reflexivity.
  Qed.
  Lemma keyed_run a ops : forall rs a' i, Forall (fun o => op_key o <> None) ops -> am_run defs timers a ops = Some (rs, a') -> reported i rs = [].
  Proof.
    revert a. induction ops as [|o r IH]; intros a rs a' i F H; cbn [am_run] in H; [injection H as <- <-; reflexivity|]. inv F.
    binv H. destruct v as [res a1]. binv H. destruct v as [rs1 a2]. injection H as <- <-.
    destruct (op_key o) eqn:K; [|contradiction]. change (res :: rs1) with ([res] ++ rs1). rewrite reported_app, (keyed_no_items _ _ _ _ _ i K E), (IH _ _ _ i H3 E0). reflexivity.
  Qed.

  Lemma beat_inv a now rs a' : am_run defs timers a (heartbeat_ops h now) = Some (rs, a') ->
    exists a1, am_run defs timers a [OTally now] = Some ([RUnit], a1) /\ am_each (fun _ => a_force now) defs a = Some a1 /\
      rs = [RUnit; RItems (am_items defs a1 h); RUnit] /\
      am_each (fun d v => Some (if md_session d =? h then a_reset v else v)) defs a1 = Some a'.
  Proof.
    intros H. unfold heartbeat_ops in H. cbn [am_run am_step] in H |- *. destruct (0 <=? now); [|discriminate].
    destruct (am_each (fun _ => a_force now) defs a) as [a1|]; [|discriminate]. cbn [bind] in *. exists a1.
    destruct (am_each _ defs a1) as [a2|] eqn:E; [|discriminate]. cbn [bind] in H. injection H as <- <-. auto.
  Qed.
  Lemma conn_run good k : mdefs_ok defs -> x_ops good k -> bk_expected k = x \/ bk_connected k = x -> forall l s a state last acc rs a' v,
    mrel defs s a -> Forall (cev_ok k) l -> cev_times last l -> (good CStarted = false -> no_restart state l) ->
    get a x = Some v -> trel (good state) last acc v ->
    am_run defs timers a (flat_map (cev_ops k h) l) = Some (rs, a') ->
    reported (event_index h defs x) rs = shows (time_in good state last acc l).
  Proof.
    intros MD XO KX. induction l as [|e l IH]; intros s a state last acc rs a' v M F T NR G R H; cbn [flat_map] in H.
    { cbn in H. injection H as <- <-. reflexivity. }
    pose proof (Forall_inv F) as H2. pose proof (Forall_inv_tail F) as H3. clear F. destruct (am_run_split _ _ _ _ _ H) as (r1 & a1 & r2 & E1 & E2 & ->). rewrite reported_app.
    destruct (me_run_ok defs timers MD _ _ _ _ _ M E1) as (s1 & _ & M1).
    destruct e as [c now|now|o]; cbn [cev_ops cev_times time_in] in *.
    - destruct T as [T1 T2].
      destruct (XO state c now a r1 a1 last acc v) as (v' & G' & R'); try assumption.
      { intros B C. destruct (NR B) as [N _]. exact (N C). }
      rewrite (keyed_run a (conn_change k c now) r1 a1) by (try exact E1; destruct c; cbn; repeat (apply Forall_cons; [discriminate|]); apply Forall_nil).
      cbn [app]. eapply IH; try eassumption. intros B. destruct (NR B) as [_ N]. exact N.
    - destruct T as [T1 T2]. destruct (beat_inv _ _ _ _ E1) as (b & ET & EF & -> & ER).
      destruct (each_get _ _ _ _ _ _ _ EF GX G) as (v1 & V1 & G1).
      destruct (each_get _ _ _ _ _ _ _ ER GX G1) as (v2 & V2 & G2). rewrite SX, Z.eqb_refl in V2. injection V2 as <-.
      destruct (trel_force _ _ _ _ _ _ R T1 V1) as (R1 & SH & R2).
      destruct (me_run_ok defs timers MD _ _ _ _ _ M ET) as (sb & _ & MB).
      cbn [reported app]. unfold shows. cbn [map]. unfold event_index at 1. fold (pl (fun d => md_session d =? h) defs x).
      rewrite (items_get h defs b x d v1 (mr_len _ _ _ MB) GX G1 SX). unfold a_item. rewrite TX, SH. f_equal.
      exact (IH s1 a1 state now 0 r2 a' _ M1 H3 T2 NR G2 R2 E2).
    - destruct H2 as (j & K & N1 & N2). cbn [am_run] in E1. binv E1. destruct v0 as [res a2]. cbn [bind] in E1. injection E1 as <- <-.
      rewrite (keyed_no_items _ _ _ _ _ _ K E). cbn [app].
      assert (G' : get a2 x = Some v). { rewrite (am_step_frame _ _ _ _ _ _ _ K E x); [exact G|]. destruct KX; congruence. }
      exact (IH s1 a2 state last acc r2 a' _ M1 H3 T NR G' R E2).
  Qed.
End Conn.

Lemma run1 defs timers a o rs a' : am_run defs timers a [o] = Some (rs, a') -> exists res, am_step defs timers a o = Some (res, a') /\ rs = [res].
Proof. intros H. cbn [am_run] in H. binv H. destruct v as [res a1]. cbn [bind] in H. injection H as <- <-. eauto. Qed.
Lemma run2 defs timers a o1 o2 rs a' : am_run defs timers a [o1; o2] = Some (rs, a') ->
  exists r1 a1 r2, am_step defs timers a o1 = Some (r1, a1) /\ am_step defs timers a1 o2 = Some (r2, a').
Proof.
  intros H. cbn [am_run] in H. binv H. destruct v as [r1 a1]. binv H. destruct v as [rs1 a2]. injection H as <- <-.
  apply run1 in E0 as (r2 & E0 & ->). eauto.
Qed.
Lemma am_frame defs timers a o j res a' i : am_step defs timers a o = Some (res, a') -> op_key o = Some j -> i <> j -> get a' i = get a i.
Proof. intros E K N. exact (am_step_frame _ _ _ _ _ _ _ K E i N). Qed.
Lemma expected_ops defs timers k d : get defs (bk_expected k) = Some d -> md_type d = MTimer -> bk_expected k <> bk_connected k ->
  x_ops defs timers (bk_expected k) not_stopped k.
Proof.
  intros GX TX N c0 c now a rs a' last acc v _ H G R L.
  destruct c; cbn [conn_change] in H; cbn [not_stopped].
  - apply run2 in H as (r1 & a1 & r2 & E1 & E2).
    assert (G1 : get a1 (bk_expected k) = Some v) by (rewrite (am_frame _ _ _ _ _ _ _ _ E1 eq_refl N); exact G).
    destruct (step_stop defs timers _ d GX TX _ _ _ _ _ E2 G1) as (rv & v' & S & G'). exists v'. split; [exact G'|]. exact (trel_stop _ _ _ _ _ _ _ R L S).
  - apply run1 in H as (r1 & E1 & _). eexists. split; [exact (step_start defs timers _ d GX TX _ _ _ _ _ E1 G)|]. exact (trel_start _ _ _ _ _ R L).
  - apply run2 in H as (r1 & a1 & r2 & E1 & E2). eexists. split.
    + rewrite (am_frame _ _ _ _ _ _ _ _ E2 eq_refl N). exact (step_start defs timers _ d GX TX _ _ _ _ _ E1 G).
    + exact (trel_start _ _ _ _ _ R L).
  - apply run2 in H as (r1 & a1 & r2 & E1 & E2). eexists. split.
    + rewrite (am_frame _ _ _ _ _ _ _ _ E2 eq_refl N). exact (step_start defs timers _ d GX TX _ _ _ _ _ E1 G).
    + exact (trel_start _ _ _ _ _ R L).
Qed.
Lemma connected_ops defs timers k d : get defs (bk_connected k) = Some d -> md_type d = MTimer -> bk_expected k <> bk_connected k ->
  x_ops defs timers (bk_connected k) is_connected k.
Proof.
  intros GX TX N c0 c now a rs a' last acc v NR H G R L. assert (N' : bk_connected k <> bk_expected k) by congruence.
  destruct c; cbn [conn_change] in H; cbn [is_connected].
  - apply run2 in H as (r1 & a1 & r2 & E1 & E2).
    destruct (step_stop defs timers _ d GX TX _ _ _ _ _ E1 G) as (rv & v' & S & G'). exists v'.
    split; [rewrite (am_frame _ _ _ _ _ _ _ _ E2 eq_refl N'); exact G'|]. exact (trel_stop _ _ _ _ _ _ _ R L S).
  - apply run1 in H as (r1 & E1 & _). exists v. split; [rewrite (am_frame _ _ _ _ _ _ _ _ E1 eq_refl N'); exact G|].
    replace false with (is_connected c0); [exact (trel_wait _ _ _ _ _ R L)|].
    destruct c0; try reflexivity. destruct (NR eq_refl eq_refl eq_refl).
  - apply run2 in H as (r1 & a1 & r2 & E1 & E2).
    assert (G1 : get a1 (bk_connected k) = Some v) by (rewrite (am_frame _ _ _ _ _ _ _ _ E1 eq_refl N'); exact G).
    eexists. split; [exact (step_start defs timers _ d GX TX _ _ _ _ _ E2 G1)|]. exact (trel_start _ _ _ _ _ R L).
  - apply run2 in H as (r1 & a1 & r2 & E1 & E2).
    assert (G1 : get a1 (bk_connected k) = Some v) by (rewrite (am_frame _ _ _ _ _ _ _ _ E1 eq_refl N'); exact G).
    destruct (step_stop defs timers _ d GX TX _ _ _ _ _ E2 G1) as (rv & v' & S & G'). exists v'. split; [exact G'|]. exact (trel_stop _ _ _ _ _ _ _ R L S).
Qed.
Lemma connectivity defs timers k h d1 d2 l rs a : mdefs_ok defs -> bk_expected k <> bk_connected k ->
  get defs (bk_expected k) = Some d1 -> md_type d1 = MTimer -> md_session d1 = h ->
  get defs (bk_connected k) = Some d2 -> md_type d2 = MTimer -> md_session d2 = h ->
  Forall (cev_ok k) l -> cev_times 0 l ->
  am_run defs timers (am_init defs) (flat_map (cev_ops k h) l) = Some (rs, a) ->
  exists s, me_run defs timers (ms_init defs) (flat_map (cev_ops k h) l) = Some (rs, s) /\
    reported (event_index h defs (bk_expected k)) rs = shows (time_in not_stopped CStopped 0 0 l) /\
    (no_restart CStopped l -> reported (event_index h defs (bk_connected k)) rs = shows (time_in is_connected CStopped 0 0 l)).
Proof.
  intros MD N G1 T1 S1 G2 T2 S2 F T H. destruct (metrics_run defs timers _ _ _ MD H) as (s & E). exists s. split; [exact E|].
  assert (I : forall i d, get defs i = Some d -> md_type d = MTimer -> get (am_init defs) i = Some (ATimer 0 None)).
  { intros i d G TY. unfold am_init. rewrite (get_map a_init _ _ _ G). unfold a_init. now rewrite TY. }
  split; [|intros NR].
  - apply (conn_run defs timers (bk_expected k) d1 h G1 T1 S1 not_stopped k MD (expected_ops _ _ _ _ G1 T1 N) (or_introl eq_refl) l
      _ _ CStopped 0 0 rs a _ (me_init_ok defs MD) F T ltac:(discriminate) (I _ _ G1 T1)); [|exact H]. cbn. auto.
  - apply (conn_run defs timers (bk_connected k) d2 h G2 T2 S2 is_connected k MD (connected_ops _ _ _ _ G2 T2 N) (or_intror eq_refl) l
      _ _ CStopped 0 0 rs a _ (me_init_ok defs MD) F T (fun _ => NR) (I _ _ G2 T2)); [|exact H]. cbn. auto.
Qed.
