(** C95: the ports' software watchdogs *)
From Verif Require Import Base PortWatchdog PortWatchdogSpec PortWatchdogProofs.

(** After every history of proper use: on or off as asked, a timeout granted as [grants] says or refused as [refuses]
    says, and the interrupt exactly when the limit has passed since the last restart. *)
Theorem C95_watchdogs_keep_time : forall p, config p ->
  (exists w, at_boot p w) /\ (forall w ops, at_boot p w -> plays p w ops (wd_run p (wd_boot p) ops)).
Proof. exact follows. Qed.
Print Assumptions C95_watchdogs_keep_time.

(** Enabled and fed in time any number of times: no interrupt; then not fed: the interrupt, after the limit. *)
Theorem C95_fed_or_fired : forall p l ns m, config p -> ~ no_default p -> starts_with p l ->
  Forall (fun n => 0 <= n < l) ns -> 0 <= m ->
  wd_run p (wd_boot p) (life ns m) = Some (lived ns (if l <=? m then WFired l else WQuiet)).
Proof. exact fed. Qed.
Print Assumptions C95_fed_or_fired.

(** At most one limit fits. *)
Theorem C95_one_limit : forall p ms l l', grants p ms l -> grants p ms l' -> l = l'.
Proof. exact grants_one. Qed.
Print Assumptions C95_one_limit.

(** A disabled watchdog does not fire: false, a feed starts it (Zephyr, S32K). *)
Theorem C95_feed_keeps_it_off_refuted :
  ~ (forall p n, config p -> ~ no_default p -> 0 <= n ->
       exists rs, wd_run p (wd_boot p) [WEnable; WDisable; WFeed; WTicks n] = Some (rs ++ [WQuiet])).
Proof.
  intros H. destruct (H (Zephyr 10) 10000 ltac:(cbn; lia) ltac:(cbn; tauto) ltac:(lia)) as (rs & E).
  vm_compute in E. destruct rs as [|a [|b [|c [|d rs]]]]; cbn in E; try discriminate. destruct rs; discriminate.
Qed.
Print Assumptions C95_feed_keeps_it_off_refuted.
(** The S32K's too, whatever its clock: fed after it was disabled, it fires a whole timeout later. *)
Theorem C95_s32k_feed_keeps_it_off_refuted : forall secs pcs div2 freq, let p := S32k secs pcs div2 freq in config p -> ~ no_default p ->
  exists l, starts_with p l /\ forall n, l <= n ->
    wd_run p (wd_boot p) [WEnable; WDisable; WFeed; WTicks n] = Some [WRet 0; WRet 0; WRet 0; WFired l].
Proof.
  intros secs pcs div2 freq p C N. destruct C as (C1 & C2 & C3 & C4).
  destruct (s32_update_ok secs pcs div2 freq (wd_boot p) (default p) ltac:(cbn; lia) C2 C3 C4) as [(rv & _ & _ & R)|(l & E & _ & G & L)]; [contradiction|].
  exists l. split; [exact G|]. intros n Hn. unfold p in *. cbn [wd_run wd_enable bind]. replace (u32 (secs * 1000)) with (1000 * secs) by (unfold u32; rewrite Z.mod_small; lia).
  cbn [default] in E. rewrite E. cbn [wd_disable wd_feed bind t_set t_run t_cnt t_lim t_mem]. unfold wd_adv, due. cbn [t_run t_set t_lim t_cnt andb].
  replace (Z.max 1 (l - 0)) with l by lia. destruct (Z.leb_spec l n); [reflexivity|lia].
Qed.
Print Assumptions C95_s32k_feed_keeps_it_off_refuted.

(** "Resets and changes the software watchdog timeout" (watchdog.h:36-42): false of the nRF5, where the counter goes on.
    Six of ten seconds gone and five seconds asked for: the interrupt comes after 24 days. *)
Theorem C95_update_restarts_refuted :
  ~ (forall p ms l n, config p -> ~ no_default p -> grants p ms l -> 1 <= l -> 0 <= n -> ~ starts_with p n ->
       (forall k, starts_with p k -> n < k) ->
       exists rs, wd_run p (wd_boot p) [WEnable; WTicks n; WUpdate ms; WTicks l] = Some (rs ++ [WFired l])).
Proof.
  intros H. destruct (H (Nrf5 10000) 5000 40 48 ltac:(cbn; lia) ltac:(cbn; tauto) ltac:(cbn; lia) ltac:(lia) ltac:(lia) ltac:(cbn; lia)) as (rs & E);
    [intros k K; cbn in K; lia|].
  vm_compute in E. destruct rs as [|a [|b [|c [|d rs]]]]; cbn in E; try discriminate. destruct rs; discriminate.
Qed.
Print Assumptions C95_update_restarts_refuted.
Theorem C95_nrf5_update_late :
  wd_run (Nrf5 10000) (wd_boot (Nrf5 10000)) [WEnable; WTicks 48; WUpdate 5000; WTicks (2 ^ 24)] =
  Some [WRet 0; WQuiet; WRet 0; WFired (2 ^ 24 - 8)].
Proof. vm_compute. reflexivity. Qed.
Print Assumptions C95_nrf5_update_late.

(** Once disabled the nRF5's cannot be enabled again. *)
Theorem C95_nrf5_enabled_again_refuted : forall ms n, config (Nrf5 ms) ->
  wd_run (Nrf5 ms) (wd_boot (Nrf5 ms)) [WEnable; WDisable; WEnable; WTicks n] = Some [WRet 0; WRet 0; WRet 8; WQuiet].
Proof. intros ms n C. reflexivity. Qed.
Print Assumptions C95_nrf5_enabled_again_refuted.

(** The nRF5's timeout is set up from the hardware watchdog's, less 125 ms (N:93-94), which N:89 wants to be 125 ms at
    least.  Then the software watchdog should come first: false below 250 ms, where it does not come at all. *)
Theorem C95_nrf5_before_hardware_refuted : forall reload n, 125 <= reload < 250 -> 0 <= n < 2 ^ 24 ->
  wd_run (Nrf5 (reload - 125)) (wd_boot (Nrf5 (reload - 125))) [WEnable; WTicks n] = Some [WRet 0; WQuiet].
Proof.
  intros reload n R N. cbn [wd_run wd_enable wd_boot t_set t_run nrf_update bind negb t_cnt].
  rewrite (Z.div_small (reload - 125) 125) by lia. unfold wd_adv, due. cbn [t_run t_set t_lim t_cnt andb].
  change ((0 mod 2 ^ 24 - 0) mod 2 ^ 24 =? 0) with true. cbv iota. destruct (Z.leb_spec (2 ^ 24) n); [lia|reflexivity].
Qed.
Print Assumptions C95_nrf5_before_hardware_refuted.
Theorem C95_nrf5_before_hardware : forall reload, 250 <= reload < 125 * 2 ^ 24 ->
  exists l, 1 <= l /\ 125 * l < reload /\
    forall n, l <= n -> wd_run (Nrf5 (reload - 125)) (wd_boot (Nrf5 (reload - 125))) [WEnable; WTicks n] = Some [WRet 0; WFired l].
Proof.
  intros reload R. assert (C : 125 <= reload - 125 < 125 * 2 ^ 24) by lia.
  destruct (nrf_grants (reload - 125) _ C) as (B & G). set (l := (reload - 125) / 125 mod 2 ^ 24) in *.
  exists l. split; [lia|]. cbn [grants] in G. split; [lia|]. intros n N.
  pose proof (fed (Nrf5 (reload - 125)) l [] n C ltac:(cbn; tauto) G (Forall_nil _) ltac:(lia)) as F.
  unfold life, lived in F. cbn [List.map List.concat app] in F. destruct (Z.leb_spec l n); [exact F|lia].
Qed.
Print Assumptions C95_nrf5_before_hardware.

(** S32K: the system PLL is a clock source of the timer (S:89-92), but no timeout is granted with it. *)
Theorem C95_s32k_pll_refuted : forall secs div2 freq ops, Forall (fun o => o = WEnable \/ exists ms, o = WUpdate ms) ops ->
  wd_run (S32k secs 6 div2 freq) (wd_boot (S32k secs 6 div2 freq)) ops = Some (List.map (fun _ => WRet (-1)) ops).
Proof.
  intros secs div2 freq ops. induction 1 as [|o ops [E|(ms & E)] _ IH]; [reflexivity| |]; subst o; cbn [wd_run wd_enable wd_update bind s32_update];
    unfold s32_update; change (negb ((6 =? 1) || (6 =? 2) || (6 =? 3))) with true; cbv iota; rewrite IH; reflexivity.
Qed.
Print Assumptions C95_s32k_pll_refuted.

(** "choose the closest timeout without going over the desired max" (E:118): false below 4 ms. *)
Theorem C95_emlib_not_over_refuted :
  ~ (forall secs ms l, 1 <= ms -> grants (Emlib secs false) ms l -> l <= ms).
Proof.
  intros H. specialize (H 10 1 4 ltac:(lia)). assert (4 <= 1); [|lia]. apply H. exists 0. cbn. lia.
Qed.
Print Assumptions C95_emlib_not_over_refuted.

(** "Starts a software watchdog with a timeout of MEMFAULT_WATCHDOG_SW_TIMEOUT_SECS": Zephyr starts with the last timeout
    set; the DA1468x goes on where it was frozen. *)
Theorem C95_enable_default_refuted :
  ~ (forall p ms n l, config p -> ~ no_default p -> starts_with p l -> 1000 <= ms -> 0 <= n ->
       (exists rs, wd_run p (wd_boot p) [WEnable; WUpdate ms; WDisable; WEnable; WTicks l] = Some (rs ++ [WFired l]))).
Proof.
  intros H. destruct (H (Zephyr 10) 1000 0 10000 ltac:(cbn; lia) ltac:(cbn; tauto) ltac:(cbn; lia) ltac:(lia) ltac:(lia)) as (rs & E).
  vm_compute in E. destruct rs as [|a [|b [|c [|d [|e rs]]]]]; cbn in E; try discriminate. destruct rs; discriminate.
Qed.
Print Assumptions C95_enable_default_refuted.
Theorem C95_da1468x_goes_on : forall most n, config (Da1468x most) -> 0 <= n < most ->
  wd_run (Da1468x most) (wd_boot (Da1468x most)) [WTicks n; WDisable; WEnable; WTicks (most - n)] =
  Some [WQuiet; WRet 0; WRet 0; WFired (most - n)].
Proof.
  intros most n C N. cbn [config] in C. cbn [wd_run wd_boot]. unfold wd_adv, due. cbn [t_run t_set t_lim t_cnt andb t_mem].
  destruct (Z.leb_spec (Z.max 1 (most - 0)) n); [lia|]. cbn [wd_disable wd_enable bind t_run t_set t_lim t_cnt andb t_mem].
  replace (Z.max 1 (most - (0 + n))) with (most - n) by lia. rewrite Z.leb_refl. reflexivity.
Qed.
Print Assumptions C95_da1468x_goes_on.

(** Changing the timeout of a watchdog that is off leaves it off: false (Zephyr, EFM32, S32K, LPTIM). *)
Theorem C95_update_keeps_it_off_refuted :
  ~ (forall p ms n, config p -> ~ no_default p -> 1000 <= ms <= 2000 -> 0 <= n ->
       exists rs, wd_run p (wd_boot p) [WEnable; WDisable; WUpdate ms; WTicks n] = Some (rs ++ [WQuiet])).
Proof.
  intros H. destruct (H (Lptim 10) 1000 250 ltac:(cbn; lia) ltac:(cbn; lia) ltac:(lia) ltac:(lia)) as (rs & E).
  vm_compute in E. destruct rs as [|a [|b [|c [|d rs]]]]; cbn in E; try discriminate. destruct rs; discriminate.
Qed.
Print Assumptions C95_update_keeps_it_off_refuted.

Example C95_case :
  wd_run (Lptim 10) (wd_boot (Lptim 10)) [WEnable; WTicks 2499; WFeed; WTicks 2499; WUpdate 30001; WTicks 7499; WUpdate 300000; WTicks 5] =
    Some [WRet 0; WQuiet; WRet 0; WQuiet; WRet 0; WQuiet; WRet (-1); WFired 1] /\
  wd_run (Emlib 10 false) (wd_boot (Emlib 10 false)) [WEnable; WTicks 8191; WFeed; WDisable; WTicks 100000; WFeed; WEnable; WUpdate 200; WTicks 500] =
    Some [WRet 0; WQuiet; WRet 0; WRet 0; WQuiet; WRet 0; WRet 0; WRet 0; WFired 128] /\
  wd_run (S32k 10 2 1 8000000) (wd_boot (S32k 10 2 1 8000000)) [WEnable; WTicks 79999999; WFeed; WUpdate 600000; WTicks 80000001] =
    Some [WRet 0; WQuiet; WRet 0; WRet (-4); WFired 80000001] /\
  wd_run (Da1468x 255) (wd_boot (Da1468x 255)) [WEnable; WTicks 254; WFeed; WUpdate 2000; WUpdate 4294968; WTicks 200] =
    Some [WRet 0; WQuiet; WRet 0; WRet 0; WRet (-1); WFired 196] /\
  wd_run (Nrf5 10000) (wd_boot (Nrf5 10000)) (life [79; 3; 79] 80) = Some (lived [79; 3; 79] (WFired 80)).
Proof. vm_compute. repeat split; reflexivity. Qed.
