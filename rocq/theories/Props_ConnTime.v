(** C111: connection metrics of the ports: LTE modems, Wi-Fi of the ESP32, the Particle cloud. *)
From Verif Require Import Base Metrics MetricsSpec MetricsBuiltin MetricsBuiltinSpec ConnTime ConnTimeSpec ConnTimeProofs.

(** C111: for every table of metrics and every history of registrations, modes of the modem, heartbeats and
    calls about other metrics, each heartbeat reports as connected time the time since the last one during
    which the modem was registered; and as expected time the time LTE was on, if there is no news of the
    registration while it is off.  (The flight mode that keeps the SIM on is left out.) *)
Theorem C111_lte : forall defs timers k h l, mdefs_ok defs -> bk_expected k <> bk_connected k ->
  is_timer defs h (bk_expected k) -> is_timer defs h (bk_connected k) ->
  others [bk_expected k; bk_connected k] l -> in_order 0 l -> always modem_next no_uicc_on modem0 (events l) ->
  reports defs timers h (lte_ops true k) l (bk_connected k) (shows (time_while modem_next registered modem0 0 0 l)) /\
  (always modem_next silent_off modem0 (events l) ->
   reports defs timers h (lte_ops true k) l (bk_expected k) (shows (time_while modem_next on modem0 0 0 l))).
Proof. exact lte_metrics. Qed.
Print Assumptions C111_lte.
(** Up to nRF Connect SDK 2.0 modes are not seen: the expected time is all the time since the first news of
    the registration. *)
Theorem C111_lte_without_modes : forall defs timers k h l, mdefs_ok defs -> bk_expected k <> bk_connected k -> is_timer defs h (bk_expected k) ->
  others [bk_expected k; bk_connected k] l -> in_order 0 l ->
  reports defs timers h (lte_ops false k) l (bk_expected k) (shows (time_while news (fun b => b) false 0 0 l)).
Proof. exact lte_old. Qed.
Print Assumptions C111_lte_without_modes.

(** Wi-Fi: the count of disconnections is that of the events; both connected times are the time associated
    if connections start and end only while Wi-Fi is started and it stops only when not associated; the expected time is the time started as long as Wi-Fi is never stopped. *)
Theorem C111_wifi : forall defs timers w k h l, mdefs_ok defs -> NoDup [wk_time w; wk_count w; bk_expected k; bk_connected k] ->
  is_timer defs h (wk_time w) -> is_counter defs h (wk_count w) -> is_timer defs h (bk_expected k) -> is_timer defs h (bk_connected k) ->
  others [wk_time w; wk_count w; bk_expected k; bk_connected k] l -> in_order 0 l ->
  reports defs timers h (wifi_ops true w k) l (wk_count w) (counted (times_that station_next disconnected station0 0 l)) /\
  (always station_next driver station0 (events l) ->
   reports defs timers h (wifi_ops true w k) l (wk_time w) (shows (time_while station_next associated station0 0 0 l)) /\
   reports defs timers h (wifi_ops true w k) l (bk_connected k) (shows (time_while station_next associated station0 0 0 l)) /\
   (always station_next never_stops station0 (events l) ->
    reports defs timers h (wifi_ops true w k) l (bk_expected k) (shows (time_while station_next started station0 0 0 l)))).
Proof. exact wifi_metrics. Qed.
Print Assumptions C111_wifi.
Theorem C111_wifi_without_connectivity : forall defs timers w k h l, mdefs_ok defs -> NoDup [wk_time w; wk_count w; bk_expected k; bk_connected k] ->
  is_timer defs h (wk_time w) -> is_counter defs h (wk_count w) ->
  others [wk_time w; wk_count w] l -> in_order 0 l ->
  reports defs timers h (wifi_ops false w k) l (wk_count w) (counted (times_that station_next disconnected station0 0 l)) /\
  (always station_next driver station0 (events l) ->
   reports defs timers h (wifi_ops false w k) l (wk_time w) (shows (time_while station_next associated station0 0 0 l))).
Proof. exact wifi_alone. Qed.
Print Assumptions C111_wifi_without_connectivity.

(** Particle: times connecting and online (the latter if it does not begin to connect while online), and the
    counts of both ends. *)
Theorem C111_particle : forall defs timers k h l, mdefs_ok defs -> NoDup [pk_connecting k; pk_connected k; pk_connects k; pk_disconnects k] ->
  is_timer defs h (pk_connecting k) -> is_timer defs h (pk_connected k) -> is_counter defs h (pk_connects k) -> is_counter defs h (pk_disconnects k) ->
  others [pk_connecting k; pk_connected k; pk_connects k; pk_disconnects k] l -> in_order 0 l ->
  reports defs timers h (cloud_ops k) l (pk_connecting k) (shows (time_while link_next is_connecting Off 0 0 l)) /\
  (always link_next no_reconnect Off (events l) ->
   reports defs timers h (cloud_ops k) l (pk_connected k) (shows (time_while link_next is_online Off 0 0 l))) /\
  reports defs timers h (cloud_ops k) l (pk_connects k) (counted (times_that link_next connects Off 0 l)) /\
  reports defs timers h (cloud_ops k) l (pk_disconnects k) (counted (times_that link_next disconnects Off 0 l)).
Proof. exact cloud_metrics. Qed.
Print Assumptions C111_particle.

(** ** What is not true *)
Definition t_defs : list mdef := [mk_mdef MTimer 0 0; mk_mdef MUnsigned 0 0; mk_mdef MTimer 0 0; mk_mdef MTimer 0 0; mk_mdef MUnsigned 0 0].
Definition t_keys : bkeys := mk_bk 9 9 9 9 9 9 9 9 2 3.
Definition t_wifi : wkeys := mk_wk 0 1.
Definition t_cloud : pkeys := mk_pkeys 0 2 1 4.
Lemma t_ok : mdefs_ok t_defs.
Proof. unfold mdefs_ok, t_defs. repeat (apply Forall_cons; [cbn; lia|]). apply Forall_nil. Qed.
Definition seen {E} (ops : E -> Z -> list mop) (l : list (hev E)) (x : Z) : option (list (option mitem)) :=
  do r <- me_run t_defs [] (ms_init t_defs) (flat_map (hev_ops ops 0) l); Some (reported (event_index 0 t_defs x) (fst r)).
Lemma refute {E} (ops : E -> Z -> list mop) l x want got : reports t_defs [] 0 ops l x want ->
  (match am_run t_defs [] (am_init t_defs) (flat_map (hev_ops ops 0) l) with Some _ => true | None => false end) = true ->
  seen ops l x = Some got -> want = got.
Proof.
  intros R H G. destruct (am_run _ _ _ _) as [(rs & a)|] eqn:A; [|discriminate]. destruct (R rs a A) as (s & M & W).
  unfold seen in G. rewrite M in G. cbn in G. congruence.
Qed.
Lemma t_timer x : In x [0; 2; 3] -> is_timer t_defs 0 x.
Proof. intros [<-|[<-|[<-|[]]]]; eexists; repeat split; reflexivity. Qed.
Lemma t_counter x : In x [1; 4] -> is_counter t_defs 0 x.
Proof. intros [<-|[<-|[]]]; eexists; repeat split; reflexivity. Qed.

(** LTE is switched off, and then the modem says that it is no longer registered (nothing
    in the port rules that order out): from there on the device is expected to be connected although LTE is off
    (memfault_platform_metrics_connectivity_lte.c:35-46, memfault_metrics_connectivity.c:58). *)
Definition l_off : list (hev lte_evt) :=
  [HEvent (LMode Normal) 100; HEvent (LReg Home) 200; HEvent (LMode Offline) 1000; HEvent (LReg NotRegistered) 1100; HBeat 2000].
Theorem C111_lte_off_refuted : ~ (forall defs timers k h l, mdefs_ok defs -> bk_expected k <> bk_connected k ->
  is_timer defs h (bk_expected k) -> is_timer defs h (bk_connected k) ->
  others [bk_expected k; bk_connected k] l -> in_order 0 l -> always modem_next no_uicc_on modem0 (events l) ->
  reports defs timers h (lte_ops true k) l (bk_expected k) (shows (time_while modem_next on modem0 0 0 l))).
Proof.
  intros H. specialize (H t_defs [] t_keys 0 l_off t_ok ltac:(discriminate) (t_timer 2 ltac:(cbn; auto)) (t_timer 3 ltac:(cbn; auto))).
  specialize (H ltac:(intros o IN; cbn in IN; intuition discriminate) ltac:(cbn; lia) ltac:(cbn; unfold no_uicc_on; intuition discriminate)).
  assert (X := refute _ _ _ _ [Some (IUnsigned 1800)] H eq_refl eq_refl). vm_compute in X. discriminate.
Qed.
Print Assumptions C111_lte_off_refuted.
(** The flight mode that keeps the SIM on is no stop (:69-79): both times go on. *)
Definition l_uicc : list (hev lte_evt) := [HEvent (LMode Normal) 100; HEvent (LReg Home) 200; HEvent (LMode OfflineUiccOn) 1000; HBeat 2000].
Theorem C111_lte_flight_mode_refuted : ~ (forall defs timers k h l, mdefs_ok defs -> bk_expected k <> bk_connected k ->
  is_timer defs h (bk_expected k) -> is_timer defs h (bk_connected k) ->
  others [bk_expected k; bk_connected k] l -> in_order 0 l -> always modem_next silent_off modem0 (events l) ->
  reports defs timers h (lte_ops true k) l (bk_expected k) (shows (time_while modem_next on modem0 0 0 l)) \/
  reports defs timers h (lte_ops true k) l (bk_connected k) (shows (time_while modem_next registered modem0 0 0 l))).
Proof.
  intros H. specialize (H t_defs [] t_keys 0 l_uicc t_ok ltac:(discriminate) (t_timer 2 ltac:(cbn; auto)) (t_timer 3 ltac:(cbn; auto))).
  specialize (H ltac:(intros o IN; cbn in IN; intuition discriminate) ltac:(cbn; lia) ltac:(cbn; intuition discriminate)).
  destruct H as [H|H].
  - assert (X := refute _ _ _ _ [Some (IUnsigned 1900)] H eq_refl eq_refl). vm_compute in X. discriminate.
  - assert (X := refute _ _ _ _ [Some (IUnsigned 1800)] H eq_refl eq_refl). vm_compute in X. discriminate.
Qed.
Print Assumptions C111_lte_flight_mode_refuted.
(** Wi-Fi that is stopped is still expected to be connected: the event of its end is not looked at
    (memfault_platform_metrics.c:84-124). *)
Definition l_stop : list (hev wifi_evt) :=
  [HEvent StaStart 100; HEvent StaConnected 200; HEvent StaDisconnected 1000; HEvent StaStop 1001; HBeat 2000; HBeat 3000].
Theorem C111_wifi_stopped_refuted : ~ (forall defs timers w k h l, mdefs_ok defs -> NoDup [wk_time w; wk_count w; bk_expected k; bk_connected k] ->
  is_timer defs h (wk_time w) -> is_counter defs h (wk_count w) -> is_timer defs h (bk_expected k) -> is_timer defs h (bk_connected k) ->
  others [wk_time w; wk_count w; bk_expected k; bk_connected k] l -> in_order 0 l -> always station_next driver station0 (events l) ->
  reports defs timers h (wifi_ops true w k) l (bk_expected k) (shows (time_while station_next started station0 0 0 l))).
Proof.
  intros H. specialize (H t_defs [] t_wifi t_keys 0 l_stop t_ok ltac:(repeat constructor; cbn; intuition discriminate)
    (t_timer 0 ltac:(cbn; auto)) (t_counter 1 ltac:(cbn; auto)) (t_timer 2 ltac:(cbn; auto)) (t_timer 3 ltac:(cbn; auto))).
  specialize (H ltac:(intros o IN; cbn in IN; intuition discriminate) ltac:(cbn; lia) ltac:(cbn; auto 10)).
  assert (X := refute _ _ _ _ [Some (IUnsigned 1900); Some (IUnsigned 1000)] H eq_refl eq_refl). vm_compute in X. discriminate.
Qed.
Print Assumptions C111_wifi_stopped_refuted.
(** The count of disconnections is not that of lost connections: every attempt that fails counts (:105-106). *)
Definition l_tries : list (hev wifi_evt) := [HEvent StaStart 100; HEvent StaDisconnected 200; HEvent StaDisconnected 300; HEvent StaConnected 400; HBeat 2000].
Theorem C111_wifi_lost_refuted : ~ (forall defs timers w k h l, mdefs_ok defs -> NoDup [wk_time w; wk_count w; bk_expected k; bk_connected k] ->
  is_timer defs h (wk_time w) -> is_counter defs h (wk_count w) -> is_timer defs h (bk_expected k) -> is_timer defs h (bk_connected k) ->
  others [wk_time w; wk_count w; bk_expected k; bk_connected k] l -> in_order 0 l -> always station_next driver station0 (events l) ->
  reports defs timers h (wifi_ops true w k) l (wk_count w) (counted (times_that station_next lost station0 0 l))).
Proof.
  intros H. specialize (H t_defs [] t_wifi t_keys 0 l_tries t_ok ltac:(repeat constructor; cbn; intuition discriminate)
    (t_timer 0 ltac:(cbn; auto)) (t_counter 1 ltac:(cbn; auto)) (t_timer 2 ltac:(cbn; auto)) (t_timer 3 ltac:(cbn; auto))).
  specialize (H ltac:(intros o IN; cbn in IN; intuition discriminate) ltac:(cbn; lia) ltac:(cbn; auto 10)).
  assert (X := refute _ _ _ _ [Some (IUnsigned 2)] H eq_refl eq_refl). vm_compute in X. discriminate.
Qed.
Print Assumptions C111_wifi_lost_refuted.

Example C111_case :
  let lte := [HEvent (LMode ActivateLte) 100; HEvent (LReg Searching) 150; HEvent (LReg Roaming) 300; HBeat 1000; HEvent (LMode PowerOff) 1500; HBeat 2000] in
  let wifi := [HEvent StaStart 10; HEvent StaConnected 30; HEvent StaDisconnected 130; HBeat 1000; HEvent StaConnected 1200; HBeat 2000; HEvent OtherWifi 2100; HBeat 3000] in
  let cloud := [HEvent CloudConnecting 100; HEvent OtherCloud 120; HEvent CloudConnected 200; HBeat 1000; HEvent CloudDisconnecting 1100; HEvent CloudDisconnected 1200; HBeat 2000] in
  seen (lte_ops true t_keys) lte 2 = Some [Some (IUnsigned 900); Some (IUnsigned 500)] /\
  seen (lte_ops true t_keys) lte 3 = Some [Some (IUnsigned 700); Some (IUnsigned 500)] /\
  time_while modem_next on modem0 0 0 lte = [900; 500] /\ time_while modem_next registered modem0 0 0 lte = [700; 500] /\
  seen (wifi_ops true t_wifi t_keys) wifi 0 = Some [Some (IUnsigned 100); Some (IUnsigned 800); Some (IUnsigned 1000)] /\
  seen (wifi_ops true t_wifi t_keys) wifi 1 = Some [Some (IUnsigned 1); Some INull; Some INull] /\
  seen (cloud_ops t_cloud) cloud 0 = Some [Some (IUnsigned 100); Some (IUnsigned 0)] /\
  seen (cloud_ops t_cloud) cloud 2 = Some [Some (IUnsigned 800); Some (IUnsigned 100)] /\
  seen (cloud_ops t_cloud) cloud 1 = Some [Some (IUnsigned 1); Some INull] /\
  seen (cloud_ops t_cloud) cloud 4 = Some [Some INull; Some (IUnsigned 1)].
Proof. vm_compute. repeat split; reflexivity. Qed.
