(** Property C108: the system time the ports put into events and logs. *)
From Verif Require Import Base PortTime PortTimeSpec PortTimeProofs.

(** ESP-IDF and FreeRTOS: a time is given exactly from 2024 (2023) to 2100, and it is the time of the clock. *)
Theorem C108_clock_times gmtime now : gmtime_ok gmtime now ->
  esp_current gmtime now = (if (year_second 2024 <=? now) && (now <? year_second 2101) then Some now else None) /\
  freertos_current gmtime now = Some (if (year_second 2023 <=? now) && (now <? year_second 2101) then Some now else None).
Proof. exact (fun G => conj (esp_time gmtime now G) (freertos_time gmtime now G)). Qed.
Print Assumptions C108_clock_times.
(** Zephyr with an RTC that holds a date: the same from 2023. *)
Theorem C108_rtc_times mktime t ok : mktime_ok mktime -> exists_tm t ->
  rtc_current mktime (ok, t) = if (year_second 2023 <=? instant t) && (instant t <? year_second 2101) then Some (instant t) else None.
Proof. exact (rtc_time mktime t ok). Qed.
Print Assumptions C108_rtc_times.
(** nRF Connect SDK: a time is given while the last event of the library says that it has one, in seconds. *)
Theorem C108_date_times events now : match now with Some ms => 0 <= ms < 9223372036854775808 | None => True end ->
  dt_current (fold_left dt_event events false) now =
  if has_time events then match now with Some ms => Some (ms / 1000) | None => None end else None.
Proof. exact (dt_time events now). Qed.
Print Assumptions C108_date_times.
(** Times of those years go into events and logs whole. *)
Theorem C108_times_fit t : year_second 2023 <= t < year_second 2101 -> sent_time t = t.
Proof. exact (sent_whole t). Qed.
Print Assumptions C108_times_fit.
(** The calendar they are stated with: 1970 starts at 0, and each year ends where the next one starts. *)
Theorem C108_calendar t : year_starts 1970 = 0 /\ (forall y, year_starts (y + 1) = year_starts y + year_days y) /\
  (exists_tm t -> year_second (tm_year t + 1900) <= instant t < year_second (tm_year t + 1901)).
Proof.
  split; [reflexivity|]. split; [exact years_next|]. intros E. pose proof (instant_year t E) as H.
  replace (tm_year t + 1900 + 1) with (tm_year t + 1901) in H by lia. exact H.
Qed.
Print Assumptions C108_calendar.
(** 29 February 2024, 12:34:56 UTC. *)
Definition c108_t : tm := mk_tm 124 1 29 12 34 56.
Example C108_case : exists_tm c108_t /\ instant c108_t = 1709210096 /\
  esp_current (fun _ => Some c108_t) 1709210096 = Some 1709210096 /\
  rtc_current instant (true, c108_t) = Some 1709210096 /\
  dt_current (fold_left dt_event [false; true] false) (Some 1709210096789) = Some 1709210096 /\
  dt_current (fold_left dt_event [true; false] false) (Some 1709210096789) = None.
Proof. unfold exists_tm. repeat split; vm_compute; try reflexivity; discriminate. Qed.

(** Not when the RTC cannot be read: what happens to be on the stack is then the time, if the year is one. *)
Theorem C108_no_time_from_failed_rtc_refuted : ~ (forall mktime t, mktime_ok mktime -> rtc_current mktime (false, t) = None).
Proof. intros H. specialize (H instant c108_t (fun t _ => eq_refl)). vm_compute in H. discriminate. Qed.
Print Assumptions C108_no_time_from_failed_rtc_refuted.
(** Nor are the times of the date-time library checked: one before 1970 is a time too, another one in 64 bits and in 32. *)
Theorem C108_date_times_plausible_refuted : ~ (forall events ms t, dt_current (fold_left dt_event events false) (Some ms) = Some t ->
  year_second 2023 <= t < year_second 2101).
Proof. intros H. specialize (H [true] (-1000) 18446744073709551615 eq_refl). vm_compute in H. destruct H as (_ & H). discriminate. Qed.
Print Assumptions C108_date_times_plausible_refuted.

(** No time is given when the calls of the C library or the clock fail. *)
Theorem C108_failures mktime gmtime t ok now :
  (mktime t = -1 -> rtc_current mktime (ok, t) = None) /\ esp_current gmtime (-1) = None /\
  (gmtime now = None -> esp_current gmtime now = None).
Proof.
  split; [|split; [reflexivity|]].
  - intros E. unfold rtc_current. cbn [snd]. rewrite E. destruct (_ || _); reflexivity.
  - intros E. unfold esp_current. rewrite E. destruct (now =? -1); reflexivity.
Qed.
Print Assumptions C108_failures.
