From Verif Require Import Base PortTime PortTimeSpec.

Ltac zdiv := Z.div_mod_to_equations; lia.
Lemma leaps_next y : leaps y - leaps (y - 1) = if leap y then 1 else 0.
Proof.
  unfold leaps, leap.
  assert (D : forall n, 0 < n -> y / n - (y - 1) / n = if y mod n =? 0 then 1 else 0).
  { intros n Hn. pose proof (Z.div_mod y n ltac:(lia)) as E. pose proof (Z.mod_pos_bound y n Hn) as B.
    destruct (Z.eqb_spec (y mod n) 0) as [Z0|NZ].
    - replace ((y - 1) / n) with (y / n - 1); [lia|]. apply Z.div_unique with (n - 1); [left; lia|]. nia.
    - replace ((y - 1) / n) with (y / n); [lia|]. apply Z.div_unique with (y mod n - 1); [left; lia|]. nia. }
  pose proof (D 4 ltac:(lia)). pose proof (D 100 ltac:(lia)). pose proof (D 400 ltac:(lia)).
  assert (A : y mod 100 = 0 -> y mod 4 = 0) by (intros; zdiv). assert (B : y mod 400 = 0 -> y mod 100 = 0) by (intros; zdiv).
  destruct (Z.eqb_spec (y mod 4) 0), (Z.eqb_spec (y mod 100) 0), (Z.eqb_spec (y mod 400) 0); cbn [negb andb orb]; lia.
Qed.
Lemma years_next y : year_starts (y + 1) = year_starts y + year_days y.
Proof.
  unfold year_starts, year_days. pose proof (leaps_next y). replace (y + 1 - 1) with y by lia. destruct (leap y); lia.
Qed.
Lemma year_days_pos y : 365 <= year_days y <= 366. Proof. unfold year_days. destruct (leap y); lia. Qed.
Lemma years_after n : forall y, year_starts y <= year_starts (y + Z.of_nat n).
Proof.
  induction n as [|n IH]; intros y; [replace (y + Z.of_nat 0) with y by lia; lia|].
  replace (y + Z.of_nat (S n)) with (y + Z.of_nat n + 1) by lia. rewrite years_next. pose proof (year_days_pos (y + Z.of_nat n)). specialize (IH y). lia.
Qed.
Lemma years_mono a b : a <= b -> year_starts a <= year_starts b.
Proof. intros H. pose proof (years_after (Z.to_nat (b - a)) a) as X. replace (a + Z.of_nat (Z.to_nat (b - a))) with b in X by lia. exact X. Qed.
Lemma months_in y : 
  forall m, 0 <= m < 12 -> 0 <= days_before y (Z.to_nat m) /\ days_before y (Z.to_nat m) + month_days y m <= year_days y.
Proof.
  intros m H. assert (E : In m [0;1;2;3;4;5;6;7;8;9;10;11]) by (cbn; lia). unfold year_days. cbn [In] in E.
  destruct (leap y) eqn:L; repeat (destruct E as [<-|E]; [|]); try contradiction;
    match goal with |- context [days_before y (Z.to_nat ?n)] => let k := eval vm_compute in (Z.to_nat n) in change (Z.to_nat n) with k end;
    cbv [days_before month_days Z.of_nat Pos.of_succ_nat Pos.succ]; rewrite ?L; lia.
Qed.
Lemma instant_year t : exists_tm t -> year_second (tm_year t + 1900) <= instant t < year_second (tm_year t + 1900 + 1).
Proof.
  intros (M & D & H & MI & S). unfold year_second, instant. rewrite years_next.
  destruct (months_in (tm_year t + 1900) (tm_mon t) M). lia.
Qed.
Lemma year_of t a b : exists_tm t ->
  ((tm_year t + 1900 <? a) || (b <? tm_year t + 1900) = false <-> year_second a <= instant t < year_second (b + 1)).
Proof.
  intros E. pose proof (instant_year t E) as (L & U). unfold year_second in *.
  split.
  - intros H. apply Bool.orb_false_elim in H as (H1 & H2). apply Z.ltb_ge in H1, H2.
    pose proof (years_mono a (tm_year t + 1900) H1). pose proof (years_mono (tm_year t + 1900 + 1) (b + 1) ltac:(lia)). lia.
  - intros (H1 & H2). apply Bool.orb_false_intro; apply Z.ltb_ge.
    + destruct (Z.le_gt_cases a (tm_year t + 1900)); [assumption|]. pose proof (years_mono (tm_year t + 1900 + 1) a ltac:(lia)). lia.
    + destruct (Z.le_gt_cases (tm_year t + 1900) b); [assumption|]. pose proof (years_mono (b + 1) (tm_year t + 1900) ltac:(lia)). lia.
Qed.
Lemma year_test t a : exists_tm t -> (tm_year t <? a) || (200 <? tm_year t) =
  negb ((year_second (a + 1900) <=? instant t) && (instant t <? year_second 2101)).
Proof.
  intros E. pose proof (year_of t (a + 1900) 2100 E) as Y. change (2100 + 1) with 2101 in Y.
  replace (tm_year t + 1900 <? a + 1900) with (tm_year t <? a) in Y by lia.
  replace (2100 <? tm_year t + 1900) with (200 <? tm_year t) in Y by lia.
  destruct ((tm_year t <? a) || (200 <? tm_year t)) eqn:C.
  - destruct (year_second (a + 1900) <=? instant t) eqn:C1; [|reflexivity]. destruct (instant t <? year_second 2101) eqn:C2; [|reflexivity].
    assert (true = false) by (apply Y; lia). discriminate.
  - destruct Y as (Y & _). specialize (Y eq_refl). replace (year_second (a + 1900) <=? instant t) with true by lia.
    replace (instant t <? year_second 2101) with true by lia. reflexivity.
Qed.
Lemma in_64 t : 0 <= t < 18446744073709551616 -> u64 t = t.
Proof. intros H. unfold u64. apply Z.mod_small. exact H. Qed.
Lemma years_c : year_second 2023 = 1672531200 /\ year_second 2024 = 1704067200 /\ year_second 2101 = 4133980800.
Proof. repeat split; vm_compute; reflexivity. Qed.
Lemma esp_time gm now : gmtime_ok gm now -> esp_current gm now = if (year_second 2024 <=? now) && (now <? year_second 2101) then Some now else None.
Proof.
  intros G. destruct years_c as (_ & Y1 & Y2). unfold esp_current. destruct (Z.eqb_spec now (-1)) as [->|NE].
  - rewrite Y1. reflexivity.
  - destruct G as (t & -> & E & I). rewrite (year_test t 124 E), I. change (124 + 1900) with 2024.
    destruct ((year_second 2024 <=? now) && (now <? year_second 2101)) eqn:C; [|reflexivity]. cbn [negb]. rewrite in_64 by lia. reflexivity.
Qed.
Lemma freertos_time gm now : gmtime_ok gm now ->
  freertos_current gm now = Some (if (year_second 2023 <=? now) && (now <? year_second 2101) then Some now else None).
Proof.
  intros G. destruct years_c as (Y0 & _ & Y2). unfold freertos_current. destruct G as (t & -> & E & I). cbn [bind].
  rewrite (year_test t 123 E), I. change (123 + 1900) with 2023.
  destruct ((year_second 2023 <=? now) && (now <? year_second 2101)) eqn:C; [|reflexivity]. cbn [negb]. rewrite in_64 by lia. reflexivity.
Qed.
Lemma rtc_time mk t ok : mktime_ok mk -> exists_tm t ->
  rtc_current mk (ok, t) = if (year_second 2023 <=? instant t) && (instant t <? year_second 2101) then Some (instant t) else None.
Proof.
  intros MK E. destruct years_c as (Y0 & _ & Y2). unfold rtc_current. cbn [snd]. rewrite (year_test t 123 E). change (123 + 1900) with 2023.
  destruct ((year_second 2023 <=? instant t) && (instant t <? year_second 2101)) eqn:C; [|reflexivity]. cbn [negb]. rewrite (MK t E).
  replace (instant t =? -1) with false by lia. rewrite in_64 by lia. reflexivity.
Qed.
Lemma dt_events events : fold_left dt_event events false = has_time events.
Proof.
  assert (G : forall l b, fold_left dt_event l b = last l b).
  { induction l as [|e l IH]; intros b; [reflexivity|]. cbn [fold_left]. rewrite IH. destruct l as [|e2 l]; [destruct e, b; reflexivity|].
    destruct e, b; cbn; clear; revert e2; induction l as [|x l IHl]; intros e2; cbn; auto. }
  apply G.
Qed.
Lemma dt_time events now : match now with Some ms => 0 <= ms < 9223372036854775808 | None => True end ->
  dt_current (fold_left dt_event events false) now =
  if has_time events then match now with Some ms => Some (ms / 1000) | None => None end else None.
Proof.
  intros H. rewrite dt_events. unfold dt_current. destruct (has_time events), now as [ms|]; try reflexivity.
  rewrite Z.quot_div_nonneg by lia. rewrite in_64; [reflexivity|]. split; [apply Z.div_pos; lia|]. apply Z.div_lt_upper_bound; lia.
Qed.
Lemma sent_whole t : year_second 2023 <= t < year_second 2101 -> sent_time t = t.
Proof. destruct years_c as (Y0 & _ & Y2). rewrite Y0, Y2. intros H. apply u32_id. unfold is_u32. lia. Qed.
