(** C109: periodic uploads. *)
From Verif Require Import Base PortUpload PortUploadSpec PortUploadProofs.

(** The first check comes 60 seconds (5, with intervals below 60) to an interval more after the start. *)
Theorem C109_first_check : forall interval rand, 1 <= interval < 2 ^ 31 -> 0 <= rand ->
  exists f, first_secs interval rand = Some f /\ (if 60 <=? interval then 60 else 5) <= f < (if 60 <=? interval then 60 else 5) + interval.
Proof. exact first_range. Qed.
Print Assumptions C109_first_check.
(** Zephyr, however long checks take: they do not overlap; there are at most as many as expiries; each expiry
    has a check that begins at once, or as the one ends that is running then; each check is for an expiry. *)
Theorem C109_zephyr_checks : forall dur first interval k, (forall n, 0 <= dur n) -> 0 <= interval ->
  let l := z_checks dur first interval k in
  one_by_one first l /\ (length l <= k)%nat /\
  (forall t, In t (expiries first interval k) -> exists s e, In (s, e) l /\ serves l t s) /\
  (forall s e, In (s, e) l -> exists t, In t (expiries first interval k) /\ serves l t s).
Proof. intros dur first interval k D. exact (z_all dur D first interval k). Qed.
Print Assumptions C109_zephyr_checks.
(** If none takes longer than the interval, they begin at intervals. *)
Theorem C109_zephyr_regular : forall dur first interval k, (forall n, 0 <= dur n <= interval) ->
  map fst (z_checks dur first interval k) = expiries first interval k /\ at_intervals interval (map fst (z_checks dur first interval k)).
Proof.
  intros dur first interval k D. pose proof (z_regular dur (fun n => proj1 (D n)) first interval k (fun n => proj2 (D n))) as H. split; [exact H|]. rewrite H. apply expiries_spaced.
Qed.
Print Assumptions C109_zephyr_regular.
(** ESP-IDF, intervals up to 24 days, ticks that divide a second: the first turn after the seconds drawn, each
    other one an interval after the work of the last; posts exactly when connected. *)
Theorem C109_esp_turns : forall ota period interval rand l, 1 <= period -> 1000 mod period = 0 -> 1 <= interval <= 2147453 -> 0 <= rand ->
  exists f r, first_secs interval rand = Some f /\ (if 60 <=? interval then 60 else 5) <= f < (if 60 <=? interval then 60 else 5) + interval /\
    e_task ota period interval rand l = Some r /\ (l = [] \/ exists t a r', r = (t, a) :: r' /\ t * period = 1000 * f) /\
    exists d, d * period = 1000 * interval /\ spaced d l (map fst r) /\ Forall2 (does ota) l (map snd r).
Proof. exact e_all. Qed.
Print Assumptions C109_esp_turns.

(** The second check takes 25 of intervals of 10: the two expiries meanwhile make one check as it ends. *)
Example C109_case : z_checks (fun n => match n with 1%nat => 25 | _ => 2 end) 100 10 6 = [(100, 102); (110, 135); (135, 137); (140, 142); (150, 152)] /\
  e_task true 10 3600 7207 [mk_tn true true 50; mk_tn false true 0; mk_tn true false 20] =
  Some [(6700, [ALogs; APost; AOta]); (366750, []); (726750, [APost; AOta])].
Proof. split; vm_compute; reflexivity. Qed.

(** "The first check will run between [60, 60+INTERVAL]": not with intervals below 60 seconds. *)
Theorem C109_first_check_documented_refuted : ~ (forall interval rand f, 1 <= interval < 2 ^ 31 -> 0 <= rand -> first_secs interval rand = Some f -> as_documented interval f).
Proof. intros H. specialize (H 30 0 5 ltac:(lia) ltac:(lia) eq_refl). unfold as_documented in H. lia. Qed.
Print Assumptions C109_first_check_documented_refuted.
(** Nothing keeps the interval from being 0, a division by zero as the device starts. *)
Theorem C109_any_interval_refuted : ~ (forall interval rand, 0 <= interval < 2 ^ 31 -> exists f, first_secs interval rand = Some f).
Proof. intros H. destruct (H 0 0 ltac:(lia)) as (f & E). discriminate. Qed.
Print Assumptions C109_any_interval_refuted.
(** "Subsequent checks will run at INTERVAL intervals": not on ESP-IDF, where the time of the work adds up. *)
Theorem C109_esp_at_intervals_refuted : ~ (forall l r, e_task false 1 3600 0 l = Some r -> at_intervals (1000 * 3600) (map fst r)).
Proof.
  intros H. specialize (H [mk_tn true false 1; mk_tn true false 1] _ eq_refl). cbn [e_loop map fst at_intervals] in H. destruct H as [H _]. vm_compute in H. discriminate.
Qed.
Print Assumptions C109_esp_at_intervals_refuted.
(** On ESP-IDF 1000 * seconds has 32 bits: an interval of 50 days is one of seven hours. *)
Theorem C109_esp_long_intervals_refuted : ~ (forall interval, 1 <= interval < 2 ^ 31 -> e_ticks 1 interval = 1000 * interval).
Proof. intros H. specialize (H (50 * 86400) ltac:(lia)). vm_compute in H. discriminate. Qed.
Print Assumptions C109_esp_long_intervals_refuted.
