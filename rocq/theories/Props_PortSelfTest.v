(** C132: the self test's hold on interrupts, cores and time, port by port. *)
From Verif Require Import Base SelfTest PortSelfTest PortSelfTestSpec PortSelfTestProofs.

(** FreeRTOS: after any calls in pairs the nesting is what it was, and in between interrupts are off *)
Theorem C132_freertos : forall n l, 0 <= n -> paired l -> fold_left fr_step l n = n /\ fr_quiet (fold_left fr_step (Off :: l) n) = true.
Proof.
  intros n l N P. split; [now apply fr_paired|]. cbn [fold_left]. rewrite (fr_paired l P). unfold fr_quiet. apply Z.ltb_lt. simpl. lia.
Qed.
Print Assumptions C132_freertos.

(** Zephyr: called one by one, interrupts are locked in between and afterwards as before *)
Theorem C132_zephyr : forall s l, one_by_one l -> z_locked (fold_left z_step l s) = z_locked s /\ z_locked (fold_left z_step (l ++ [Off]) s) = true.
Proof. intros s l P. split; [now apply z_one|]. now rewrite fold_left_app. Qed.
Print Assumptions C132_zephyr.

(** ESP-IDF: during the test this core alone runs, with its interrupts off, and is itself left alone *)
Theorem C132_esp_alone : forall me s, 0 <= s_nest s -> all_run s -> forall s', s' = esp_step false me s Off ->
  alone me s' /\ zlen (s_cores s') = zlen (s_cores s) /\ core_at s' me = core_at s me.
Proof.
  intros me s N R s' ->. unfold alone, esp_step, core_at. cbn [s_cores s_nest]. split; [split|split].
  - lia.
  - intros i c C NE. destruct (Z_lt_dec i 0) as [NI|NI]; [now rewrite get_neg in C by lia|]. rewrite others_get in C by lia.
    destruct (get (s_cores s) i) as [c0|]; [|discriminate]. cbn [option_map] in C. rewrite Z.add_0_l in C. destruct (Z.eqb_spec i me); [contradiction|].
    injection C as <-. reflexivity.
  - apply others_len.
  - destruct (Z_lt_dec me 0); [now rewrite !get_neg by lia|]. rewrite others_get by lia. rewrite Z.add_0_l, Z.eqb_refl. now destruct (get (s_cores s) me).
Qed.
Print Assumptions C132_esp_alone.

(** ESP-IDF: afterwards every core runs and the nesting is what it was; in single core mode nothing has changed at all *)
Theorem C132_esp_after : forall single me s, all_run s -> let s' := esp_step single me (esp_step single me s Off) On in
  all_run s' /\ s_nest s' = s_nest s /\ zlen (s_cores s') = zlen (s_cores s) /\ core_at s' me = core_at s me /\ (single = true -> s' = s).
Proof.
  intros single me s R s'. subst s'. destruct single; unfold esp_step; cbn [s_cores s_nest].
  - destruct s as (cs, k). cbn [s_cores s_nest] in *. replace (k + 1 - 1) with k by lia. auto.
  - unfold all_run, core_at in *. cbn [s_cores s_nest].
    assert (G : forall i, 0 <= i -> get (others go me 0 (others stop me 0 (s_cores s))) i = option_map (fun c => if i =? me then c else go (stop c)) (get (s_cores s) i)).
    { intros i I. rewrite !others_get by lia. rewrite Z.add_0_l. destruct (get (s_cores s) i); [|reflexivity]. simpl. now destruct (i =? me). }
    split; [|split; [lia|split; [now rewrite !others_len|split; [|discriminate]]]].
    + intros i c C. destruct (Z_lt_dec i 0) as [NI|NI]; [now rewrite get_neg in C by lia|]. rewrite G in C by lia.
      destruct (get (s_cores s) i) as [c0|] eqn:E; [|discriminate]. cbn [option_map] in C. injection C as <-.
      destruct (i =? me); [exact (R i c0 E)|reflexivity].
    + destruct (Z_lt_dec me 0); [now rewrite !get_neg by lia|]. rewrite G by lia. rewrite Z.eqb_refl. now destruct (get (s_cores s) me).
Qed.
Print Assumptions C132_esp_after.

Lemma tick_exact hz : 0 < hz -> 1000 mod hz = 0 -> tick_us hz = 1000 / hz * 1000 /\ 0 < 1000 / hz.
Proof.
  intros H M. assert (E : 1000 = hz * (1000 / hz)) by (pose proof (Z.div_mod 1000 hz ltac:(lia)); lia).
  assert (0 < 1000 / hz) by nia. split; [|assumption]. unfold tick_us. symmetry. apply Z.div_unique_exact; [lia|]. lia.
Qed.
(** FreeRTOS and ESP-IDF, where a tick is a whole number of milliseconds: the delay is never longer than asked for, and less than
    two ticks shorter *)
Theorem C132_delay : forall hz now d, 0 < hz -> 1000 mod hz = 0 -> 0 <= now -> 0 <= d ->
  exists w, delay hz now d = Some w /\ w - now <= d * 1000 /\ d * 1000 - 2 * (1000 / hz * 1000) < w - now.
Proof.
  intros hz now d H M N D. destruct (tick_exact hz H M) as (T & P). unfold delay, delay_ticks. destruct (Z.eqb_spec (1000 / hz) 0) as [E|_]; [lia|].
  cbn [bind]. eexists. split; [reflexivity|]. rewrite T. set (p := 1000 / hz) in *. clearbody p.
  pose proof (Z.div_mod d p ltac:(lia)). pose proof (Z.mod_pos_bound d p P). pose proof (Z.div_mod now (p * 1000) ltac:(lia)).
  pose proof (Z.mod_pos_bound now (p * 1000) ltac:(lia)). set (q := d / p) in *. set (m := d mod p) in *. set (k := now / (p * 1000)) in *. set (z := now mod (p * 1000)) in *.
  clearbody q m k z. destruct (Z.eqb_spec q 0) as [->|Q]; nia.
Qed.
Print Assumptions C132_delay.

(** so that the time test of the self test finds time passing, where time since boot is counted in ticks of at most 100 ms *)
Theorem C132_time_test : forall hz now w e, 10 <= hz -> 1000 mod hz = 0 -> 0 <= now -> delay hz now 100 = Some w ->
  since_boot_ms hz now <> 0 -> e_t0 e = since_boot_ms hz now -> e_t1 e = since_boot_ms hz w -> sf_since_boot e = 0.
Proof.
  intros hz now w e H M N D Z0 E0 E1. destruct (tick_exact hz ltac:(lia) M) as (T & P). unfold sf_since_boot. rewrite E0, E1.
  destruct (Z.eqb_spec (since_boot_ms hz now) 0) as [|_]; [contradiction|].
  assert (B : 1000 / hz <= 100) by (change 100 with (1000 / 10); apply Z.div_le_compat_l; lia).
  unfold delay, delay_ticks in D. destruct (Z.eqb_spec (1000 / hz) 0); [lia|]. cbn [bind] in D. injection D as D. unfold since_boot_ms in *. rewrite T in *.
  assert (Q : 1 <= 100 / (1000 / hz)) by (apply Z.div_le_lower_bound; lia).
  destruct (Z.eqb_spec (100 / (1000 / hz)) 0) as [Q0|_]; [lia|]. subst w. rewrite Z.div_mul by lia.
  destruct (Z.leb_spec ((now / (1000 / hz * 1000) + 100 / (1000 / hz)) * (1000 / hz)) (now / (1000 / hz * 1000) * (1000 / hz))) as [L|_]; [|reflexivity]. nia.
Qed.
Print Assumptions C132_time_test.

(** ** What does not hold *)

(** the delay lasts as long as asked for *)
Theorem C132_delay_refuted : ~ (forall hz now d w, 0 < hz -> 1000 mod hz = 0 -> 0 <= now -> 0 <= d -> delay hz now d = Some w -> d * 1000 <= w - now).
Proof. intro H. specialize (H 100 0 5 0 ltac:(lia) eq_refl ltac:(lia) ltac:(lia) eq_refl). lia. Qed.
Print Assumptions C132_delay_refuted.
(** there is a delay at every tick rate *)
Theorem C132_fast_tick_refuted : ~ (forall hz now d, 0 < hz -> 0 <= now -> 0 <= d -> delay hz now d <> None).
Proof. intro H. exact (H 2000 0 100 ltac:(lia) ltac:(lia) ltac:(lia) eq_refl). Qed.
Print Assumptions C132_fast_tick_refuted.
(** Zephyr: calls in pairs leave interrupts as they were *)
Theorem C132_zephyr_nested_refuted : ~ (forall s l, paired l -> z_locked (fold_left z_step l s) = z_locked s).
Proof.
  intro H. specialize (H (mk_z false false) [Off; Off; On; On]). discriminate H.
  exact (pa_wrap [Off; On] (pa_wrap [] pa_nil)).
Qed.
Print Assumptions C132_zephyr_nested_refuted.
(** ESP-IDF: the test leaves the other cores as they were *)
Theorem C132_esp_others_refuted : ~ (forall me s, all_run s -> esp_step false me (esp_step false me s Off) On = s).
Proof.
  intro H. specialize (H 0 (mk_esp [mk_core false 0; mk_core false 0] 0)). discriminate H.
  intros i c C. unfold core_at in C. cbn [s_cores] in C. destruct (Z_lt_dec i 0); [now rewrite get_neg in C by lia|].
  destruct (Z.eq_dec i 0) as [->|]; [injection C as <-; reflexivity|]. rewrite get_cons in C by lia.
  destruct (Z.eq_dec i 1) as [->|]; [injection C as <-; reflexivity|]. rewrite get_cons in C by lia. now rewrite get_nil in C.
Qed.
Print Assumptions C132_esp_others_refuted.

(** ** Examples *)
Example C132_case : esp_step false 1 (mk_esp [mk_core false 0; mk_core false 0; mk_core false 4] 0) Off =
  mk_esp [mk_core true 1; mk_core false 0; mk_core true 5] 1.
Proof. reflexivity. Qed.
Example C132_case_freertos : fold_left fr_step [Off; Off; On; Off; On; On] 2 = 2.
Proof. reflexivity. Qed.
Example C132_case_zephyr : map (fun n => z_locked (fold_left z_step (firstn n [Off; On; Off; On]) (mk_z false true))) [0; 1; 2; 3; 4]%nat = [false; true; false; true; false].
Proof. reflexivity. Qed.
(** 100 Hz, 3 ms into a tick: 100 ms asked for, 97 waited *)
Example C132_case_delay : delay 100 1003000 100 = Some 1100000.
Proof. reflexivity. Qed.
