(** C116: what a Particle device reports about itself. *)
From Coq Require Import String.
From Verif Require Import Base BuildId BuildIdSpec BuildIdProofs Props_BuildId HttpUtilsSpec HttpRequestSpec ParticleDevice ParticleDeviceSpec ParticleDeviceProofs.

(** Whatever is in the two buffers, so for every constructor, first or later: both versions are the first 31
    characters of what they are to be, and nothing outside of the buffers is touched. *)
Theorem C116_versions : forall b id c n, given_ok b c -> the_id id (bd_idtype b) (bd_idmem b) -> zlen (nm_hw n) = 32 -> zlen (nm_sw n) = 32 ->
  exists n' h s, construct b c n = Some n' /\ zlen (nm_hw n') = 32 /\ zlen (nm_sw n') = 32 /\
    hardware_text b c h /\ software_text b id c s /\ reported n' = Some (take 31 h, take 31 s).
Proof. exact construct_ok. Qed.
Print Assumptions C116_versions.

(** Versions of the software that fit are told apart: equal ones are of the same product version and have the
    same metadata or digits of the build id. *)
Theorem C116_told_apart : forall b id1 id2 c1 c2 s1 s2, software_text b id1 c1 s1 -> software_text b id2 c2 s2 -> zlen s1 <= 31 -> zlen s2 <= 31 ->
  take 31 s1 = take 31 s2 -> ct_product c1 = ct_product c2 /\ exists x, extra_text id1 c1 x /\ extra_text id2 c2 x.
Proof. exact told_apart. Qed.
Print Assumptions C116_told_apart.

(** The time since boot is right for 49.7 days. *)
Theorem C116_clock : forall t, 0 <= t < 4294967296 -> pd_time t = t.
Proof. intros t H. now apply u32_id. Qed.
Print Assumptions C116_clock.

(** Of any number of calls, the first sets the timer up: its callback, and its period in ms if less than 49.7
    days.  All succeed, if there is memory for one. *)
Theorem C116_one_timer : forall period cb l, 0 <= period <= 4294967 ->
  timer_boots ((true, period, cb) :: l) ptimer_init = Some (true :: map (fun _ => true) l, mk_ptm (Some (1000 * period)) (Some cb)).
Proof.
  intros p cb l H. cbn [timer_boots timer_boot pt_period ptimer_init negb bind]. rewrite boots_kept. cbn [bind]. rewrite u32_id by (unfold is_u32; lia). do 4 f_equal. lia.
Qed.
Print Assumptions C116_one_timer.

(** When it fires, the heap's metrics are set, then the callback is called, which ends the heartbeat. *)
Theorem C116_heap_metrics : forall h cb p, 0 <= hp_max_used h <= hp_total h -> hp_total h < 4294967296 ->
  timer_fires h (mk_ptm p (Some cb)) = Some [SetTotal (hp_total h); SetMinFree (hp_total h - hp_max_used h); SetFree (hp_free h); SetBlock (hp_block h); Callback cb].
Proof. intros h cb p H L. unfold timer_fires. cbn [pt_cb bind]. rewrite u32_id by (unfold is_u32; lia). reflexivity. Qed.
Print Assumptions C116_heap_metrics.

(** A command is run if and only if it is in the table, and it is the one with that name. *)
Theorem C116_commands : forall storage name, match run_command storage name with
  | (Some i, r) => nth_error commands (Z.to_nat i) = Some name /\ (forall k, nth_error commands k = Some name -> k = Z.to_nat i) /\ r = command_result storage i
  | (None, r) => ~ In name commands /\ r = Some (-1)
  end.
Proof.
  intros storage name. unfold run_command. pose proof (find_command_ok name commands 0) as F. destruct (find_command name 0 commands) as [i|]; [|auto].
  destruct F as (A & B & _). rewrite Z.sub_0_r in B. split; [exact B|]. split; [|reflexivity]. intros k K.
  assert (N : NoDup commands). { repeat (constructor; [vm_compute; intuition discriminate|]). constructor. }
  apply (proj1 (NoDup_nth_error commands) N); [|congruence]. apply nth_error_Some. congruence.
Qed.
Print Assumptions C116_commands.

Definition c116_board (sys : list Z) : board := mk_bd (str "boron") sys (Some 3) 3 ex_id.
Definition c116_boot : names := mk_nm (str "Unset-Hw" ++ fill 24 0) (str "5.5.0" ++ fill 27 0).

(** :508-509 appends the metadata so that different builds do not have the same version.  What does not fit is
    cut off without notice. *)
Theorem C116_builds_told_apart_refuted : exists b c1 c2 n1 n2, given_ok b c1 /\ given_ok b c2 /\ ct_meta c1 <> ct_meta c2 /\
  construct b c1 c116_boot = Some n1 /\ construct b c2 c116_boot = Some n2 /\ reported n1 = reported n2.
Proof.
  exists (c116_board (str "6.1.0-rc.1")), (mk_ct 12 (Some (str "20240102T0304-g1f2")) None), (mk_ct 12 (Some (str "20240102T0304-g1a0")) None).
  eexists (mk_nm _ _), (mk_nm _ _).
  assert (G : forall m, text_ok m -> given_ok (c116_board (str "6.1.0-rc.1")) (mk_ct 12 (Some m) None)).
  { intros m H. split; [unfold is_u16; cbn; lia|]. split; [repeat (apply Forall_cons; [cbn; lia|]); apply Forall_nil|]. split; [repeat (apply Forall_cons; [cbn; lia|]); apply Forall_nil|].
    split; [intros x X; injection X as <-; exact H|discriminate]. }
  split; [apply G; repeat (apply Forall_cons; [cbn; lia|]); apply Forall_nil|]. split; [apply G; repeat (apply Forall_cons; [cbn; lia|]); apply Forall_nil|].
  split; [discriminate|]. split; [vm_compute; reflexivity|]. split; [vm_compute; reflexivity|vm_compute; reflexivity].
Qed.
Print Assumptions C116_builds_told_apart_refuted.

(** memfault/core/platform/core.h:48-49 asks for the time since boot.  After 49.7 days it starts again. *)
Theorem C116_time_since_boot_refuted : exists t1 t2, 0 <= t1 < t2 /\ pd_time t2 < pd_time t1.
Proof. exists 4294967295, 4294967296. split; [lia|vm_compute; reflexivity]. Qed.
Print Assumptions C116_time_since_boot_refuted.

(** Not every period is kept: 4294968 s make a timer of 704 ms. *)
Theorem C116_every_period_refuted : exists period, is_u32 period /\ timer_boot true period 1 ptimer_init = Some (true, mk_ptm (Some 704) (Some 1)) /\ 704 < 1000 * period.
Proof. exists 4294968. split; [unfold is_u32; lia|]. split; [reflexivity|lia]. Qed.
Print Assumptions C116_every_period_refuted.

(** :347 asserts that there is a timer, after :346 has used it. *)
Theorem C116_no_memory_asserted_refuted : forall period cb, timer_boot false period cb ptimer_init = None.
Proof. reflexivity. Qed.
Print Assumptions C116_no_memory_asserted_refuted.

(** memfault.h:46: more than 0 is returned on success.  No command returns that. *)
Theorem C116_success_is_positive_refuted : forall storage name r, snd (run_command storage name) = Some r -> r <= 0.
Proof.
  intros storage name r. unfold run_command. destruct (find_command name 0 commands) as [i|]; cbn [snd]; [|intros E; injection E as <-; lia].
  unfold command_result. destruct (i =? 0); [destruct storage; intros E; injection E as <-; lia|]. destruct (i =? 5); [discriminate|]. destruct (i <? 7); intros E; [injection E as <-; lia|discriminate].
Qed.
Print Assumptions C116_success_is_positive_refuted.

(** A build with an id and no metadata; one with metadata that does not fit; commands. *)
Example C116_case :
  (do n <- construct (c116_board (str "5.5.0")) (mk_ct 12 None None) c116_boot; reported n) = Some (str "boron-rev3", str "v12.os5.5.0+1fa20") /\
  (do n <- construct (c116_board (str "5.5.0")) (mk_ct 65535 (Some (str "2024-01-02T03:04:05")) (Some (str "evt"))) c116_boot; reported n)
    = Some (str "evt", str "v65535.os5.5.0+2024-01-02T03:04") /\
  timer_boots [(true, 3600, 7); (true, 60, 8)] ptimer_init = Some ([true; true], mk_ptm (Some 3600000) (Some 7)) /\
  timer_fires (mk_hp 80000 60000 40000 30000) (mk_ptm (Some 3600000) (Some 7)) = Some [SetTotal 80000; SetMinFree 20000; SetFree 40000; SetBlock 30000; Callback 7] /\
  run_command false (str "coredump_storage") = (Some 0, Some (-1)) /\ run_command true (str "trace") = (Some 6, Some 0) /\ run_command true (str "tracing") = (None, Some (-1)).
Proof. vm_compute. repeat split. Qed.
