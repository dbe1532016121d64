(** C135: every port starts the parts of the SDK so that each finds what it needs, and reports the reset once. *)
From Verif Require Import Base Cbor CborSpec EventStorage EventStorageSpec SerializerHelper SerializerHelperSpec SerializerDocs Reboot RebootSpec
  PortOrder PortOrderSpec PortOrderProofs.

(** with room for it the reset is the one event stored and is not pending any more; the metrics get the count of crashes, this one
    included; no lock is taken before the mutex exists *)
Theorem C135_boot : forall p cfg env storage load info m,
  senv_ok env -> rinfo_ok m -> match load with Some x => rinfo_ok x | None => True end -> is_u16 (fst info) -> zlen storage <= 2147483648 ->
  collects p = true -> reset_ok (to_report m load info) -> reboot_worst_size env <= 65532 -> 0 < 2 + reboot_worst_size env <= zlen storage ->
  exists w ev, port_boot p env storage load info m = Some w /\
    cbor_read ev = Some (reboot_item env (to_report m load info), []) /\
    boots_to cfg (zlen storage) env p (crashes_now m load info)
      (mk_rv true (consumed (r_k (booted m load info))) (r_boot (booted m load info))) (mk_ssv (mk_sev [ev] None 0) 0) w.
Proof.
  intros p cfg env storage load info m HE HM HL HI HS C RI HW HR. assert (HS2 : 0 < zlen storage <= 2147483648) by lia.
  destruct (collected cfg env storage load info m HE HM HL HI HS2 _ eq_refl RI HW ltac:(lia)) as (s0 & s2 & st2 & ev & EB & EC & M & Q & D).
  destruct (boot_any cfg env storage load info m HE HM HL HI p _ _ _ _ _ (mk_ssv (mk_sev [ev] None 0) 0) C EB EC M
    (booted_up load info m HI) (booted_count load info m HL HI) Q) as (w & B & T).
  exists w, ev. split; [exact B|]. split; [exact D|]. unfold upd in T. now rewrite booted_up in T.
Qed.
Print Assumptions C135_boot.

(** with too little room the rest is the same, the reset stays pending and one event is counted as missed *)
Theorem C135_boot_full : forall p cfg env storage load info m,
  senv_ok env -> rinfo_ok m -> match load with Some x => rinfo_ok x | None => True end -> is_u16 (fst info) -> 0 < zlen storage <= 2147483648 ->
  collects p = true -> reset_ok (to_report m load info) -> reboot_worst_size env <= 65532 ->
  zlen storage < 2 + doc_size (reboot_doc env (to_report m load info)) ->
  exists w, port_boot p env storage load info m = Some w /\
    boots_to cfg (zlen storage) env p (crashes_now m load info) (booted m load info) (mk_ssv (mk_sev [] None 0) 1) w.
Proof.
  intros p cfg env storage load info m HE HM HL HI HS C RI HW HR.
  destruct (refused cfg env storage load info m HE HM HL HI HS _ eq_refl RI HW HR) as (s0 & s2 & st2 & EB & EC & M & Q).
  exact (boot_any cfg env storage load info m HE HM HL HI p _ _ _ _ _ _ C EB EC M (booted_up load info m HI) (booted_count load info m HL HI) Q).
Qed.
Print Assumptions C135_boot_full.

(** Zephyr without CONFIG_MEMFAULT_RECORD_REBOOT_ON_SYSTEM_INIT: nothing is stored and the reset stays pending *)
Theorem C135_left_to_the_application : forall metrics cfg env storage load info m,
  senv_ok env -> rinfo_ok m -> match load with Some x => rinfo_ok x | None => True end -> is_u16 (fst info) -> 0 < zlen storage <= 2147483648 ->
  exists w, port_boot (PZephyr false metrics) env storage load info m = Some w /\
    boots_to cfg (zlen storage) env (PZephyr false metrics) (crashes_now m load info) (booted m load info) (mk_ssv (mk_sev [] None 0) 0) w.
Proof. intros. now apply boot_leaves. Qed.
Print Assumptions C135_left_to_the_application.

(** ** What does not hold *)
Definition env1 := mk_senv [] [109; 97; 105; 110] [49; 46; 48] [100; 118; 116] false None 6 (Some 1700000000).
Definition mem1 := mk_rin 0x21544252 2 3 1 0x8001 100 200 0 0.
Definition room1 := repeat 0 200.
Lemma env1_ok : senv_ok env1.
Proof.
  unfold senv_ok, env1; cbn. split; [|split; [lia|split; [exact I|lia]]].
  repeat (apply Forall_cons; [split; [repeat (apply Forall_cons; [unfold is_u8; lia|]); constructor|reflexivity]|]). constructor.
Qed.

(** a port with a log keeps the lines it prints while it boots *)
Theorem C135_lines_kept_refuted : ~ (forall p env storage load info m w, has_log p = true ->
  port_boot p env storage load info m = Some w -> b_log w = Some (b_out w)).
Proof.
  intros H. destruct (port_boot PPsoc6 env1 room1 None (0, 0) mem1) as [w|] eqn:E; [|vm_compute in E; discriminate].
  specialize (H PPsoc6 env1 room1 None (0, 0) mem1 w eq_refl E).
  assert (X : match port_boot PPsoc6 env1 room1 None (0, 0) mem1 with Some w => b_log w = Some [LReady] /\ b_out w = [LBuild; LDevice; LReady] | None => False end)
    by (vm_compute; split; reflexivity).
  rewrite E in X. destruct X as (X1 & X2). rewrite X1, X2 in H. discriminate H.
Qed.
Print Assumptions C135_lines_kept_refuted.

(** with a log some line of every boot is in it: Particle's has none *)
Theorem C135_some_line_kept_refuted : ~ (forall p env storage load info m w, has_log p = true ->
  port_boot p env storage load info m = Some w -> b_log w <> Some []).
Proof.
  intros H. destruct (port_boot (PParticle true) env1 room1 None (0, 0) mem1) as [w|] eqn:E; [|vm_compute in E; discriminate].
  apply (H (PParticle true) env1 room1 None (0, 0) mem1 w eq_refl E).
  assert (X : match port_boot (PParticle true) env1 room1 None (0, 0) mem1 with Some w => b_log w = Some [] | None => False end)
    by (vm_compute; reflexivity).
  rewrite E in X. exact X.
Qed.
Print Assumptions C135_some_line_kept_refuted.

(** a crash with a coredump, then a boot by the watchdog's register *)
Example C135_case : senv_ok env1 /\ rinfo_ok mem1 /\ reboot_worst_size env1 <= 65532 /\ 2 + reboot_worst_size env1 <= zlen room1 /\
  to_report mem1 None (0x8006, 7) = mk_ri 0x8001 100 200 7 1 /\ crashes_now mem1 None (0x8006, 7) = 4 /\
  match port_boot (PEspIdf true true) env1 room1 None (0x8006, 7) mem1 with
  | Some w => b_count w = Some 4 /\ b_log w = Some [LReason; LBuild] /\ i_reason (rt_mem (b_rt w)) = 0xffffffff
  | None => False
  end.
Proof.
  split; [exact env1_ok|]. split; [unfold rinfo_ok, is_u8; cbn; lia|]. split; [vm_compute; discriminate|]. split; [vm_compute; discriminate|].
  split; [reflexivity|]. split; [reflexivity|]. vm_compute. repeat split; reflexivity.
Qed.
Example C135_case_full : let i := to_report mem1 None (0x8006, 7) in reset_ok i /\ zlen (repeat 0 30) < 2 + doc_size (reboot_doc env1 i) /\
  match port_boot PPsoc6 env1 (repeat 0 30) None (0x8006, 7) mem1 with
  | Some w => b_count w = Some 4 /\ i_reason (rt_mem (b_rt w)) = 0x8001
  | None => False
  end.
Proof. split; [vm_compute; repeat split; first [reflexivity|intro X; discriminate X]|]. split; [vm_compute; reflexivity|]. vm_compute. split; reflexivity. Qed.
