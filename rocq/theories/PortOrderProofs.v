From Verif Require Import Base Cbor CborSpec CborDoc CborProofs EventStorage EventStorageSpec EventStorageProofs SerializerHelper
  SerializerHelperSpec SerializerHelperProofs SerializerDocs Reboot RebootSpec RebootProofs PortOrder PortOrderSpec.

Section Boot.
Context (cfg : es_cfg) (env : senv) (storage : list Z) (load : option rinfo) (info : Z * Z) (m : rinfo).
Hypothesis HE : senv_ok env.
Hypothesis HM : rinfo_ok m.
Hypothesis HL : match load with Some x => rinfo_ok x | None => True end.
Hypothesis HI : is_u16 (fst info).
Hypothesis HS : 0 < zlen storage <= 2147483648.

Let s1 := rt_boot (mk_rt false m None) true load (Some info).
Lemma s1_sim : rsim s1 (booted m load info).
Proof.
  destruct (rt_step_ok _ _ (TBoot true load (Some info)) TOk (booted m load info) (init_sim m HM)) as (s & E & M).
  - cbn. split; [exact HL|]. destruct info as (r, g). exact HI.
  - reflexivity.
  - cbn [rt_step] in E. inv E. exact M.
Qed.
Lemma booted_up : r_up (booted m load info) = true. Proof. unfold booted, boot. destruct info. reflexivity. Qed.
Lemma booted_info : info_of (r_k (booted m load info)) = Some (to_report m load info).
Proof.
  unfold booted, boot, to_report. destruct info as (r, g). cbn [r_k start fst snd].
  destruct load as [x|]; [destruct (recall x) as [f pc lr cd rg cr ac]|destruct (recall m) as [f pc lr cd rg cr ac]];
    destruct f as [f|]; cbn [with_reg or_first note k_first k_pc k_lr k_cd k_reg k_crashes k_active];
    destruct (crash _); reflexivity.
Qed.
Lemma booted_count : k_crashes (r_k (booted m load info)) mod 256 = crashes_now m load info.
Proof.
  unfold booted, boot, crashes_now. destruct info as (r, g). cbn [r_k start fst snd].
  destruct load as [x|]; [destruct (recall x) as [f pc lr cd rg cr ac]|destruct (recall m) as [f pc lr cd rg cr ac]];
    destruct f as [f|]; cbn [with_reg or_first note k_first k_pc k_lr k_cd k_reg k_crashes k_active];
    destruct (crash _); cbn [k_crashes with_crashes]; rewrite ?Z.add_0_r; reflexivity.
Qed.
Lemma read1 : exists s, rt_step s1 TRead = Some (TInfo (Some (to_report m load info)), s).
Proof.
  destruct (rt_step_ok s1 (booted m load info) TRead (TInfo (Some (to_report m load info))) (booted m load info) s1_sim I) as (s & E & _).
  - cbn [rv_step]. now rewrite booted_up, booted_info.
  - eauto.
Qed.
Lemma count_of s v : rsim s v -> r_up v = true -> rt_step s TCount = Some (TNum (k_crashes (r_k v) mod 256), s).
Proof.
  intros M U. destruct (rt_step_ok s v TCount (TNum (k_crashes (r_k v) mod 256)) v M I) as (s' & E & _).
  - cbn [rv_step]. now rewrite U.
  - destruct (coi_up _ _ M U) as (C & _). cbn [rt_step] in *. rewrite C in *. now inv E.
Qed.

(** storing the reset *)
Lemma collected i : i = to_report m load info -> reset_ok i -> reboot_worst_size env <= 65532 -> 2 + reboot_worst_size env <= zlen storage ->
  exists s0 s2 st2 ev, es_boot storage (zlen storage) = Some (Some s0) /\
    rt_collect env s1 (mk_sh s0 0 0) = Some (0, s2, st2) /\
    rsim s2 (upd (booted m load info) (consumed (r_k (booted m load info)))) /\
    ssim cfg (zlen storage) st2 (mk_ssv (mk_sev [ev] None 0) 0) /\
    cbor_read ev = Some (reboot_item env i, []).
Proof.
  intros EI RI HW HR. destruct (sh_boot_ok cfg storage HS) as (s0 & EB & Q0).
  pose proof (reboot_worst env i HE RI) as WC.
  set (q := mk_ssv (mk_sev [] None 0) 0) in *.
  assert (U0 : used (q_store q) = 0) by reflexivity.
  pose proof (doc_encode cfg (zlen storage) q _ _ (runs_reboot env i) (reboot_doc_ok _ _ HE RI) ltac:(lia) ltac:(lia) eq_refl ltac:(lia)) as DE.
  replace (used (q_store q) + 2 + doc_size (reboot_doc env i) <=? zlen storage) with true in DE by lia.
  destruct (rc_step_ok cfg (zlen storage) env s1 (mk_sh s0 0 0) (booted m load info) q CCollect (RCollect 0)
    (upd (booted m load info) (consumed (r_k (booted m load info))))
    (mk_ssv (mk_sev [ops_bytes (doc_ops (reboot_doc env i))] None 0) 0) HE s1_sim Q0 I) as (s2 & st2 & E & M & Q).
  - cbn [rc_spec]. rewrite booted_up, booted_info, <- EI, DE. reflexivity.
  - clear EI. cbn [rc_step] in E. destruct (rt_collect env s1 (mk_sh s0 0 0)) as [((z, s'), st')|] eqn:EC; [|discriminate]. cbn [bind] in E. inv E.
    exists s0, s2, st2, (ops_bytes (doc_ops (reboot_doc env i))). repeat (split; [assumption||reflexivity|]).
    pose proof (doc_cbor_read _ [] (reboot_doc_ok _ _ HE RI)) as D. rewrite app_nil_r, reboot_doc_value in D. exact D.
Qed.

(** with too little room the reset stays to be reported *)
Lemma refused i : i = to_report m load info -> reset_ok i -> reboot_worst_size env <= 65532 -> zlen storage < 2 + doc_size (reboot_doc env i) ->
  exists s0 s2 st2, es_boot storage (zlen storage) = Some (Some s0) /\
    rt_collect env s1 (mk_sh s0 0 0) = Some (-2, s2, st2) /\
    rsim s2 (booted m load info) /\ ssim cfg (zlen storage) st2 (mk_ssv (mk_sev [] None 0) 1).
Proof.
  intros EI RI HW HR. destruct (sh_boot_ok cfg storage HS) as (s0 & EB & Q0).
  pose proof (reboot_worst env i HE RI) as WC.
  set (q := mk_ssv (mk_sev [] None 0) 0) in *.
  assert (U0 : used (q_store q) = 0) by reflexivity.
  pose proof (doc_encode cfg (zlen storage) q _ _ (runs_reboot env i) (reboot_doc_ok _ _ HE RI) ltac:(lia) ltac:(lia) eq_refl ltac:(lia)) as DE.
  replace (used (q_store q) + 2 + doc_size (reboot_doc env i) <=? zlen storage) with false in DE by lia.
  destruct (rc_step_ok cfg (zlen storage) env s1 (mk_sh s0 0 0) (booted m load info) q CCollect (RCollect (-2))
    (booted m load info) (mk_ssv (mk_sev [] None 0) 1) HE s1_sim Q0 I) as (s2 & st2 & E & M & Q).
  - cbn [rc_spec]. rewrite booted_up, booted_info, <- EI, DE. reflexivity.
  - clear EI. cbn [rc_step] in E. destruct (rt_collect env s1 (mk_sh s0 0 0)) as [((z, s'), st')|] eqn:EC; [|discriminate]. cbn [bind] in E. inv E.
    exists s0, s2, st2. repeat (split; [assumption||reflexivity|]). exact Q.
Qed.

(** the boot of each port *)
Lemma boot_any p z s0 s2 st2 v q : collects p = true -> es_boot storage (zlen storage) = Some (Some s0) ->
  rt_collect env s1 (mk_sh s0 0 0) = Some (z, s2, st2) -> rsim s2 v -> r_up v = true -> k_crashes (r_k v) mod 256 = crashes_now m load info ->
  ssim cfg (zlen storage) st2 q ->
  exists w, port_boot p env storage load info m = Some w /\ boots_to cfg (zlen storage) env p (crashes_now m load info) v q w.
Proof.
  intros C EB EC M U K Q. destruct read1 as (sr & ER). unfold s1 in *.
  assert (CT : rt_step s2 TCount = Some (TNum (crashes_now m load info), s2)) by (rewrite (count_of _ _ M U); now rewrite K).
  assert (L : forall ops rs v2 q2, Forall rc_op_ok ops -> rc_spec_run cfg (zlen storage) env v q ops = Some (rs, v2, q2) ->
      exists s3 st3, rc_run cfg env s2 st2 ops = Some (rs, s3, st3)).
  { intros ops rs v2 q2 F H. destruct (rc_run_ok cfg (zlen storage) env HE ops _ _ _ _ _ _ _ M Q F H) as (s3 & st3 & R & _). eauto. }
  destruct p as [| | | |[]|[] []|[]|[] []|[]]; try discriminate C;
    unfold port_boot, reset_world, locks_at_start, line_saves, boot_steps; cbn [app];
    repeat (cbn [bl_run bl_step bind negb fst snd b_locks b_log b_out b_rt b_store b_trace b_count app]; rewrite ?EB, ?ER, ?EC, ?CT);
    cbn [bl_run bl_step bind negb fst snd b_locks b_log b_out b_rt b_store b_trace b_count app];
    (eexists; split; [reflexivity|]; unfold boots_to; cbn [b_locks b_log b_out b_rt b_store b_trace b_count counts];
     split; [reflexivity|]; split; [reflexivity|]; split; [reflexivity|]; split; [reflexivity|]; split; [reflexivity|];
     exists st2; split; [reflexivity|exact L]).
Qed.
Lemma boot_leaves metrics : exists w, port_boot (PZephyr false metrics) env storage load info m = Some w /\
  boots_to cfg (zlen storage) env (PZephyr false metrics) (crashes_now m load info) (booted m load info) (mk_ssv (mk_sev [] None 0) 0) w.
Proof.
  destruct (sh_boot_ok cfg storage HS) as (s0 & EB & Q0). pose proof s1_sim as M.
  pose proof (count_of _ _ M booted_up) as CT. rewrite booted_count in CT. unfold s1 in *.
  assert (L : forall ops rs v2 q2, Forall rc_op_ok ops -> rc_spec_run cfg (zlen storage) env (booted m load info) (mk_ssv (mk_sev [] None 0) 0) ops = Some (rs, v2, q2) ->
      exists s3 st3, rc_run cfg env (rt_boot (mk_rt false m None) true load (Some info)) (mk_sh s0 0 0) ops = Some (rs, s3, st3)).
  { intros ops rs v2 q2 F H. destruct (rc_run_ok cfg (zlen storage) env HE ops _ _ _ _ _ _ _ M Q0 F H) as (s3 & st3 & R & _). eauto. }
  destruct metrics; unfold port_boot, reset_world, locks_at_start, line_saves, boot_steps; cbn [app];
    repeat (cbn [bl_run bl_step bind negb fst snd b_locks b_log b_out b_rt b_store b_trace b_count app]; rewrite ?EB, ?CT);
    cbn [bl_run bl_step bind negb fst snd b_locks b_log b_out b_rt b_store b_trace b_count app];
    (eexists; split; [reflexivity|]; unfold boots_to; cbn [b_locks b_log b_out b_rt b_store b_trace b_count counts];
     split; [reflexivity|]; split; [reflexivity|]; split; [reflexivity|]; split; [reflexivity|]; split; [reflexivity|];
     exists (mk_sh s0 0 0); split; [reflexivity|exact L]).
Qed.
End Boot.
