(** C74: the registers in a coredump are those at the crash; C75: the crash reported is the first, and
    the coredump is of it; C76: the check of the storage's size. *)
From Verif Require Import Base SerializerHelper Reboot RebootSpec Coredump CoredumpSpec ArchRegions ArchRegionsSpec FaultShim FaultShimSpec FaultShimProofs
  FaultHandling FaultHandlingSpec FaultHandlingProofs.
Local Open Scope Z_scope.

(** ** C74 *)
(** Cortex-M: whatever exception, stack, floating point state and alignment, every entry code gives the
    handler the reason and all registers at the crash; the main stack pointer when it was not in use is
    less by what entry code and handler have pushed. *)
Theorem C74_cortex_m_registers : forall k sh v depth s0, cm_ok k -> cm_taken k s0 ->
  let s := cm_exec (shim_code sh (cm_reason v)) 0 s0 in
  cm_arg_reason s = cm_reason v /\
  cm_core_regs depth s = cm_expected k (if uses_psp k then u32 (k_msp k - 40 - depth) else k_msp k) (k_psp k).
Proof. intros k sh v depth s0 OK. exact (shim_captures k OK sh v depth s0). Qed.
Print Assumptions C74_cortex_m_registers.

(** Every crash has a state at the entry. *)
Definition taken_state (k : cm_crash) : cm :=
  mk_cm (fun i => if (4 <=? i) && (i <=? 11) then k_r k i else 0xDEAD) (if uses_psp k then k_msp k else frameptr k)
        (if uses_psp k then frameptr k else k_psp k) (exc_return k) true
        (fun a => if (frameptr k <=? a) && (a <? frameptr k + framesize k)
                  then match get (frame_words k) ((a - frameptr k) / 4) with Some v => v | None => 0 end else k_mem k a).
Lemma taken_state_ok k : cm_taken k (taken_state k).
Proof.
  unfold cm_taken, taken_state; cbn [cm_msp cm_psp cm_lr cm_r cm_mem].
  split; [reflexivity|]. split; [reflexivity|]. split; [reflexivity|]. split; [|split].
  - intros i I. destruct (Z.leb_spec 4 i); [|lia]. destruct (Z.leb_spec i 11); [|lia]. reflexivity.
  - intros i v G. assert (B : 0 <= i < 8) by (apply get_range in G; exact G).
    assert (F : 32 <= framesize k) by (unfold framesize; destruct (k_fp k); lia).
    destruct (Z.leb_spec (frameptr k) (frameptr k + 4 * i)); [|lia]. destruct (Z.ltb_spec (frameptr k + 4 * i) (frameptr k + framesize k)); [|lia]. cbn [andb].
    replace ((frameptr k + 4 * i - frameptr k) / 4) with i by (replace (frameptr k + 4 * i - frameptr k) with (i * 4) by lia; now rewrite Z.div_mul by lia).
    now rewrite G.
  - intros a [A|A].
    + destruct (Z.leb_spec (frameptr k) a); [lia|]. reflexivity.
    + destruct (Z.ltb_spec a (frameptr k + framesize k)); [lia|]. now rewrite andb_false_r.
Qed.
Definition ex_crash : cm_crash :=
  mk_crash (fun i => 0x100 + i) 0x08001235 0x08004320 0x61000000 0x20008000 0x20003F0C false true true true (fun _ => 0).
(** A task with floating point state and a stack not aligned to 8 bytes. *)
Example C74_case : cm_ok ex_crash /\ cm_taken ex_crash (taken_state ex_crash) /\ frameptr ex_crash = 0x20003EA0 /\
  cm_core_regs 24 (cm_exec (shim_code SV6Arg (cm_reason VBusFault)) 0 (taken_state ex_crash)) =
    [0x100; 0x101; 0x102; 0x103; 0x104; 0x105; 0x106; 0x107; 0x108; 0x109; 0x10a; 0x10b; 0x10c; 0x20003F0C; 0x08001235; 0x08004320; 0x61000200;
     0x20008000 - 64; 0x20003F0C].
Proof.
  split; [|split; [apply taken_state_ok|split; vm_compute; reflexivity]].
  repeat (split; [first [reflexivity | (vm_compute; split; [discriminate|reflexivity]) | (vm_compute; discriminate)]|]).
  intros _. right. vm_compute. discriminate.
Qed.
(** The main stack pointer recorded is not the one at the crash when a task (using psp) crashes. *)
Theorem C74_msp_is_that_of_the_crash_refuted :
  ~ (forall k sh v depth s0, cm_ok k -> cm_taken k s0 -> 0 <= depth ->
     cm_core_regs depth (cm_exec (shim_code sh (cm_reason v)) 0 s0) = cm_expected k (k_msp k) (k_psp k)).
Proof.
  intros H. specialize (H ex_crash SV7 VHardFault 0 (taken_state ex_crash) (proj1 C74_case) (taken_state_ok _) ltac:(lia)).
  vm_compute in H. discriminate H.
Qed.
Print Assumptions C74_msp_is_that_of_the_crash_refuted.

(** ARMv7-A/R: a crash in any mode other than the one the exception is taken to. *)
Theorem C74_armv7_a_r_registers : forall v pc s s', ar_ok v pc s -> 16 <= ar_mode s -> ar_bank (ar_mode s) <> ar_target v -> ar_taken v pc s s' ->
  let s3 := ar_exec (ar_handler v) s' in
  ar_arg_reason s3 = match v with AUndefined => 0x9300 | ADataAbort => 0x9200 | APrefetchAbort => 0x9100 end /\
  ar_core_regs s3 = ar_expected pc s.
Proof. exact ar_captures. Qed.
Print Assumptions C74_armv7_a_r_registers.
(** A crash at 0x8100 and the state at the entry of the handler. *)
Definition ex_ar (cpsr : Z) : ar :=
  mk_ar (fun i => 0x200 + i) (fun fiq i => (if fiq then 0x300 else 0x400) + i) (fun m => 0x10000 + 0x1000 * m) (fun m => 0x500 + m) (fun m => 0x600 + m) cpsr false (fun _ => 0).
Definition ex_ar_taken (v : ar_vector) (s : ar) : ar :=
  mk_ar (ar_lo s) (ar_hi s) (ar_sp s) (fun b => if b =? ar_target v then u32 (0x8100 + ar_offset v (Z.testbit (ar_cpsr s) 5)) else ar_lr s b)
        (fun b => if b =? ar_target v then ar_cpsr s else ar_spsr s b) (ar_target v + 0x1c0) true (ar_mem s).
Lemma ex_ar_ok v cpsr : is_u32 cpsr -> ar_ok v 0x8100 (ex_ar cpsr) /\ ar_taken v 0x8100 (ex_ar cpsr) (ex_ar_taken v (ex_ar cpsr)).
Proof.
  intros C. split.
  - split; [unfold is_u32; lia|]. split; [exact C|]. destruct v; cbn; lia.
  - unfold ar_taken. cbv zeta. repeat (split; [reflexivity|]). split; [destruct v; vm_compute; split; [discriminate|reflexivity| discriminate|reflexivity| discriminate|reflexivity]|].
    split; [destruct v; reflexivity|]. split; reflexivity.
Qed.
Example C74_case_a_r : (* an undefined Thumb instruction in FIQ mode *)
  ar_ok AUndefined 0x8100 (ex_ar 0x31) /\ ar_taken AUndefined 0x8100 (ex_ar 0x31) (ex_ar_taken AUndefined (ex_ar 0x31)) /\
  ar_core_regs (ar_exec (ar_handler AUndefined) (ex_ar_taken AUndefined (ex_ar 0x31))) =
    [0x200; 0x201; 0x202; 0x203; 0x204; 0x205; 0x206; 0x207; 0x308; 0x309; 0x30a; 0x30b; 0x30c; 0x10000 + 0x11000; 0x511; 0x8100; 0x31].
Proof. destruct (ex_ar_ok AUndefined 0x31 ltac:(unfold is_u32; lia)) as (A & B). split; [exact A|]. split; [exact B|]. vm_compute. reflexivity. Qed.
(** A data abort in abort mode (in the handler of another abort): sp and lr are not those at the crash. *)
Theorem C74_nested_abort_registers_refuted :
  ~ (forall v pc s s', ar_ok v pc s -> 16 <= ar_mode s -> ar_taken v pc s s' -> ar_core_regs (ar_exec (ar_handler v) s') = ar_expected pc s).
Proof.
  intros H. destruct (ex_ar_ok ADataAbort 0x17 ltac:(unfold is_u32; lia)) as (A & B).
  specialize (H ADataAbort 0x8100 _ _ A ltac:(vm_compute; discriminate) B). vm_compute in H. discriminate H.
Qed.
Print Assumptions C74_nested_abort_registers_refuted.

(** ** C75 *)
(** No sequence of asserts, faults and faults within faults makes a handler write outside the storage or
    go wrong otherwise. *)
Theorem C75_handlers_complete : forall a ops t st, arch_ok a -> zlen st < 4294967296 -> Forall (fh_op_ok a (zlen st)) ops ->
  exists bs s', fh_run a (mk_fh 0 t st) ops = Some (bs, s') /\ zlen bs = zlen ops /\ zlen (fh_st s') = zlen st.
Proof.
  intros a [|o ops] t st A L F; [exists [], (mk_fh 0 t st); repeat split|].
  destruct (run_ok a o ops (mk_fh 0 t st) A L F eq_refl) as (bs & s' & E & LB & LS & _). exists bs, s'. now repeat split.
Qed.
Print Assumptions C75_handlers_complete.
(** After the reset, reboot tracking has the first of them: its reason, pc and lr (unless an earlier
    reason was not yet collected), and whether any coredump was saved. *)
Theorem C75_first_crash_is_reported : forall a m before rs v t st o ops bs s' info,
  arch_ok a -> rinfo_ok m -> Forall rt_op_ok before -> rv_run (start m) before = Some (rs, v) -> r_up v = true ->
  rt_run (mk_rt false m None) before = Some (rs, t) -> zlen st < 4294967296 -> Forall (fh_op_ok a (zlen st)) (o :: ops) ->
  match info with Some (r, _) => is_u16 r | None => True end ->
  fh_run a (mk_fh 0 t st) (o :: ops) = Some (bs, s') ->
  exists t', rt_run (fh_rt s') [TReset None; TBoot true None info; TRead] =
    Some ([TOk; TOk; TInfo (Some (let '(r, pc, lr) := match k_first (r_k v) with Some f => (f, RebootSpec.k_pc (r_k v), RebootSpec.k_lr (r_k v)) | None => cause a o end in
       mk_ri r pc lr (match info with Some (_, reg) => reg | None => k_reg (r_k v) end)
             (if k_cd (r_k v) || existsb (fun b => b) bs then 1 else 0)))], t').
Proof. exact report_ok. Qed.
Print Assumptions C75_first_crash_is_reported.
(** The coredump found is of the fault whose coredump was saved: its registers, its memory, and the
    reason of the first crash; later faults save none and leave it alone. *)
Theorem C75_coredump_is_of_the_fault : forall a t st pre f post bs s' o b rd e er,
  arch_ok a -> zlen st < 4294967296 -> Forall (fh_op_ok a (zlen st)) (pre ++ FFault f :: post) -> ce_cpus (f_env f) = cpus a ->
  f_plat f = mk_cplat b rd e er (fun _ => None) ->
  fh_run a (mk_fh 0 t st) (pre ++ FFault f :: post) = Some (bs, s') -> get bs (zlen pre) = Some true ->
  hd_error (pre ++ FFault f :: post) = Some o ->
  (exists full, dump_of a f (fst (fst (cause a o))) full (fh_st s')) /\ Forall (eq false) (drop (zlen pre + 1) bs).
Proof. exact dump_kept. Qed.
Print Assumptions C75_coredump_is_of_the_fault.

Definition ex_env : cenv := mk_cenv 1 None (Some [83; 49]) None None None 40 [] [].
Definition ex_fault (reason : Z) : fault :=
  mk_fault (map (fun i => 0x100 + i) (zrange 19)) reason (mk_cplat true true true 0xff (fun _ => None)) ex_env
    (fun sp r => [RgMemory 0 sp [1; 2; 3; 4; 5; 6; 7; 8]]).
Lemma ex_fault_ok reason : is_u16 reason -> reason <> 0 -> fault_ok CortexM (ex_fault reason).
Proof.
  intros A B. split; [reflexivity|]. split; [|split; [exact A|split; [exact B|]]].
  - change (f_words (ex_fault reason)) with (map (fun i => 0x100 + i) (zrange 19)). apply Forall_forall. intros x X. apply in_map_iff in X.
    destruct X as (i & <- & X). unfold zrange in X. apply in_map_iff in X. destruct X as (n & <- & X). apply in_seq in X. unfold word_ok. cbn [width]. change (2 ^ (8 * 4)) with 4294967296. lia.
  - intros r R. unfold is_u16 in R. unfold dump_ok. split; [cbn; lia|]. split; [cbn; unfold is_u32; lia|]. split; [cbn; unfold is_u32; lia|].
    split; [exact eq_refl|]. split; [repeat (apply Forall_cons; [exact eq_refl || exact I|]); apply Forall_nil|].
    apply Forall_cons; [|apply Forall_nil]. split; [vm_compute; split; [discriminate|reflexivity]|vm_compute; reflexivity].
Qed.
Definition ex_boot : rt := mk_rt true fresh None.
(** An assert, the fault it traps into, torn by another fault, then a third whose coredump is saved; a
    fourth finds it there. *)
Definition ex_story : list fh_op :=
  [FAssert 0x8001 0x8000100 0x8000200; FTorn (ex_fault 0x9400) (fill 300 7); FFault (ex_fault 0x9100); FFault (ex_fault 0x8004)].
Example C75_case : Forall (fh_op_ok CortexM 300) ex_story /\
  match fh_run CortexM (mk_fh 0 ex_boot (fill 300 0)) ex_story with
  | Some (bs, s') => bs = [false; false; true; false] /\
      match rt_run (fh_rt s') [TReset None; TBoot true None (Some (1, 77)); TRead] with
      | Some (res, _) => res = [TOk; TOk; TInfo (Some (mk_ri 0x8001 0x8000100 0x8000200 77 1))]
      | None => False end /\
      match parse_dump (take 196 (fh_st s')) with
      | Some (b, flags) => flags = 0 /\ map (fun b => le (d_data b)) (of_type 5 (content_blocks b)) = [0x8001]
      | None => False end
  | None => False end.
Proof.
  split; [|vm_compute; repeat split].
  repeat (apply Forall_cons; [first [(cbn; unfold is_u16; lia) | (apply ex_fault_ok; unfold is_u16; lia) | (split; [apply ex_fault_ok; unfold is_u16; lia|reflexivity])]|]).
  apply Forall_nil.
Qed.
(** An assert with reason Unknown does not stick in the fault handler but does in reboot tracking: the
    coredump has another reason than the one reported. *)
Theorem C75_unknown_assert_reason_agrees_refuted :
  ~ (forall r pc lr f t st bs s' t' info, is_u16 r -> fault_ok CortexM f -> zlen st < 4294967296 -> ce_cpus (f_env f) = 1 ->
     f_plat f = mk_cplat true true true 0xff (fun _ => None) ->
     fh_run CortexM (mk_fh 0 t st) [FAssert r pc lr; FFault f] = Some (bs, s') -> get bs 1 = Some true ->
     rt_run (fh_rt s') [TReset None; TBoot true None None; TRead] = Some ([TOk; TOk; TInfo (Some info)], t') ->
     exists full, dump_of CortexM f (ri_reason info) full (fh_st s')).
Proof.
  intros H. specialize (H 0 0x8000100 0x8000200 (ex_fault 0x9400) ex_boot (fill 300 0)).
  destruct (fh_run CortexM (mk_fh 0 ex_boot (fill 300 0)) [FAssert 0 0x8000100 0x8000200; FFault (ex_fault 0x9400)]) as [[bs s']|] eqn:E; [|vm_compute in E; discriminate E].
  vm_compute in E. injection E as <- <-.
  edestruct H as (full & img & blocks & V & R & P & D); [unfold is_u16; lia|apply ex_fault_ok; unfold is_u16; lia|reflexivity|reflexivity|reflexivity|reflexivity|reflexivity|
    vm_compute; reflexivity|].
  clear H. assert (L : Some (zlen img) = Some 196) by (rewrite <- V; vm_compute; reflexivity). injection L as L. rewrite L in R. vm_compute in R. injection R as <-.
  vm_compute in P. injection P as <- _. destruct D as (_ & D & _). vm_compute in D. discriminate D.
Qed.
Print Assumptions C75_unknown_assert_reason_agrees_refuted.

(** ** C76 *)
(** The check made at boot is exact: when it passes, a coredump at a crash is complete; when it fails,
    it is truncated.  What may differ between the two moments are contents. *)
Theorem C76_check_passed_means_complete : forall a env regions sp f t st er, arch_ok a -> fault_ok a f -> zlen st < 4294967296 -> ce_cpus (f_env f) = cpus a ->
  f_plat f = mk_cplat true true true er (fun _ => None) -> same_env env (f_env f) ->
  Forall2 same_shape (regions sp 0x8000) (f_regions f (stack_of a (f_words f)) (f_reason f)) -> regions sp 0x8000 <> [] ->
  size_needed (f_env f) (to_save a f (reg_bytes a (f_words f)) (f_reason f)) < 4294967296 -> cd_has_valid true st = None ->
  fh_check_size a env regions sp st = true ->
  exists s', fh_step a (mk_fh 0 t st) (FFault f) = Some (true, s') /\ dump_of a f (f_reason f) true (fh_st s').
Proof. exact check_complete. Qed.
Print Assumptions C76_check_passed_means_complete.
Theorem C76_check_failed_means_truncated : forall a env regions sp f t st s' b rd e er, arch_ok a -> fault_ok a f -> zlen st < 4294967296 -> ce_cpus (f_env f) = cpus a ->
  f_plat f = mk_cplat b rd e er (fun _ => None) -> same_env env (f_env f) ->
  Forall2 same_shape (regions sp 0x8000) (f_regions f (stack_of a (f_words f)) (f_reason f)) -> regions sp 0x8000 <> [] ->
  size_needed (f_env f) (to_save a f (reg_bytes a (f_words f)) (f_reason f)) < 4294967296 ->
  fh_check_size a env regions sp st = false ->
  fh_step a (mk_fh 0 t st) (FFault f) = Some (true, s') -> dump_of a f (f_reason f) false (fh_st s').
Proof. exact check_fails. Qed.
Print Assumptions C76_check_failed_means_truncated.
Example C76_case :
  fh_check_size CortexM ex_env (f_regions (ex_fault 0x9400)) 0x20001000 (fill 196 0) = true /\
  fh_check_size CortexM ex_env (f_regions (ex_fault 0x9400)) 0x20001000 (fill 195 0) = false /\
  size_needed (f_env (ex_fault 0x9400)) (to_save CortexM (ex_fault 0x9400) (reg_bytes CortexM (f_words (ex_fault 0x9400))) 0x9400) = 196.
Proof. vm_compute. repeat split. Qed.
(** With the cached fault registers of Cortex-M the check, made before anything was cached, leaves them
    out: it passes and the coredump is truncated. *)
Theorem C76_check_with_cached_registers_refuted :
  ~ (forall cfg low mpu_at h h' l s1 x s2 l' s3 env f sp t st er, acfg_ok cfg ->
     ac_step cfg low mpu_at (ac_start cfg) (ARegions h) = Some (l, s1) -> ac_step cfg low mpu_at s1 (ACache h') = Some (x, s2) ->
     ac_step cfg low mpu_at s2 (ARegions h') = Some (l', s3) ->
     fault_ok CortexM f -> zlen st < 4294967296 -> ce_cpus (f_env f) = 1 -> f_plat f = mk_cplat true true true er (fun _ => None) ->
     f_env f = mk_cenv (ce_cpus env) (ce_build env) (ce_serial env) (ce_swver env) (ce_swtype env) (ce_hwver env) (ce_machine env) l' (ce_sdk env) ->
     ce_arch env = l -> f_regions f sp 0x8000 <> [] ->
     Forall2 same_shape (f_regions f sp 0x8000) (f_regions f (stack_of CortexM (f_words f)) (f_reason f)) -> cd_has_valid true st = None ->
     fh_check_size CortexM env (f_regions f) sp st = true ->
     exists s', fh_step CortexM (mk_fh 0 t st) (FFault f) = Some (true, s') /\ dump_of CortexM f (f_reason f) true (fh_st s')).
Proof.
  intros H. set (h := mk_scs (fun a => a mod 1000) (fun _ => (0, 0)) 0).
  set (cfg := mk_acfg true true None None).
  destruct (ac_step cfg (fun _ => 0) 0x20000000 (ac_start cfg) (ARegions h)) as [[l1 s1]|] eqn:E1; [|vm_compute in E1; discriminate E1].
  destruct (ac_step cfg (fun _ => 0) 0x20000000 s1 (ACache h)) as [[x s2]|] eqn:E2; [|vm_compute in E1; injection E1 as <- <-; vm_compute in E2; discriminate E2].
  destruct (ac_step cfg (fun _ => 0) 0x20000000 s2 (ARegions h)) as [[l2 s3]|] eqn:E3;
    [|vm_compute in E1; injection E1 as <- <-; vm_compute in E2; injection E2 as <- <-; vm_compute in E3; discriminate E3].
  set (f0 := ex_fault 0x9400).
  specialize (H cfg (fun _ => 0) 0x20000000 h h l1 s1 x s2 l2 s3
    (mk_cenv 1 None (Some [83; 49]) None None None 40 l1 [])
    (mk_fault (f_words f0) 0x9400 (f_plat f0) (mk_cenv 1 None (Some [83; 49]) None None None 40 l2 []) (f_regions f0)) 0x20001000 ex_boot (fill 210 0) 0xff).
  pose proof E1 as F1. pose proof E2 as F2. pose proof E3 as F3.
  vm_compute in F1. injection F1 as Q1 Q2. subst l1 s1. vm_compute in F2. injection F2 as Q1 Q2. subst x s2. vm_compute in F3. injection F3 as Q1 Q2. subst l2 s3.
  edestruct H as (s' & E & img & blocks & V & R & P & _); [split; exact I|exact E1|exact E2|exact E3| |reflexivity|reflexivity|reflexivity|reflexivity|reflexivity|discriminate| |reflexivity|vm_compute; reflexivity|].
  - destruct (ex_fault_ok 0x9400 ltac:(unfold is_u16; lia) ltac:(lia)) as (A & B & C1 & D & F).
    split; [exact A|]. split; [exact B|]. split; [exact C1|]. split; [exact D|]. intros r R. specialize (F r R).
    destruct F as (G1 & G2 & G3 & G4 & G5 & G6). repeat (split; [assumption|]).
    cbn [f_env ce_arch ce_sdk]. apply Forall_app. split; [apply Forall_cons; [vm_compute; repeat split; discriminate|apply Forall_nil]|exact G6].
  - apply Forall2_cons; [split; [reflexivity|]|apply Forall2_nil]. split; intros Q; vm_compute in Q; discriminate Q.
  - clear H. vm_compute in E. injection E as <-. assert (L : exists n, Some (zlen img) = Some n /\ n = 208) by (eexists; split; [symmetry; exact V|vm_compute; reflexivity]). destruct L as (n & L & ->). injection L as L. rewrite L in R. vm_compute in R. injection R as <-.
    vm_compute in P. discriminate P.
Qed.
Print Assumptions C76_check_with_cached_registers_refuted.
