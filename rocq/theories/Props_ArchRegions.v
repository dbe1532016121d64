(** C77: what every coredump has of the processor and the SDK besides the platform's regions. *)
From Verif Require Import Base Crc16 Crc16Spec Coredump CoredumpSpec ArchRegions ArchRegionsSpec ArchRegionsProofs.
Local Open Scope Z_scope.

(** However often the regions were asked for and the fault registers cached before, the blocks saved are
    the registers of the manual with their values: the fault registers of when they were last cached (or
    now), and each MPU region under its own number; registers are read as whole words. *)
Theorem C77_processor_registers : forall cfg low mpu_at t ops h, acfg_ok cfg -> mpu_at <> 0 -> a_fault cfg = true \/ low_word low 0 = 0 ->
  Forall (of_type_mpu t) ops -> mpu_type h = t ->
  exists s l s', ac_run cfg low mpu_at (ac_start cfg) ops = Some s /\ ac_step cfg low mpu_at s (ARegions h) = Some (l, s') /\
    flat_map region_block l = arch_expected cfg mpu_at h (last_cached ops) /\ Forall whole_words l.
Proof. exact arch_regions_ok. Qed.
Print Assumptions C77_processor_registers.
Definition ex_scs (k : Z) : scs := mk_scs (fun a => if a =? 0xE000ED90 then 0x800 else a + k) (fun i => (0x1000 + i, 0x2000 + i + k)) 3.
Example C77_case :
  let cfg := mk_acfg true true None (Some 3) in
  acfg_ok cfg /\ Forall (of_type_mpu 0x800) [ACache (ex_scs 1); ARegions (ex_scs 2)] /\
  match ac_run cfg (fun _ => 9) 0x20000400 (ac_start cfg) [ACache (ex_scs 1); ARegions (ex_scs 2)] with
  | Some s => match ac_step cfg (fun _ => 9) 0x20000400 s (ARegions (ex_scs 5)) with
      | Some (l, _) => map (fun b => (d_type b, d_addr b, zlen (d_data b), take 8 (d_data b))) (flat_map region_block l) =
           [(1, 0xE000ED24, 28, [0x25; 0xED; 0; 0xE0; 0x29; 0xED; 0; 0xE0]); (9, 0x20000400, 32, [0; 8; 0; 0; 0x99; 0xED; 0; 0xE0])]
      | None => False end
  | None => False end.
Proof. split; [split; cbn; lia|]. split; [repeat constructor|]. vm_compute. reflexivity. Qed.
(** With MEMFAULT_COLLECT_FAULT_REGS 0 the memory at address 0 (the vector table) is taken for a cached
    block: a block of as many bytes as the address of the NMI handler is saved. *)
Theorem C77_fault_registers_not_collected_refuted :
  ~ (forall cfg low mpu_at t h, acfg_ok cfg -> mpu_at <> 0 -> (forall a, is_u8 (low a)) -> mpu_type h = t ->
     exists l s', ac_step cfg low mpu_at (ac_start cfg) (ARegions h) = Some (l, s') /\
       flat_map region_block l = arch_expected cfg mpu_at h None).
Proof.
  intros H.
  destruct (H (mk_acfg false false None None) (fun a => match get [0; 16; 0; 32; 65; 1; 0; 0; 1; 1; 0; 0] a with Some v => v | None => 0xff end) 1 0 (mk_scs (fun _ => 0) (fun _ => (0, 0)) 0))
    as (l & s' & E & B); [split; exact I|lia| |reflexivity|].
  - intros a. destruct (get [0; 16; 0; 32; 65; 1; 0; 0; 1; 1; 0; 0] a) eqn:G; [|unfold is_u8; lia].
    assert (F : Forall is_u8 [0; 16; 0; 32; 65; 1; 0; 0; 1; 1; 0; 0]) by (repeat (apply Forall_cons; [unfold is_u8; lia|]); apply Forall_nil).
    rewrite Forall_forall in F. apply F. unfold get in G. destruct (a <? 0); [discriminate|]. exact (nth_error_In _ _ G).
  - vm_compute in E. injection E as <- <-. vm_compute in B. discriminate B.
Qed.
Print Assumptions C77_fault_registers_not_collected_refuted.

(** The list of the SDK's regions holds exactly what is configured and there, and is never longer than
    its array. *)
Theorem C77_sdk_regions : forall cfg at_ size l heap h1 h2 watchdog,
  sdk_regions cfg (log_get_regions at_ size l) heap h1 h2 watchdog = Some (sdk_expected cfg (log_get_regions at_ size l) heap h1 h2 watchdog).
Proof. exact sdk_regions_ok. Qed.
Print Assumptions C77_sdk_regions.
(** Once the log is up, its regions are the logger and its storage. *)
Theorem C77_log_regions : forall at_ size l storage len, storage <> 0 -> len <> 0 -> li_enabled l = false ->
  exists l', log_boot_info l storage len = Some l' /\ log_get_regions at_ size l' = Some [(at_, size); (storage, len)].
Proof. exact log_boot_regions. Qed.
Print Assumptions C77_log_regions.
(** When address and length were damaged within 16 consecutive bits, they are not used. *)
Theorem C77_damaged_log_not_collected : forall at_ size l storage len l' storage' len' pre x y post, log_boot_info l storage len = Some l' ->
  bits_of (cd_le32 storage ++ cd_le32 len) = pre ++ x ++ post -> bits_of (cd_le32 storage' ++ cd_le32 len') = pre ++ y ++ post ->
  zlen x = zlen y -> zlen x <= 16 -> x <> y ->
  log_get_regions at_ size (mk_li true storage' len' (li_crc l')) = None.
Proof. exact log_damaged. Qed.
Print Assumptions C77_damaged_log_not_collected.
Example C77_case_log :
  match log_boot_info (mk_li false 0 0 0) 0x20001000 1024 with
  | Some l => log_get_regions 0x20000200 52 l = Some [(0x20000200, 52); (0x20001000, 1024)] /\
              log_get_regions 0x20000200 52 (mk_li true 0x20001000 1280 (li_crc l)) = None /\
              sdk_regions (mk_sdk true true true) (log_get_regions 0x20000200 52 l) true (1, 2) (3, 4) (5, 6) = Some [(0x20000200, 52); (0x20001000, 1024); (1, 2); (3, 4); (5, 6)]
  | None => False end.
Proof. vm_compute. repeat split. Qed.
