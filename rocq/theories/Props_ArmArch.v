(** C119: whether code runs in an interrupt, and which faults are configurable. *)
From Verif Require Import Base ArmArch ArmArchSpec.

Lemma land_ones x n : 0 <= n -> Z.land x (2 ^ n - 1) = x mod 2 ^ n.
Proof. intros H. rewrite <- Z.land_ones by lia. f_equal. rewrite Z.ones_equiv. lia. Qed.

(** Cortex-M, for every content of the register but one exception number: an interrupt is recognised as
    one, and nothing else is. *)
Theorem C119_cortex_m : forall icsr, is_u32 icsr -> exception icsr <> 256 ->
  (m_inside_isr icsr = true <-> exception icsr <> 0).
Proof.
  intros r H N. unfold m_inside_isr, exception, field in *. change 255 with (2 ^ 8 - 1). rewrite land_ones by lia.
  change (2 ^ 0) with 1 in *. rewrite Z.div_1_r in *. change (2 ^ 8) with 256. change (2 ^ 9) with 512 in *.
  rewrite negb_true_iff, Z.eqb_neq. Z.to_euclidean_division_equations; lia.
Qed.
Print Assumptions C119_cortex_m.

(** The register has nine bits for the number, M:18-19 looks at eight: in interrupt 240, number 256, code
    seems not to be in an interrupt. *)
Theorem C119_interrupt_240_refuted : forall icsr, exception icsr = 256 -> m_inside_isr icsr = false.
Proof.
  intros r N. unfold m_inside_isr, exception, field in *. change 255 with (2 ^ 8 - 1). rewrite land_ones by lia.
  change (2 ^ 0) with 1 in *. rewrite Z.div_1_r in *. change (2 ^ 8) with 256. change (2 ^ 9) with 512 in *.
  rewrite negb_false_iff, Z.eqb_eq. Z.to_euclidean_division_equations; lia.
Qed.
Print Assumptions C119_interrupt_240_refuted.

(** The faults of memory, bus, usage and security, bits 16 to 19, are off afterwards; nothing else of the
    register changes. *)
Theorem C119_faults_off : forall shcsr, is_u32 shcsr ->
  is_u32 (m_disable_faults shcsr) /\
  forall k, 0 <= k < 32 -> Z.testbit (m_disable_faults shcsr) k = Z.testbit shcsr k && negb ((16 <=? k) && (k <=? 19)).
Proof.
  intros r H. unfold is_u32, m_disable_faults in *. split.
  - split; [apply Z.land_nonneg; lia|].
    pose proof (Z.land_nonneg r (4294967295 - 983040)).
    assert (E : Z.land r (4294967295 - 983040) = Z.land (Z.land r (4294967295 - 983040)) (2 ^ 32 - 1)).
    { rewrite <- Z.land_assoc. reflexivity. }
    rewrite E, land_ones by lia. apply Z.mod_pos_bound. reflexivity.
  - intros k K. rewrite Z.land_spec. f_equal.
    assert (C : forall n : nat, (n < 32)%nat -> Z.testbit (4294967295 - 983040) (Z.of_nat n) = negb ((16 <=? Z.of_nat n) && (Z.of_nat n <=? 19))).
    { intros n L. do 32 (destruct n as [|n]; [reflexivity|]). lia. }
    rewrite <- (Z2Nat.id k) by lia. apply C. lia.
Qed.
Print Assumptions C119_faults_off.

(** There is a breakpoint if and only if C_DEBUGEN, bit 0, is set. *)
Theorem C119_halt : forall dhcsr, m_halts dhcsr = Z.testbit dhcsr 0.
Proof.
  intros r. unfold m_halts. change 1 with (2 ^ 1 - 1) at 1. rewrite land_ones by lia. change (2 ^ 1) with 2.
  rewrite Z.bit0_odd, Zmod_odd. now destruct (Z.odd r).
Qed.
Print Assumptions C119_halt.

(** ARMv7-A and -R: in every mode an interrupt is taken to, code is in an interrupt; in user and system
    mode, and as it is the mode of tasks of an RTOS, in supervisor mode, it is not; in all others it is. *)
Theorem C119_armv7_a_r : forall cpsr m, in_mode cpsr m ->
  (interrupt_mode m -> a_inside_isr cpsr = true) /\
  (a_inside_isr cpsr = false <-> m = User \/ m = System \/ m = Supervisor).
Proof.
  intros r m H. unfold in_mode, field in H. change (2 ^ 0) with 1 in H. rewrite Z.div_1_r in H.
  assert (E : Z.land r 31 = mode_bits m) by (change 31 with (2 ^ 5 - 1); rewrite land_ones by lia; exact H).
  unfold a_inside_isr. rewrite E.
  split; [intros [-> | ->]; reflexivity|].
  destruct m; cbn; split; intros X; auto; try discriminate; destruct X as [X|[X|X]]; discriminate.
Qed.
Print Assumptions C119_armv7_a_r.

(** A:44-45 "All other modes are exception/interrupt modes": supervisor mode is entered by an exception,
    and counted as none. *)
Theorem C119_other_modes_refuted : exception_mode Supervisor /\ forall cpsr, in_mode cpsr Supervisor -> a_inside_isr cpsr = false.
Proof. split; [split; discriminate|]. intros r H. apply (C119_armv7_a_r r Supervisor H). auto. Qed.
Print Assumptions C119_other_modes_refuted.

Example C119_case :
  m_inside_isr 4194306 = true /\ m_inside_isr 2048 = false /\ m_disable_faults 4294967295 = 4293984255 /\
  a_inside_isr 1610613138 = true /\ a_inside_isr 1610613151 = false.
Proof. repeat split. Qed.
