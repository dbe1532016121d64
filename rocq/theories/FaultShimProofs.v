(** Proofs about the exception entry code. *)
From Verif Require Import Base FaultShim FaultShimSpec.

Lemma fset_same f i v : fset f i v i = v.
Proof. unfold fset. now rewrite Z.eqb_refl. Qed.
Lemma fset_other f i j v : i <> j -> fset f i v j = f j.
Proof. intros H. unfold fset. destruct (j =? i) eqn:E; [lia|reflexivity]. Qed.

Lemma mstore_out l : forall m a x, 0 <= a -> a + 4 * zlen l <= 4294967296 -> x < a \/ a + 4 * zlen l <= x -> mstore m a l x = m x.
Proof.
  induction l as [|v l IH]; intros m a x HA HB H; [reflexivity|].
  cbn [mstore]. rewrite zlen_cons in *. pose proof (zlen_nonneg l) as HL.
  destruct l as [|w l].
  - cbn [mstore]. unfold mset. rewrite zlen_nil in *. destruct (x =? a) eqn:E; [lia|reflexivity].
  - rewrite zlen_cons in *. pose proof (zlen_nonneg l). rewrite u32_id by (unfold is_u32; lia).
    rewrite IH by lia. unfold mset. destruct (x =? a) eqn:E; [lia|reflexivity].
Qed.
Lemma mstore_in l : forall m a i v, 0 <= a -> a + 4 * zlen l <= 4294967296 -> get l i = Some v -> mstore m a l (a + 4 * i) = v.
Proof.
  induction l as [|w l IH]; intros m a i v HA HB H; [pose proof (get_range _ _ _ H) as R; unfold zlen in R; cbn [length] in R; lia|].
  pose proof (get_range _ _ _ H) as R. rewrite zlen_cons in R, HB. pose proof (zlen_nonneg l) as HL. cbn [mstore].
  destruct (Z.eq_dec i 0) as [->|N].
  - rewrite get_cons_0 in H. inv H.
    destruct l as [|x l]; [cbn [mstore]; unfold mset; replace (a + 4 * 0 =? a) with true by lia; reflexivity|].
    rewrite zlen_cons in *. pose proof (zlen_nonneg l). rewrite u32_id by (unfold is_u32; lia).
    rewrite mstore_out by (rewrite ?zlen_cons; lia). unfold mset. replace (a + 4 * 0 =? a) with true by lia. reflexivity.
  - assert (H' : get l (i - 1) = Some v).
    { rewrite <- H. change (w :: l) with ([w] ++ l). symmetry. rewrite get_app2; [reflexivity|]. change (zlen [w]) with 1. lia. }
    rewrite u32_id by (unfold is_u32; lia). replace (a + 4 * i) with (a + 4 + 4 * (i - 1)) by lia.
    apply IH; [lia| |exact H']. lia.
Qed.

Lemma land_pow2 x n : 0 <= n -> (Z.land x (2 ^ n) =? 0) = negb (Z.testbit x n).
Proof.
  intros HN. destruct (Z.testbit x n) eqn:B; cbn [negb].
  - apply Z.eqb_neq. intros E. assert (F : Z.testbit (Z.land x (2 ^ n)) n = true) by (rewrite Z.land_spec, B, Z.pow2_bits_true by lia; reflexivity).
    rewrite E, Z.bits_0 in F. discriminate.
  - apply Z.eqb_eq. apply Z.bits_inj'. intros m HM. rewrite Z.land_spec, Z.bits_0, Z.pow2_bits_eqb by lia.
    destruct (Z.eqb_spec n m) as [<-|E]; [rewrite B; reflexivity|apply andb_false_r].
Qed.
Lemma bit_mod x n : 0 <= n -> Z.testbit x n = ((x / 2 ^ n) mod 2 =? 1).
Proof. intros HN. rewrite <- Z.testbit_spec' by lia. destruct (Z.testbit x n); reflexivity. Qed.
(** Clearing bit 2. *)
Lemma clear_bit2 x : Z.land x (Z.lnot 4) = if Z.testbit x 2 then x - 4 else x.
Proof.
  rewrite <- Z.ldiff_land. destruct (Z.testbit x 2) eqn:B.
  - symmetry. apply Z.sub_nocarry_ldiff. apply Z.bits_inj'. intros m HM. rewrite Z.ldiff_spec, Z.bits_0.
    change 4 with (2 ^ 2). rewrite Z.pow2_bits_eqb by lia. destruct (Z.eqb_spec 2 m) as [<-|E]; [rewrite B; reflexivity|reflexivity].
  - apply Z.bits_inj'. intros m HM. rewrite Z.ldiff_spec. change 4 with (2 ^ 2). rewrite Z.pow2_bits_eqb by lia.
    destruct (Z.eqb_spec 2 m) as [<-|E]; [rewrite B; reflexivity|apply andb_true_r].
Qed.

(** ** Cortex-M *)
Section CM.
Variable k : cm_crash.
Hypothesis OK : cm_ok k.

Lemma bit2_frame : Z.testbit (k_sp k - framesize k) 2 = Z.testbit (k_sp k) 2.
Proof.
  rewrite !bit_mod by lia. unfold framesize. change (2 ^ 2) with 4. destruct (k_fp k).
  - replace (k_sp k - 104) with (k_sp k + (-26) * 4) by lia. rewrite Z.div_add by lia. replace (k_sp k / 4 + -26) with (k_sp k / 4 + (-13) * 2) by lia. now rewrite Z.mod_add by lia.
  - replace (k_sp k - 32) with (k_sp k + (-8) * 4) by lia. rewrite Z.div_add by lia. replace (k_sp k / 4 + -8) with (k_sp k / 4 + (-4) * 2) by lia. now rewrite Z.mod_add by lia.
Qed.
Lemma frameptr_eq : frameptr k = k_sp k - framesize k - (if frameptralign k then 4 else 0).
Proof.
  unfold frameptr, frameptralign. destruct (forcealign k) eqn:F.
  - rewrite clear_bit2, bit2_frame, andb_true_r. destruct (Z.testbit (k_sp k) 2); lia.
  - rewrite andb_false_r. rewrite Z.lnot_0, Z.land_m1_r. lia.
Qed.
Lemma psr_bit9 : (Z.land (stacked_psr k) 512 =? 0) = negb (frameptralign k).
Proof.
  change 512 with (2 ^ 9). rewrite land_pow2 by lia. f_equal. rewrite bit_mod by lia. change (2 ^ 9) with 512. unfold stacked_psr.
  pose proof (Z.mod_pos_bound (k_xpsr k) 512). destruct (frameptralign k).
  - replace (k_xpsr k / 1024 * 1024 + 512 + k_xpsr k mod 512) with (k_xpsr k mod 512 + (k_xpsr k / 1024 * 2 + 1) * 512) by lia.
    rewrite Z.div_add by lia. rewrite (Z.div_small (k_xpsr k mod 512)) by lia. replace (0 + (k_xpsr k / 1024 * 2 + 1)) with (1 + (k_xpsr k / 1024) * 2) by lia.
    now rewrite Z.mod_add by lia.
  - replace (k_xpsr k / 1024 * 1024 + 0 + k_xpsr k mod 512) with (k_xpsr k mod 512 + (k_xpsr k / 1024 * 2) * 512) by lia.
    rewrite Z.div_add by lia. rewrite (Z.div_small (k_xpsr k mod 512)) by lia. replace (0 + (k_xpsr k / 1024 * 2)) with (0 + (k_xpsr k / 1024) * 2) by lia.
    now rewrite Z.mod_add by lia.
Qed.
Lemma ret_fp : (Z.land (exc_return k) 16 =? 0) = k_fp k.
Proof. unfold exc_return. destruct (k_handler k), (k_spsel k), (k_fp k); reflexivity. Qed.
Lemma ret_main : (Z.land (exc_return k) 4 =? 0) = negb (uses_psp k).
Proof. unfold exc_return, uses_psp. destruct (k_handler k), (k_spsel k), (k_fp k); reflexivity. Qed.
Lemma sp_range : is_u32 (k_sp k).
Proof. unfold k_sp. destruct OK as (A & B & _). destruct (uses_psp k); assumption. Qed.

(** What the shims have in common: a block of ten words below the main stack pointer. *)
Definition block : list Z :=
  [frameptr k; k_r k 4; k_r k 5; k_r k 6; k_r k 7; k_r k 8; k_r k 9; k_r k 10; k_r k 11; exc_return k].
Lemma captured s0 s depth :
  cm_taken k s0 -> cm_r s 0 = cm_msp s0 - 40 -> cm_msp s = cm_msp s0 - 40 -> cm_psp s = cm_psp s0 ->
  (forall i v, get block i = Some v -> cm_mem s (cm_msp s0 - 40 + 4 * i) = v) ->
  (forall a, a < cm_msp s0 - 40 \/ cm_msp s0 <= a -> cm_mem s a = cm_mem s0 a) ->
  cm_core_regs depth s = cm_expected k (if uses_psp k then u32 (k_msp k - 40 - depth) else k_msp k) (k_psp k).
Proof.
  intros (TM & TP & _ & _ & TF & _) R0 SM SP BL OUT.
  destruct OK as (HM & HP & HX & AM & AP & F0 & F40 & DJ). pose proof sp_range as SR.
  assert (FS : 32 <= framesize k <= 104) by (unfold framesize; destruct (k_fp k); lia).
  assert (FE : frameptr k + framesize k <= 4294967296) by (rewrite frameptr_eq; unfold is_u32 in SR; destruct (frameptralign k); lia).
  assert (FB : cm_msp s0 <= 4294967296) by (rewrite TM; unfold is_u32 in *; destruct (uses_psp k); lia).
  assert (F40' : 40 <= cm_msp s0) by (rewrite TM; exact F40).
  assert (B : forall i v, get block i = Some v -> 0 <= i < 10 -> cm_mem s (u32 (cm_r s 0 + 4 * i)) = v).
  { intros i v G R. rewrite R0, u32_id by (unfold is_u32; lia). now apply BL. }
  assert (E0 : cm_mem s (cm_r s 0) = frameptr k).
  { rewrite R0. replace (cm_msp s0 - 40) with (cm_msp s0 - 40 + 4 * 0) by lia. now apply BL. }
  assert (W : forall i v, get (frame_words k) i = Some v -> 0 <= i < 8 -> cm_mem s (u32 (frameptr k + 4 * i)) = v).
  { intros i v G R. rewrite u32_id by (unfold is_u32; lia). rewrite OUT; [now apply TF|]. rewrite TM. destruct (uses_psp k) eqn:U.
    - destruct (DJ eq_refl); lia.
    - right. lia. }
  assert (W0 : cm_mem s (frameptr k) = k_r k 0).
  { replace (frameptr k) with (u32 (frameptr k + 4 * 0)) by (rewrite Z.mul_0_r, Z.add_0_r; apply u32_id; unfold is_u32; lia). apply W; [reflexivity|lia]. }
  unfold cm_core_regs. rewrite E0, W0.
  change (cm_r s 0 + 36) with (cm_r s 0 + 4 * 9). rewrite (B 9 (exc_return k)) by (reflexivity || lia).
  change (frameptr k + 28) with (frameptr k + 4 * 7). rewrite (W 7 (stacked_psr k)) by (reflexivity || lia).
  rewrite ret_fp, psr_bit9, ret_main, !negb_involutive.
  assert (SPE : (if frameptralign k then u32 (u32 (frameptr k + (if k_fp k then 104 else 32)) + 4) else u32 (frameptr k + (if k_fp k then 104 else 32))) = k_sp k).
  { change (if k_fp k then 104 else 32) with (framesize k). rewrite frameptr_eq in *. unfold is_u32 in SR. destruct (frameptralign k).
    - rewrite (u32_id (k_sp k - framesize k - 4 + framesize k)) by (unfold is_u32; lia). rewrite u32_id by (unfold is_u32; lia). lia.
    - rewrite u32_id by (unfold is_u32; lia). lia. }
  rewrite SPE.
  change (frameptr k + 4) with (frameptr k + 4 * 1). change (frameptr k + 8) with (frameptr k + 4 * 2). change (frameptr k + 12) with (frameptr k + 4 * 3).
  change (frameptr k + 16) with (frameptr k + 4 * 4). change (frameptr k + 20) with (frameptr k + 4 * 5). change (frameptr k + 24) with (frameptr k + 4 * 6).
  rewrite (W 1 (k_r k 1)), (W 2 (k_r k 2)), (W 3 (k_r k 3)), (W 4 (k_r k 12)), (W 5 (k_lr k)), (W 6 (k_pc k)) by (reflexivity || lia).
  rewrite (B (4 - 3) (k_r k 4)), (B (5 - 3) (k_r k 5)), (B (6 - 3) (k_r k 6)), (B (7 - 3) (k_r k 7)), (B (8 - 3) (k_r k 8)), (B (9 - 3) (k_r k 9)), (B (10 - 3) (k_r k 10)), (B (11 - 3) (k_r k 11)) by (reflexivity || lia).
  unfold cm_expected. rewrite SM, SP, TM, TP. destruct (uses_psp k) eqn:U; cbn [negb]; unfold k_sp; rewrite U; reflexivity.
Qed.

Lemma exec_cons i p s : cm_exec (i :: p) 0 s = cm_exec p (match i with Beq n => if cm_z s then n else O | _ => O end) (cm_step i s).
Proof. reflexivity. Qed.
Lemma exec_skip i p n s : cm_exec (i :: p) (S n) s = cm_exec p n s.
Proof. reflexivity. Qed.
Ltac ground E := match type of E with context [Z.eqb ?a ?b] =>
    match a with Z0 => idtac | Zpos _ => idtac end; match b with Z0 => idtac | Zpos _ => idtac end;
    let c := eval compute in (Z.eqb a b) in change (Z.eqb a b) with c in E end.
Ltac sim E := repeat (progress (lazy beta iota zeta delta [cm_step cm_flag cm_set holds negb cm_z cm_r cm_msp cm_psp cm_lr cm_mem map cm_get fset] in E; repeat ground E)).
Ltac step E ZF := repeat (first [rewrite exec_skip in E | rewrite exec_cons in E]; sim E; try rewrite ZF in E).

Lemma shim_ok sh reason s0 s : cm_taken k s0 -> s = cm_exec (shim_code sh reason) 0 s0 ->
  cm_r s 0 = cm_msp s0 - 40 /\ cm_r s 1 = reason /\ cm_msp s = cm_msp s0 - 40 /\ cm_psp s = cm_psp s0 /\
  (forall i v, get block i = Some v -> cm_mem s (cm_msp s0 - 40 + 4 * i) = v) /\
  (forall a, a < cm_msp s0 - 40 \/ cm_msp s0 <= a -> cm_mem s a = cm_mem s0 a).
Proof.
  intros (TM & TP & TL & TR & _ & _) E. destruct OK as (HM & HP & HX & AM & AP & F0 & F40 & DJ).
  assert (F40' : 40 <= cm_msp s0) by (rewrite TM; exact F40).
  assert (FB : cm_msp s0 < 4294967296).
  { rewrite TM. pose proof sp_range as SR. unfold is_u32 in *. pose proof frameptr_eq as FE. assert (0 <= framesize k) by (unfold framesize; destruct (k_fp k); lia). destruct (uses_psp k); [lia|]. destruct (frameptralign k); lia. }
  assert (ZF : (Z.land (cm_lr s0) 4 =? 0) = negb (uses_psp k)) by (rewrite TL; apply ret_main).
  assert (EF : (if uses_psp k then cm_psp s0 else cm_msp s0) = frameptr k) by (rewrite TM, TP; destruct (uses_psp k); reflexivity).
  destruct s0 as [r msp psp lr z m]. cbn [cm_r cm_msp cm_psp cm_lr cm_z cm_mem] in *.
  assert (BK : forall x, x = frameptr k -> block = [x; r 4; r 5; r 6; r 7; r 8; r 9; r 10; r 11; lr])
    by (intros x ->; unfold block; rewrite <- TL, <- !TR by lia; reflexivity).
  assert (PU : forall l : list Z, zlen l = 10 -> let a := u32 (msp - 4 * zlen l) in a = msp - 40 /\
            (forall m i v, get l i = Some v -> mstore m a l (msp - 40 + 4 * i) = v) /\ (forall m x, x < msp - 40 \/ msp <= x -> mstore m a l x = m x)).
  { intros l L a. subst a. rewrite L. rewrite u32_id by (unfold is_u32; lia). replace (msp - 4 * 10) with (msp - 40) by lia. repeat split.
    - intros m' i v G. apply mstore_in; [lia|lia|exact G].
    - intros m' x H. apply mstore_out; lia. }
  assert (P2 : forall l1 l2 : list Z, zlen l1 = 5 -> zlen l2 = 5 -> let a := u32 (msp - 4 * zlen l1) in let b := u32 (a - 4 * zlen l2) in b = msp - 40 /\
            (forall m i v, get (l2 ++ l1) i = Some v -> mstore (mstore m a l1) b l2 (msp - 40 + 4 * i) = v) /\
            (forall m x, x < msp - 40 \/ msp <= x -> mstore (mstore m a l1) b l2 x = m x)).
  { intros l1 l2 L1 L2 a b. subst b a. rewrite L1, L2. rewrite !(u32_id (msp - 4 * 5)) by (unfold is_u32; lia). rewrite u32_id by (unfold is_u32; lia).
    replace (msp - 4 * 5 - 4 * 5) with (msp - 40) by lia. repeat split.
    - intros m' i v G. destruct (Z_lt_ge_dec i 5) as [L|L].
      + rewrite get_app1 in G by lia. apply mstore_in; [lia|lia|exact G].
      + rewrite get_app2 in G by lia. rewrite L2 in G. rewrite mstore_out by lia. replace (msp - 40 + 4 * i) with (msp - 4 * 5 + 4 * (i - 5)) by lia. apply mstore_in; [lia|lia|exact G].
    - intros m' x H. rewrite !mstore_out by lia. reflexivity. }
  destruct (uses_psp k); cbn [negb] in ZF; destruct sh; unfold shim_code, shim_v7, shim_v7_arg, shim_v6, shim_v6_arg in E; step E ZF; cbn [cm_exec] in E; subst s.
  all: cbn [cm_r cm_msp cm_psp cm_mem]; cbn [Z.eqb Pos.eqb].
  all: match goal with
       | |- context [mstore (mstore _ _ ?l1) _ ?l2] => destruct (P2 l1 l2 eq_refl eq_refl) as (PA & PI & PO); change (zlen [0;1;2;3;14]) with (zlen l1); change (zlen [3;4;5;6;7]) with (zlen l2)
       | |- context [mstore _ _ ?l] => destruct (PU l eq_refl) as (PA & PI & PO); change (zlen [3;4;5;6;7;8;9;10;11;14]) with (zlen l)
       end.
  all: rewrite PA in *; split; [reflexivity|]; split; [reflexivity|]; split; [reflexivity|]; split; [reflexivity|]; split; [|intros a H; apply PO; exact H].
  all: intros i v G; apply PI; rewrite <- G, (BK _ EF); reflexivity.
Qed.

Lemma shim_captures sh v depth s0 : cm_taken k s0 ->
  let s := cm_exec (shim_code sh (cm_reason v)) 0 s0 in
  cm_arg_reason s = cm_reason v /\
  cm_core_regs depth s = cm_expected k (if uses_psp k then u32 (k_msp k - 40 - depth) else k_msp k) (k_psp k).
Proof.
  intros T s. destruct (shim_ok sh (cm_reason v) s0 s T eq_refl) as (A & B & C & D & E & F). split; [exact B|].
  exact (captured s0 s depth T A C D E F).
Qed.
End CM.

(** ** ARMv7-A/R *)
Lemma land31 x : Z.land x 31 = x mod 32.
Proof. change 31 with (Z.ones 5). apply Z.land_ones. lia. Qed.
Lemma land15 x : Z.land x 15 = x mod 16.
Proof. change 15 with (Z.ones 4). apply Z.land_ones. lia. Qed.
Lemma control_byte a b : Z.land (a / 256 * 256 + b mod 256) 31 = b mod 32.
Proof.
  rewrite land31. replace (a / 256 * 256 + b mod 256) with (b mod 256 + (a / 256 * 8) * 32) by lia. rewrite Z.mod_add by lia.
  change 256 with (32 * 8). rewrite Z.rem_mul_r by lia. replace (b mod 32 + 32 * ((b / 32) mod 8)) with (b mod 32 + ((b / 32) mod 8) * 32) by lia.
  rewrite Z.mod_add by lia. apply Z.mod_mod. lia.
Qed.
(** The mode entered to read the banked registers. *)
Definition entered (m : Z) : Z := if m =? 16 then 31 else m.
Lemma entered_ok c : 16 <= c mod 32 -> (if Z.land c 15 =? 0 then Z.lor c 15 else c) mod 32 = entered (c mod 32).
Proof.
  intros H. unfold entered. rewrite land15. pose proof (Z.mod_pos_bound c 32).
  assert (M : c mod 16 = (c mod 32) mod 16) by (change 32 with (16 * 2); rewrite Z.rem_mul_r by lia; replace (c mod 16 + 16 * ((c / 16) mod 2)) with (c mod 16 + ((c / 16) mod 2) * 16) by lia; rewrite Z.mod_add by lia; symmetry; apply Z.mod_mod; lia).
  destruct (c mod 32 =? 16) eqn:E.
  - apply Z.eqb_eq in E. rewrite M, E. change (16 mod 16 =? 0) with true. rewrite <- land31. rewrite Z.land_lor_distr_l, land31, E. reflexivity.
  - apply Z.eqb_neq in E. destruct (c mod 16 =? 0) eqn:E2; [|reflexivity]. apply Z.eqb_eq in E2. rewrite M in E2.
    assert (c mod 32 = 16 + (c mod 32 - 16)) as ER by lia. rewrite ER in E2. replace (16 + (c mod 32 - 16)) with (c mod 32 - 16 + 1 * 16) in E2 by lia.
    rewrite Z.mod_add in E2 by lia. rewrite Z.mod_small in E2 by lia. lia.
Qed.
Lemma entered_bank m : ar_bank (entered m) = ar_bank m.
Proof. unfold ar_bank, entered. destruct (m =? 16) eqn:E; [reflexivity|]. now rewrite E. Qed.
Lemma entered_fiq m : (entered m =? 17) = (m =? 17).
Proof. unfold entered. destruct (m =? 16) eqn:E; [apply Z.eqb_eq in E; subst; reflexivity|reflexivity]. Qed.
Lemma entered_priv m : (entered m =? 16) = false.
Proof. unfold entered. destruct (m =? 16) eqn:E; [reflexivity|exact E]. Qed.

Ltac grd := match goal with
  | |- context [Z.eqb ?a ?b] =>
    match a with Z0 => idtac | Zpos _ => idtac end; match b with Z0 => idtac | Zpos _ => idtac end;
    let c := eval compute in (Z.eqb a b) in change (Z.eqb a b) with c
  | |- context [Z.ltb ?a ?b] =>
    match a with Z0 => idtac | Zpos _ => idtac end; match b with Z0 => idtac | Zpos _ => idtac end;
    let c := eval compute in (Z.ltb a b) in change (Z.ltb a b) with c end.
Ltac red_ar := repeat (progress (lazy beta iota delta [ar_lo ar_hi ar_sp ar_lr ar_spsr ar_cpsr ar_z ar_mem map]; repeat grd)).
Section AR.
Variables (s : ar) (m reason : Z).
Hypothesis HM : m = 0x17 \/ m = 0x1b.
Let S0 := ar_sp s m.
Let C := ar_spsr s m.
Hypothesis MODE : ar_mode s = m.
Hypothesis HS : 68 <= S0 < 4294967296.
Hypothesis HV : 16 <= C mod 32.
Hypothesis HN : ar_bank (C mod 32) <> m.

Definition ar_words : list Z :=
  map (ar_lo s) [0; 1; 2; 3; 4; 5; 6; 7] ++ map (ar_hi s (C mod 32 =? 17)) [8; 9; 10; 11; 12] ++
  [ar_sp s (ar_bank (C mod 32)); ar_lr s (ar_bank (C mod 32))] ++ [ar_lr s m; C].

Lemma shim_words s' : s' = ar_exec (ar_shim m reason) s ->
  ar_lo s' 1 = reason /\ ar_core_regs s' = ar_words.
Proof.
  intros E. unfold ar_exec, ar_shim in E.
  assert (BM : ar_bank m = m) by (destruct HM as [-> | ->]; reflexivity).
  assert (M16 : (m =? 16) = false) by (destruct HM as [-> | ->]; reflexivity).
  assert (M17 : (m =? 17) = false) by (destruct HM as [-> | ->]; reflexivity).
  unfold ar_words. subst S0 C. destruct s as [lo hi sp lr spsr cpsr z w]. cbn [ar_sp ar_spsr ar_lo ar_hi ar_lr] in *.
  unfold ar_mode in MODE. cbn [ar_cpsr] in MODE.
  set (c := spsr m) in *. set (S := sp m) in *.
  assert (NB : (ar_bank (c mod 32) =? m) = false) by lia.
  assert (U8 : u32 (S - 8) = S - 8) by (apply u32_id; unfold is_u32; lia).
  cbn [fold_left] in E.
  set (w1 := mstore w (S - 8) [lr m; c]).
  assert (E1 : ar_step (ASrsdb m) (mk_ar lo hi sp lr spsr cpsr z w) = mk_ar lo hi (fset sp m (S - 8)) lr spsr cpsr z w1).
  { unfold ar_step. cbn [ar_lo ar_hi ar_sp ar_lr ar_spsr ar_cpsr ar_z ar_mem]. rewrite BM. fold S. rewrite U8. unfold w1, ar_get, ar_mode. red_ar. rewrite MODE, BM. reflexivity. }
  rewrite E1 in E.
  set (sp1 := fset sp m (S - 8)) in *.
  assert (E2 : ar_step (ASub Al 13 28) (mk_ar lo hi sp1 lr spsr cpsr z w1) = mk_ar lo hi (fset sp1 m (S - 36)) lr spsr cpsr z w1).
  { unfold ar_step, holds, ar_get, ar_set, ar_mode. red_ar. rewrite MODE, BM. replace (sp1 m) with (S - 8) by (unfold sp1; now rewrite fset_same). rewrite u32_id by (unfold is_u32; lia). now replace (S - 8 - 28) with (S - 36) by lia. }
  rewrite E2 in E. set (sp2 := fset sp1 m (S - 36)) in *.
  set (w3 := mstore w1 (S - 68) (map lo [0; 1; 2; 3; 4; 5; 6; 7])).
  assert (E3 : ar_step (AStm 13 [0; 1; 2; 3; 4; 5; 6; 7]) (mk_ar lo hi sp2 lr spsr cpsr z w1) = mk_ar lo hi (fset sp2 m (S - 68)) lr spsr cpsr z w3).
  { unfold ar_step, ar_get, ar_set, ar_mode, ar_mem_set. red_ar. rewrite MODE, BM. replace (sp2 m) with (S - 36) by (unfold sp2; now rewrite fset_same). change (zlen [0; 1; 2; 3; 4; 5; 6; 7]) with 8. rewrite u32_id by (unfold is_u32; lia). replace (S - 36 - 4 * 8) with (S - 68) by lia. reflexivity. }
  rewrite E3 in E. set (sp3 := fset sp2 m (S - 68)) in *.
  assert (E4 : ar_step (AAdd 2 13 60) (mk_ar lo hi sp3 lr spsr cpsr z w3) = mk_ar (fset lo 2 (S - 8)) hi sp3 lr spsr cpsr z w3).
  { unfold ar_step, ar_get, ar_set, ar_mode. red_ar. rewrite MODE, BM. replace (sp3 m) with (S - 68) by (unfold sp3; now rewrite fset_same). rewrite u32_id by (unfold is_u32; lia). now replace (S - 68 + 60) with (S - 8) by lia. }
  rewrite E4 in E. set (lo4 := fset lo 2 (S - 8)) in *.
  assert (E5 : ar_step (AMrsCpsr 3) (mk_ar lo4 hi sp3 lr spsr cpsr z w3) = mk_ar (fset lo4 3 cpsr) hi sp3 lr spsr cpsr z w3) by reflexivity.
  rewrite E5 in E. set (lo5 := fset lo4 3 cpsr) in *.
  assert (E6 : ar_step (AMrsSpsr 4) (mk_ar lo5 hi sp3 lr spsr cpsr z w3) = mk_ar (fset lo5 4 c) hi sp3 lr spsr cpsr z w3).
  { unfold ar_step, ar_set, ar_mode. red_ar. rewrite MODE, BM. reflexivity. }
  rewrite E6 in E. set (lo6 := fset lo5 4 c) in *.
  assert (E7 : ar_step (ATst 4 15) (mk_ar lo6 hi sp3 lr spsr cpsr z w3) = mk_ar lo6 hi sp3 lr spsr cpsr (Z.land c 15 =? 0) w3) by reflexivity.
  rewrite E7 in E. set (v := if Z.land c 15 =? 0 then Z.lor c 15 else c).
  assert (E8 : exists lo8, ar_step (AOrr Eq0 4 15) (mk_ar lo6 hi sp3 lr spsr cpsr (Z.land c 15 =? 0) w3) = mk_ar lo8 hi sp3 lr spsr cpsr (Z.land c 15 =? 0) w3 /\ lo8 4 = v /\ lo8 2 = S - 8 /\ lo8 3 = cpsr).
  { unfold ar_step, v. cbn [ar_z holds]. destruct (Z.land c 15 =? 0); eexists; (split; [reflexivity|]); repeat split. }
  destruct E8 as (lo8 & E8 & L4 & L2 & L3). rewrite E8 in E. set (z8 := Z.land c 15 =? 0) in *.
  set (cp := cpsr / 256 * 256 + v mod 256).
  assert (MD : Z.land cp 31 = entered (c mod 32)) by (unfold cp; rewrite control_byte; apply entered_ok; exact HV).
  assert (E9 : ar_step (AMsrC 4) (mk_ar lo8 hi sp3 lr spsr cpsr z8 w3) = mk_ar lo8 hi sp3 lr spsr cp z8 w3).
  { unfold ar_step, ar_mode, ar_set_cpsr, ar_get. red_ar. rewrite MODE, M16, L4. reflexivity. }
  rewrite E9 in E.
  set (hs := map (hi (c mod 32 =? 17)) [8; 9; 10; 11; 12] ++ [sp (ar_bank (c mod 32)); lr (ar_bank (c mod 32))]).
  set (w10 := mstore w3 (S - 36) hs).
  assert (E10 : ar_step (AStm 2 [8; 9; 10; 11; 12; 13; 14]) (mk_ar lo8 hi sp3 lr spsr cp z8 w3) = mk_ar (fset lo8 2 (S - 36)) hi sp3 lr spsr cp z8 w10).
  { unfold ar_step, ar_get, ar_set, ar_mode, ar_mem_set. red_ar. rewrite MD, entered_bank, entered_fiq, L2. change (zlen [8; 9; 10; 11; 12; 13; 14]) with 7. rewrite u32_id by (unfold is_u32; lia). replace (S - 8 - 4 * 7) with (S - 36) by lia.
    assert (SPE : sp3 (ar_bank (c mod 32)) = sp (ar_bank (c mod 32))) by (unfold sp3, sp2, sp1, fset; rewrite NB; reflexivity).
    rewrite SPE. reflexivity. }
  rewrite E10 in E. set (lo10 := fset lo8 2 (S - 36)) in *.
  assert (E11 : ar_step (AMsrAll 3) (mk_ar lo10 hi sp3 lr spsr cp z8 w10) = mk_ar lo10 hi sp3 lr spsr cpsr z8 w10).
  { unfold ar_step, ar_mode, ar_set_cpsr, ar_get. red_ar. rewrite MD, entered_priv. unfold lo10. rewrite fset_other by lia. rewrite L3. reflexivity. }
  rewrite E11 in E.
  assert (E12 : ar_step (AMov 0 13) (mk_ar lo10 hi sp3 lr spsr cpsr z8 w10) = mk_ar (fset lo10 0 (S - 68)) hi sp3 lr spsr cpsr z8 w10).
  { unfold ar_step, ar_get, ar_set, ar_mode. red_ar. rewrite MODE, BM. replace (sp3 m) with (S - 68) by (unfold sp3; now rewrite fset_same). reflexivity. }
  rewrite E12 in E.
  assert (E13 : ar_step (ALdr 1 reason) (mk_ar (fset lo10 0 (S - 68)) hi sp3 lr spsr cpsr z8 w10) = mk_ar (fset (fset lo10 0 (S - 68)) 1 reason) hi sp3 lr spsr cpsr z8 w10) by reflexivity.
  rewrite E13 in E. subst s'. split; [reflexivity|].
  unfold ar_core_regs. cbn [ar_lo ar_mem]. change (fset (fset lo10 0 (S - 68)) 1 reason 0) with (S - 68).
  assert (LEN : zlen hs = 7) by reflexivity.
  assert (RA : forall i x, 0 <= i < 8 -> get (map lo [0; 1; 2; 3; 4; 5; 6; 7]) i = Some x -> w10 (u32 (S - 68 + 4 * i)) = x).
  { intros i x R G. rewrite u32_id by (unfold is_u32; lia). unfold w10. rewrite mstore_out by (rewrite ?LEN; lia). unfold w3. apply mstore_in; [lia| |exact G]. change (zlen (map lo [0; 1; 2; 3; 4; 5; 6; 7])) with 8. lia. }
  assert (RB : forall i x, 8 <= i < 15 -> get hs (i - 8) = Some x -> w10 (u32 (S - 68 + 4 * i)) = x).
  { intros i x R G. rewrite u32_id by (unfold is_u32; lia). unfold w10. replace (S - 68 + 4 * i) with (S - 36 + 4 * (i - 8)) by lia. apply mstore_in; [lia| |exact G]. rewrite LEN. lia. }
  assert (RC : forall i x, 15 <= i < 17 -> get [lr m; c] (i - 15) = Some x -> w10 (u32 (S - 68 + 4 * i)) = x).
  { intros i x R G. rewrite u32_id by (unfold is_u32; lia). unfold w10. rewrite mstore_out by (rewrite ?LEN; lia). unfold w3. rewrite mstore_out by (change (zlen (map lo [0; 1; 2; 3; 4; 5; 6; 7])) with 8; lia).
    unfold w1. replace (S - 68 + 4 * i) with (S - 8 + 4 * (i - 15)) by lia. apply mstore_in; [lia| |exact G]. change (zlen [lr m; c]) with 2. lia. }
  cbn [map].
  rewrite (RA 0 (lo 0)), (RA 1 (lo 1)), (RA 2 (lo 2)), (RA 3 (lo 3)), (RA 4 (lo 4)), (RA 5 (lo 5)), (RA 6 (lo 6)), (RA 7 (lo 7)) by (reflexivity || lia).
  rewrite (RB 8 (hi (c mod 32 =? 17) 8)), (RB 9 (hi (c mod 32 =? 17) 9)), (RB 10 (hi (c mod 32 =? 17) 10)), (RB 11 (hi (c mod 32 =? 17) 11)), (RB 12 (hi (c mod 32 =? 17) 12)), (RB 13 (sp (ar_bank (c mod 32)))), (RB 14 (lr (ar_bank (c mod 32)))) by (reflexivity || lia).
  rewrite (RC 15 (lr m)), (RC 16 c) by (reflexivity || lia). reflexivity.
Qed.
End AR.

(** The same from a state that agrees with the one at the exception. *)
Lemma shim_agrees s s2 m reason pc :
  (m = 0x17 \/ m = 0x1b) -> ar_mode s2 = m -> 68 <= ar_sp s m < 4294967296 -> 16 <= ar_mode s -> ar_bank (ar_mode s) <> m ->
  (forall i, ar_lo s2 i = ar_lo s i) -> ar_hi s2 = ar_hi s -> (forall b, ar_sp s2 b = ar_sp s b) ->
  (forall b, ar_lr s2 b = if b =? m then pc else ar_lr s b) -> ar_spsr s2 m = ar_cpsr s ->
  let s3 := ar_exec (ar_shim m reason) s2 in
  ar_arg_reason s3 = reason /\ ar_core_regs s3 = ar_expected pc s.
Proof.
  intros HM MD HS HV HN LO HI SP LR SR s3. unfold ar_mode in HV, HN. rewrite land31 in HV, HN.
  destruct (shim_words s2 m reason HM MD) with (s' := s3) as (A & B).
  - now rewrite SP.
  - now rewrite SR.
  - now rewrite SR.
  - reflexivity.
  - split; [exact A|]. rewrite B. unfold ar_words, ar_expected. rewrite SR, HI, SP, !LR, Z.eqb_refl. cbn [map app]. rewrite !LO.
    replace (ar_bank (ar_cpsr s mod 32) =? m) with false by lia.
    unfold ar_get, ar_mode. rewrite land31. reflexivity.
Qed.

Lemma exec_app a b s : ar_exec (a ++ b) s = ar_exec b (ar_exec a s).
Proof. apply fold_left_app. Qed.
Definition agrees (s s2 : ar) (m pc : Z) : Prop :=
  ar_mode s2 = m /\ (forall i, ar_lo s2 i = ar_lo s i) /\ ar_hi s2 = ar_hi s /\ (forall b, ar_sp s2 b = ar_sp s b) /\
  (forall b, ar_lr s2 b = if b =? m then pc else ar_lr s b) /\ ar_spsr s2 m = ar_cpsr s.
Lemma sub_offset pc k : is_u32 pc -> u32 (u32 (pc + k) - k) = pc.
Proof. intros H. unfold u32. rewrite Zminus_mod_idemp_l. replace (pc + k - k) with pc by lia. apply u32_id. exact H. Qed.
Lemma prefix_abort s s' v k pc : ar_target v = 0x17 -> (forall t, ar_offset v t = k) -> is_u32 pc -> ar_taken v pc s s' ->
  agrees s (ar_step (ASub Al 14 k) s') 0x17 pc.
Proof.
  intros TG OF HP (LO & HI & SP & ME & CU & MD & LR & SR). rewrite TG in *. rewrite OF in LR.
  destruct s' as [lo hi sp lr spsr cpsr z w]. cbn [ar_lo ar_hi ar_sp ar_mem ar_lr ar_spsr ar_cpsr] in *. unfold ar_mode in MD at 1. cbn [ar_cpsr] in MD.
  unfold ar_step, holds, ar_set, ar_get, ar_mode. red_ar. rewrite MD. change (ar_bank 23) with 23. rewrite LR, Z.eqb_refl, sub_offset by exact HP.
  unfold agrees. cbn [ar_lo ar_hi ar_sp ar_mem ar_lr ar_spsr ar_cpsr]. split; [exact MD|]. split; [now rewrite LO|]. split; [exact HI|]. split; [now rewrite SP|].
  split; [|rewrite SR; reflexivity]. intros b. unfold fset. destruct (b =? 23) eqn:E; [reflexivity|]. rewrite LR, E. reflexivity.
Qed.
Lemma prefix_undefined s s' pc : is_u32 pc -> 68 <= ar_sp s 0x1b < 4294967296 -> ar_taken AUndefined pc s s' ->
  agrees s (ar_exec [AStm 13 [0]; AMrsSpsr 0; ATst 0 0x20; ASub Eq0 14 4; ASub Ne0 14 2; APop 0] s') 0x1b pc.
Proof.
  intros HP HS (LO & HI & SP & ME & CU & MD & LR & SR). cbn [ar_target ar_offset] in *.
  destruct s' as [lo hi sp lr spsr cpsr z w]. cbn [ar_lo ar_hi ar_sp ar_mem ar_lr ar_spsr ar_cpsr] in *. unfold ar_mode in MD at 1. cbn [ar_cpsr] in MD.
  subst sp lo hi. unfold agrees. set (lo0 := ar_lo s) in *. set (hi0 := ar_hi s) in *. set (sp0 := ar_sp s) in *. set (lr0 := ar_lr s) in *. set (cp0 := ar_cpsr s) in *. clearbody lo0 hi0 sp0 lr0 cp0. set (S := sp0 27) in *.
  assert (E1 : ar_step (AStm 13 [0]) (mk_ar lo0 hi0 sp0 lr spsr cpsr z w) = mk_ar lo0 hi0 (fset sp0 27 (S - 4)) lr spsr cpsr z (mset w (S - 4) (lo0 0))).
  { unfold ar_step, ar_set, ar_get, ar_mode, ar_mem_set. red_ar. rewrite MD. change (ar_bank 27) with 27. fold S. change (zlen [0]) with 1. rewrite u32_id by (unfold is_u32; lia). now replace (S - 4 * 1) with (S - 4) by lia. }
  unfold ar_exec. cbn [fold_left]. rewrite E1. set (sp1 := fset sp0 27 (S - 4)). set (w1 := mset w (S - 4) (lo0 0)).
  assert (E2 : ar_step (AMrsSpsr 0) (mk_ar lo0 hi0 sp1 lr spsr cpsr z w1) = mk_ar (fset lo0 0 cp0) hi0 sp1 lr spsr cpsr z w1).
  { unfold ar_step, ar_set, ar_get, ar_mode. red_ar. rewrite MD. change (ar_bank 27) with 27. rewrite SR. reflexivity. }
  rewrite E2. set (lo2 := fset lo0 0 cp0).
  assert (E3 : ar_step (ATst 0 32) (mk_ar lo2 hi0 sp1 lr spsr cpsr z w1) = mk_ar lo2 hi0 sp1 lr spsr cpsr (negb (Z.testbit cp0 5)) w1).
  { unfold ar_step, ar_get. red_ar. unfold lo2 at 2. rewrite fset_same. change 32 with (2 ^ 5). rewrite land_pow2 by lia. reflexivity. }
  rewrite E3. set (t := Z.testbit cp0 5) in *.
  assert (E4 : exists lr4, ar_step (ASub Ne0 14 2) (ar_step (ASub Eq0 14 4) (mk_ar lo2 hi0 sp1 lr spsr cpsr (negb t) w1)) = mk_ar lo2 hi0 sp1 lr4 spsr cpsr (negb t) w1 /\ (forall b, lr4 b = if b =? 27 then pc else lr0 b)).
  { destruct t; unfold ar_step, holds, ar_set, ar_get, ar_mode; cbn [negb]; red_ar; rewrite MD; change (ar_bank 27) with 27; rewrite LR, Z.eqb_refl, sub_offset by exact HP; (eexists; split; [reflexivity|]); intros b; unfold fset; destruct (b =? 27) eqn:E; try reflexivity; rewrite LR, E; reflexivity. }
  destruct E4 as (lr4 & E4 & L4). rewrite E4.
  assert (E5 : ar_step (APop 0) (mk_ar lo2 hi0 sp1 lr4 spsr cpsr (negb t) w1) = mk_ar (fset lo2 0 (lo0 0)) hi0 (fset sp1 27 S) lr4 spsr cpsr (negb t) w1).
  { unfold ar_step, ar_set, ar_get, ar_mode. red_ar. rewrite MD. change (ar_bank 27) with 27. replace (sp1 27) with (S - 4) by (unfold sp1; now rewrite fset_same). rewrite u32_id by (unfold is_u32; lia). replace (S - 4 + 4) with S by lia.
    replace (w1 (S - 4)) with (lo0 0) by (unfold w1, mset; now rewrite Z.eqb_refl). reflexivity. }
  rewrite E5. cbn [ar_lo ar_hi ar_sp ar_mem ar_lr ar_spsr ar_cpsr]. split; [exact MD|]. split.
  { intros i. unfold lo2, fset. destruct (i =? 0) eqn:E; [apply Z.eqb_eq in E; now subst|reflexivity]. }
  split; [reflexivity|]. split.
  { intros b. unfold sp1, fset. destruct (b =? 27) eqn:E; [apply Z.eqb_eq in E; now subst|reflexivity]. }
  split; [exact L4|]. rewrite SR. reflexivity.
Qed.

Lemma ar_captures v pc s s' :
  ar_ok v pc s -> 16 <= ar_mode s -> ar_bank (ar_mode s) <> ar_target v -> ar_taken v pc s s' ->
  let s3 := ar_exec (ar_handler v) s' in
  ar_arg_reason s3 = match v with AUndefined => 0x9300 | ADataAbort => 0x9200 | APrefetchAbort => 0x9100 end /\
  ar_core_regs s3 = ar_expected pc s.
Proof.
  intros (HP & HC & HS) HV HN T. destruct v; unfold ar_handler.
  - cbv zeta. rewrite exec_app. destruct (prefix_undefined s s' pc HP HS T) as (A & B & C & D & E & F).
    exact (shim_agrees s _ 27 0x9300 pc (or_intror eq_refl) A HS HV HN B C D E F).
  - change (ASub Al 14 8 :: ar_shim 23 37376) with ([ASub Al 14 8] ++ ar_shim 23 37376). cbv zeta. rewrite exec_app.
    destruct (prefix_abort s s' ADataAbort 8 pc eq_refl (fun _ => eq_refl) HP T) as (A & B & C & D & E & F).
    exact (shim_agrees s _ 23 37376 pc (or_introl eq_refl) A HS HV HN B C D E F).
  - change (ASub Al 14 4 :: ar_shim 23 37120) with ([ASub Al 14 4] ++ ar_shim 23 37120). cbv zeta. rewrite exec_app.
    destruct (prefix_abort s s' APrefetchAbort 4 pc eq_refl (fun _ => eq_refl) HP T) as (A & B & C & D & E & F).
    exact (shim_agrees s _ 23 37120 pc (or_introl eq_refl) A HS HV HN B C D E F).
Qed.
