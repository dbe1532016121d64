From Verif Require Import Base Crc16 Crc16Spec.
Ltac Zify.zify_post_hook ::= Z.div_mod_to_equations.

(** ** Carry-less arithmetic *)
Lemma lxor_double a b c d : Z.lxor (2 * a + Z.b2z b) (2 * c + Z.b2z d) = 2 * Z.lxor a c + Z.b2z (xorb b d).
Proof.
  apply Z.bits_inj'. intros n Hn. rewrite Z.lxor_spec.
  destruct (Z.eq_dec n 0) as [->|].
  - rewrite !Z.testbit_0_r. reflexivity.
  - replace n with (Z.succ (n - 1)) by lia. rewrite !Z.testbit_succ_r by lia. now rewrite Z.lxor_spec.
Qed.
Lemma lxor_double' a c : Z.lxor (2 * a) (2 * c) = 2 * Z.lxor a c.
Proof. pose proof (lxor_double a false c false). cbn [Z.b2z xorb] in H. now rewrite !Z.add_0_r in H. Qed.
Lemma lxor_nonneg a b : 0 <= a -> 0 <= b -> 0 <= Z.lxor a b.
Proof. intros. apply Z.lxor_nonneg. lia. Qed.
Lemma lxor_lt a b n : 0 <= n -> 0 <= a < 2 ^ n -> 0 <= b < 2 ^ n -> Z.lxor a b < 2 ^ n.
Proof.
  intros Hn Ha Hb. assert (H : 0 <= Z.lxor a b) by (apply lxor_nonneg; lia).
  destruct (Z.eq_dec (Z.lxor a b) 0) as [->|]; [apply Z.pow_pos_nonneg; lia|].
  apply Z.log2_lt_pow2; [lia|].
  pose proof (Z.log2_lxor a b ltac:(lia) ltac:(lia)).
  assert (L : forall c, 0 <= c < 2 ^ n -> c = 0 \/ Z.log2 c < n).
  { intros c Hc. destruct (Z.eq_dec c 0); [now left|right]. apply Z.log2_lt_pow2; lia. }
  destruct (Z.eq_dec n 0) as [->|]; [change (2^0) with 1 in *; exfalso; apply n0; replace a with 0 by lia; replace b with 0 by lia; reflexivity|].
  destruct (L a Ha) as [->|]; destruct (L b Hb) as [->|]; cbn in *; lia.
Qed.

Lemma clmul_double q b P : 0 <= q -> clmul (2 * q + Z.b2z b) P = Z.lxor (if b then P else 0) (2 * clmul q P).
Proof.
  intros Hq. destruct q as [|p|p]; [| |lia].
  - destruct b; cbn; [|reflexivity]. now rewrite Z.lxor_0_r.
  - destruct b.
    + change (2 * Z.pos p + Z.b2z true) with (Z.pos (xI p)). reflexivity.
    + change (2 * Z.pos p + Z.b2z false) with (Z.pos (xO p)). cbn [clmul clmul_pos]. now rewrite Z.lxor_0_l.
Qed.
Lemma clmul_nonneg q P : 0 <= P -> 0 <= clmul q P.
Proof.
  intros HP. destruct q as [|p|p]; [reflexivity| |reflexivity].
  cbn. induction p; cbn; [apply lxor_nonneg; lia|lia|lia].
Qed.

Lemma half_split q : 0 <= q -> exists q' b, q = 2 * q' + Z.b2z b /\ 0 <= q'.
Proof.
  intros. exists (Z.div2 q), (Z.odd q). split; [apply Z.div2_odd|].
  now apply Z.div2_nonneg.
Qed.

Lemma bounded_ind (Q : Z -> Prop) :
  Q 0 -> (forall q b, 0 <= q -> Q q -> Q (2 * q + Z.b2z b)) -> forall q, 0 <= q -> Q q.
Proof.
  intros H0 HS q Hq.
  assert (HH : forall n : nat, forall q, 0 <= q < 2 ^ Z.of_nat n -> Q q).
  { induction n; intros r Hr.
    - replace r with 0 by (change (2 ^ Z.of_nat 0) with 1 in Hr; lia). exact H0.
    - destruct (half_split r) as (r' & b & -> & Hr'); [lia|]. apply HS; [assumption|]. apply IHn.
      rewrite Nat2Z.inj_succ, Z.pow_succ_r in Hr by lia. destruct b; cbn in Hr; lia. }
  apply (HH (Z.to_nat q)). rewrite Z2Nat.id by lia. split; [lia|]. apply Z.pow_gt_lin_r; lia.
Qed.

Lemma clmul_add q1 : 0 <= q1 -> forall q2 P, 0 <= q2 ->
  clmul (Z.lxor q1 q2) P = Z.lxor (clmul q1 P) (clmul q2 P).
Proof.
  revert q1. refine (bounded_ind _ _ _).
  - intros. now rewrite !Z.lxor_0_l.
  - intros q1 b1 Hq1 IH q2 P Hq2. destruct (half_split q2) as (q2' & b2 & -> & Hq2'); [lia|].
    rewrite lxor_double. rewrite !clmul_double by (try apply lxor_nonneg; lia).
    rewrite IH by lia. rewrite <- lxor_double'.
    apply Z.bits_inj'. intros n Hn. rewrite !Z.lxor_spec.
    destruct b1, b2; cbn [xorb]; rewrite ?Z.bits_0;
      destruct (Z.testbit P n), (Z.testbit (2 * clmul q1 P) n), (Z.testbit (2 * clmul q2' P) n); reflexivity.
Qed.
Lemma shl_succ a k : 0 <= k -> Z.shiftl a (Z.succ k) = 2 * Z.shiftl a k.
Proof. intros. rewrite !Z.shiftl_mul_pow2, Z.pow_succ_r by lia. lia. Qed.
Lemma clmul_shl q k P : 0 <= q -> 0 <= k -> clmul (Z.shiftl q k) P = Z.shiftl (clmul q P) k.
Proof.
  intros Hq Hk. revert k Hk. apply natlike_ind.
  - now rewrite !Z.shiftl_0_r.
  - intros k Hk IH. rewrite !shl_succ by lia.
    pose proof (clmul_double (Z.shiftl q k) false P) as H. cbn [Z.b2z] in H.
    rewrite Z.add_0_r, Z.lxor_0_l in H. rewrite H; [now rewrite IH|].
    apply Z.shiftl_nonneg. lia.
Qed.

(** ** Congruence modulo the polynomial *)
Definition cong (a b : Z) : Prop := exists q, 0 <= q /\ Z.lxor a b = clmul q CRC_POLY.

Lemma cong_refl a : cong a a.
Proof. exists 0. now rewrite Z.lxor_nilpotent. Qed.
Lemma cong_lxor a b c d : cong a b -> cong c d -> cong (Z.lxor a c) (Z.lxor b d).
Proof.
  intros (q & Hq & E) (r & Hr & F). exists (Z.lxor q r). split; [now apply lxor_nonneg|].
  rewrite clmul_add by lia. rewrite <- E, <- F.
  apply Z.bits_inj'. intros n Hn. rewrite !Z.lxor_spec.
  destruct (Z.testbit a n), (Z.testbit b n), (Z.testbit c n), (Z.testbit d n); reflexivity.
Qed.
Lemma cong_sym a b : cong a b -> cong b a.
Proof. intros (q & Hq & E). exists q. now rewrite Z.lxor_comm. Qed.
Lemma cong_trans a b c : cong a b -> cong b c -> cong a c.
Proof.
  intros (q & Hq & E) (r & Hr & F). exists (Z.lxor q r). split; [now apply lxor_nonneg|].
  rewrite clmul_add by lia. rewrite <- E, <- F.
  apply Z.bits_inj'. intros n Hn. rewrite !Z.lxor_spec.
  destruct (Z.testbit a n), (Z.testbit b n), (Z.testbit c n); reflexivity.
Qed.
Lemma cong_shl a b k : 0 <= k -> cong a b -> cong (Z.shiftl a k) (Z.shiftl b k).
Proof.
  intros Hk (q & Hq & E). exists (Z.shiftl q k). split; [apply Z.shiftl_nonneg; lia|].
  rewrite clmul_shl by lia. rewrite <- E. symmetry. apply Z.shiftl_lxor.
Qed.

(** ** One bit and one byte *)
Lemma testbit_high c n k : 0 <= c < 2 ^ k -> 0 <= k <= n -> Z.testbit c n = false.
Proof.
  intros Hc Hn. destruct (Z.eq_dec c 0) as [->|]; [apply Z.bits_0|].
  apply Z.bits_above_log2; [lia|]. assert (Z.log2 c < k) by (apply Z.log2_lt_pow2; lia). lia.
Qed.

Lemma bit_step_eq c : 0 <= c < 65536 ->
  crc16_bit_step c = Z.lxor (2 * c) (if Z.testbit c 15 then 69665 else 0).
Proof.
  intros Hc. unfold crc16_bit_step. rewrite Z.shiftl_mul_pow2 by lia. change (2 ^ 1) with 2.
  rewrite u32_id by (unfold is_u32; lia). rewrite (Z.mul_comm c 2).
  assert (T : (Z.land (2 * c) 65536 =? 0) = negb (Z.testbit c 15)).
  { change 65536 with (2 ^ 16).
    assert (L : Z.land (2 * c) (2 ^ 16) = if Z.testbit c 15 then 2 ^ 16 else 0).
    { apply Z.bits_inj'. intros n Hn. rewrite Z.land_spec, Z.pow2_bits_eqb by lia.
      destruct (Z.eqb_spec 16 n) as [<-|].
      - rewrite andb_true_r. change 16 with (Z.succ 15) at 1. rewrite Z.double_bits_succ.
        destruct (Z.testbit c 15); [now rewrite Z.pow2_bits_true by lia|now rewrite Z.bits_0].
      - rewrite andb_false_r. destruct (Z.testbit c 15); [now rewrite Z.pow2_bits_false by lia|now rewrite Z.bits_0]. }
    rewrite L. destruct (Z.testbit c 15); reflexivity. }
  rewrite T, negb_involutive. destruct (Z.testbit c 15) eqn:B; [|now rewrite Z.lxor_0_r].
  change 65535 with (Z.ones 16). change 69665 with (Z.lxor 4129 (2 ^ 16)).
  apply Z.bits_inj'. intros n Hn. rewrite Z.land_spec, !Z.lxor_spec.
  destruct (Z.lt_ge_cases n 16).
  - rewrite Z.ones_spec_low, Z.pow2_bits_false by lia. rewrite andb_true_r, xorb_false_r. reflexivity.
  - rewrite Z.ones_spec_high by lia. rewrite andb_false_r.
    rewrite (testbit_high 4129 n 13) by (try change (2^13) with 8192; lia). rewrite xorb_false_l.
    destruct (Z.eq_dec n 16) as [->|].
    + rewrite Z.pow2_bits_true by lia. change 16 with (Z.succ 15). rewrite Z.double_bits_succ, B. reflexivity.
    + rewrite (testbit_high (2 * c) n 17) by (try change (2^17) with 131072; lia).
      rewrite Z.pow2_bits_false by lia. reflexivity.
Qed.

Lemma bit_step_ok c : 0 <= c < 65536 -> 0 <= crc16_bit_step c < 65536 /\ cong (crc16_bit_step c) (Z.shiftl c 1).
Proof.
  intros Hc. rewrite bit_step_eq by assumption. split.
  - split; [apply lxor_nonneg; destruct (Z.testbit c 15); lia|].
    destruct (Z.testbit c 15) eqn:B.
    + rewrite <- (Z.mod_small (Z.lxor _ _) (2 ^ 17)).
      2:{ split; [apply lxor_nonneg; lia|apply lxor_lt; change (2^17) with 131072; lia]. }
      rewrite <- Z.land_ones by lia.
      destruct (Z.lt_ge_cases (Z.land (Z.lxor (2 * c) 69665) (Z.ones 17)) 65536) as [|Hge]; [assumption|exfalso].
      assert (Hr : 0 <= Z.land (Z.lxor (2 * c) 69665) (Z.ones 17) < 2 ^ 17)
        by (rewrite Z.land_ones by lia; apply Z.mod_pos_bound; lia).
      assert (T : Z.testbit (Z.land (Z.lxor (2 * c) 69665) (Z.ones 17)) 16 = true).
      { rewrite Z.testbit_true by lia. change (2 ^ 16) with 65536. change (2 ^ 17) with 131072 in Hr. lia. }
      rewrite Z.land_spec, Z.lxor_spec in T. change 16 with (Z.succ 15) in T at 1.
      rewrite Z.double_bits_succ, B in T. discriminate T.
    + rewrite Z.lxor_0_r.
      assert (c < 32768); [|lia].
      destruct (Z.lt_ge_cases c 32768) as [|Hge]; [assumption|].
      assert (T : Z.testbit c 15 = true) by (rewrite Z.testbit_true by lia; change (2 ^ 15) with 32768; lia).
      congruence.
  - rewrite Z.shiftl_mul_pow2 by lia. change (2 ^ 1) with 2. rewrite (Z.mul_comm c 2).
    destruct (Z.testbit c 15).
    + exists 1. split; [lia|]. rewrite (Z.lxor_comm (2 * c)), Z.lxor_assoc, Z.lxor_nilpotent. reflexivity.
    + exists 0. split; [lia|]. rewrite Z.lxor_0_r, Z.lxor_nilpotent. reflexivity.
Qed.

Lemma u16_lxor_lt a b : 0 <= a < 65536 -> 0 <= b < 65536 -> 0 <= Z.lxor a b < 65536.
Proof. intros. split; [apply lxor_nonneg; lia|]. change 65536 with (2^16) in *. apply lxor_lt; lia. Qed.

Lemma bit_step_lin a b : 0 <= a < 65536 -> 0 <= b < 65536 ->
  crc16_bit_step (Z.lxor a b) = Z.lxor (crc16_bit_step a) (crc16_bit_step b).
Proof.
  intros Ha Hb. rewrite !bit_step_eq by (try apply u16_lxor_lt; assumption).
  rewrite Z.lxor_spec, <- lxor_double'.
  apply Z.bits_inj'. intros n Hn. rewrite !Z.lxor_spec.
  destruct (Z.testbit a 15), (Z.testbit b 15); cbn [xorb]; rewrite ?Z.bits_0;
    destruct (Z.testbit (2 * a) n), (Z.testbit (2 * b) n), (Z.testbit 69665 n); reflexivity.
Qed.
Lemma iter_bit_lin n : forall a b, 0 <= a < 65536 -> 0 <= b < 65536 ->
  iter n crc16_bit_step (Z.lxor a b) = Z.lxor (iter n crc16_bit_step a) (iter n crc16_bit_step b).
Proof.
  induction n; intros a b Ha Hb; cbn [iter]; [reflexivity|].
  rewrite bit_step_lin by assumption. apply IHn; now apply bit_step_ok.
Qed.
(** Eight steps on a value below 256 only shift it. *)
Lemma iter_bit_small n : forall a, 0 <= a < 65536 -> a * 2 ^ Z.of_nat n < 65536 ->
  iter n crc16_bit_step a = a * 2 ^ Z.of_nat n.
Proof.
  induction n; intros a Ha Hb; cbn [iter].
  - change (2 ^ Z.of_nat 0) with 1. lia.
  - rewrite Nat2Z.inj_succ, Z.pow_succ_r in Hb by lia.
    pose proof (Z.pow_pos_nonneg 2 (Z.of_nat n) ltac:(lia) ltac:(lia)) as Hp.
    assert (Hs : a < 32768) by nia.
    assert (E : crc16_bit_step a = 2 * a).
    { rewrite bit_step_eq by assumption. rewrite (testbit_high a 15 15) by (try change (2^15) with 32768; lia).
      apply Z.lxor_0_r. }
    rewrite E. rewrite IHn by lia. rewrite Nat2Z.inj_succ, Z.pow_succ_r by lia. lia.
Qed.

Lemma iter_bit_ok n : forall c, 0 <= c < 65536 ->
  0 <= iter n crc16_bit_step c < 65536 /\ cong (iter n crc16_bit_step c) (Z.shiftl c (Z.of_nat n)).
Proof.
  induction n; intros c Hc; cbn [iter].
  - split; [lia|]. rewrite Z.shiftl_0_r. apply cong_refl.
  - destruct (bit_step_ok c Hc) as [Hr Hc']. destruct (IHn _ Hr) as [Hr2 Hc2]. split; [assumption|].
    eapply cong_trans; [exact Hc2|].
    replace (Z.shiftl c (Z.of_nat (S n))) with (Z.shiftl (Z.shiftl c 1) (Z.of_nat n)).
    + apply cong_shl; [lia|assumption].
    + rewrite Z.shiftl_shiftl by lia. f_equal. lia.
Qed.

Lemma shl8_lt b : is_u8 b -> 0 <= Z.shiftl b 8 < 2 ^ 16.
Proof. unfold is_u8; intros. rewrite Z.shiftl_mul_pow2 by lia. change (2^8) with 256. change (2^16) with 65536. lia. Qed.

Lemma bitwise_step_ok c b : 0 <= c < 65536 -> is_u8 b ->
  0 <= crc16_bitwise_step c b < 65536 /\
  cong (crc16_bitwise_step c b) (Z.lxor (Z.shiftl c 8) (Z.shiftl b 16)).
Proof.
  intros Hc Hb. unfold crc16_bitwise_step. pose proof (shl8_lt b Hb).
  assert (HX : 0 <= Z.lxor c (Z.shiftl b 8) < 65536).
  { split; [apply lxor_nonneg; lia|]. change 65536 with (2^16) in *. apply lxor_lt; lia. }
  destruct (iter_bit_ok 8 _ HX) as [Hr Hcg]. split; [assumption|].
  change (Z.of_nat 8) with 8 in Hcg. rewrite Z.shiftl_lxor, Z.shiftl_shiftl in Hcg by lia. exact Hcg.
Qed.

Lemma add_lxor_disjoint a b k : 0 <= k -> 0 <= b < 2 ^ k -> a * 2 ^ k + b = Z.lxor (a * 2 ^ k) b.
Proof.
  intros Hk Hb. rewrite <- Z.add_nocarry_lxor; [reflexivity|].
  apply Z.bits_inj'. intros n Hn. rewrite Z.land_spec, Z.bits_0.
  destruct (Z.lt_ge_cases n k).
  - rewrite Z.mul_pow2_bits_low by lia. reflexivity.
  - destruct (Z.eq_dec b 0) as [->|]; [rewrite Z.bits_0; apply andb_false_r|].
    rewrite (Z.bits_above_log2 b n); [apply andb_false_r|lia|].
    apply Z.log2_lt_pow2; [lia|]. pose proof (Z.pow_le_mono_r 2 k n). lia.
Qed.

(** The table step agrees with the bitwise step. *)
Lemma table_step_eq c b : 0 <= c < 65536 -> is_u8 b -> crc16_table_step c b = Some (crc16_bitwise_step c b).
Proof.
  intros Hc Hb. pose proof (shl8_lt b Hb) as Hs.
  set (x := Z.lxor c (Z.shiftl b 8)).
  assert (HX : 0 <= x < 65536).
  { subst x. split; [apply lxor_nonneg; lia|]. change 65536 with (2^16) in *. apply lxor_lt; lia. }
  set (h := Z.shiftr x 8). set (l := x mod 256).
  assert (Hh : 0 <= h < 256) by (unfold h; rewrite shiftr_div by lia; change (2 ^ 8) with 256; lia).
  assert (Hl : 0 <= l < 256) by (unfold l; lia).
  assert (Hx : x = Z.lxor (h * 2 ^ 8) l).
  { rewrite <- add_lxor_disjoint by (change (2 ^ 8) with 256; lia).
    unfold h, l. rewrite shiftr_div by lia. change (2 ^ 8) with 256. lia. }
  set (p := fun h => match get crc16_table h with
      | Some t => t =? iter 8 crc16_bit_step (h * 256) | None => false end).
  assert (E : p h = true).
  { clearbody h. clear - Hh. revert h Hh. apply (zrange_all p 256). vm_compute. reflexivity. }
  unfold p in E. unfold crc16_table_step, crc16_bitwise_step. fold x.
  replace (Z.land (Z.lxor (Z.shiftr c 8) b) 255) with (Z.shiftr x 8).
  2:{ unfold x. rewrite Z.shiftr_lxor. rewrite Z.shiftr_shiftl_l by lia. rewrite Z.sub_diag, Z.shiftl_0_r.
      rewrite land_255. symmetry. apply Z.mod_small. split.
      - apply lxor_nonneg; unfold is_u8 in *; [apply Z.shiftr_nonneg|]; lia.
      - change 256 with (2^8). apply lxor_lt; unfold is_u8 in *; try lia.
        rewrite shiftr_div by lia. change (2^8) with 256. lia. }
  replace (u16 (Z.shiftl c 8)) with (u16 (Z.shiftl x 8)).
  2:{ unfold x, u16. rewrite Z.shiftl_lxor, Z.shiftl_shiftl by lia. rewrite <- !Z.land_ones by lia.
      assert (LD : forall a b c, Z.land (Z.lxor a b) c = Z.lxor (Z.land a c) (Z.land b c)).
      { intros. apply Z.bits_inj'. intros n Hn. rewrite ?Z.lxor_spec, ?Z.land_spec, ?Z.lxor_spec.
        destruct (Z.testbit a n), (Z.testbit b0 n), (Z.testbit c0 n); reflexivity. }
      rewrite LD. rewrite (Z.land_ones (Z.shiftl b (8 + 8))) by lia.
      rewrite Z.shiftl_mul_pow2 with (n := 8 + 8) by lia. rewrite Z.mod_mul by lia. now rewrite Z.lxor_0_r. }
  fold h. destruct (get crc16_table h) as [t|]; [|discriminate]. cbn [bind]. f_equal.
  apply Z.eqb_eq in E. rewrite Hx at 2. rewrite iter_bit_lin by (change (2^8) with 256; lia).
  change (h * 2 ^ 8) with (h * 256). rewrite <- E.
  rewrite (iter_bit_small 8 l) by (change (2 ^ Z.of_nat 8) with 256; lia).
  rewrite Z.lxor_comm. f_equal. unfold u16. rewrite Z.shiftl_mul_pow2 by lia.
  change (2 ^ Z.of_nat 8) with 256. change (2^8) with 256. change (2^16) with 65536. unfold l. lia.
Qed.

