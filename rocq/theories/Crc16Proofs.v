From Verif Require Import Base Crc16 Crc16Spec Crc16Step.
Ltac Zify.zify_post_hook ::= Z.div_mod_to_equations.

#[local] Opaque crc16_bitwise_step crc16_table_step.

(** ** Whole messages *)
Lemma poly_app l b : poly_of_bytes (l ++ [b]) = poly_of_bytes l * 256 + b.
Proof. unfold poly_of_bytes. now rewrite fold_left_app. Qed.
Lemma poly_nonneg l : bytes l -> 0 <= poly_of_bytes l.
Proof.
  unfold bytes. induction l as [|b l IH] using rev_ind; intros H; [reflexivity|]. rewrite poly_app.
  apply Forall_app in H as [H1 H2]. inv H2. unfold is_u8 in *. specialize (IH H1). lia.
Qed.


Lemma fold_bitwise_ok data : forall init, 0 <= init < 65536 -> bytes data ->
  let r := fold_left crc16_bitwise_step data init in
  0 <= r < 65536 /\
  cong r (Z.lxor (Z.shiftl init (8 * zlen data)) (Z.shiftl (poly_of_bytes data) 16)).
Proof.
  induction data as [|b data IH] using rev_ind; intros init Hi Hb.
  - cbn. split; [lia|]. rewrite Z.shiftl_0_r, Z.lxor_0_r. apply cong_refl.
  - apply Forall_app in Hb as [Hb1 Hb2]. inv Hb2.
    destruct (IH init Hi Hb1) as [Hr Hc]. cbv zeta in *. rewrite fold_left_app. cbn [fold_left].
    set (r := fold_left crc16_bitwise_step data init) in *.
    destruct (bitwise_step_ok r b Hr H1) as [Hr2 Hc2]. split; [assumption|].
    eapply cong_trans; [exact Hc2|].
    replace (Z.lxor (Z.shiftl init (8 * zlen (data ++ [b]))) (Z.shiftl (poly_of_bytes (data ++ [b])) 16))
      with (Z.lxor (Z.shiftl (Z.lxor (Z.shiftl init (8 * zlen data)) (Z.shiftl (poly_of_bytes data) 16)) 8) (Z.shiftl b 16)).
    + apply cong_lxor; [apply cong_shl; [lia|assumption]|apply cong_refl].
    + rewrite poly_app. unfold is_u8 in H1. change (poly_of_bytes data * 256 + b) with (poly_of_bytes data * 2 ^ 8 + b).
      rewrite (add_lxor_disjoint (poly_of_bytes data) b 8) by (change (2^8) with 256; lia).
      rewrite <- (Z.shiftl_mul_pow2 _ 8) by lia. rewrite !Z.shiftl_lxor.
      rewrite !Z.shiftl_shiftl by zl. rewrite <- Z.lxor_assoc.
      do 2 f_equal. f_equal. zl.
Qed.

Lemma fl_cons {A B} (f : A -> B -> A) b l a : fold_left f (b :: l) a = fold_left f l (f a b).
Proof. reflexivity. Qed.
Lemma crc16_compute_cons crc b r :
  crc16_compute crc (b :: r) = bind (crc16_table_step crc b) (fun c => crc16_compute c r).
Proof. reflexivity. Qed.
Lemma crc16_table_eq data : forall init, 0 <= init < 65536 -> bytes data ->
  crc16_compute init data = Some (fold_left crc16_bitwise_step data init).
Proof.
  induction data as [|b data IH]; intros init Hi Hb; [reflexivity|]. inv Hb.
  rewrite crc16_compute_cons, table_step_eq by assumption. cbn [bind].
  rewrite (fl_cons crc16_bitwise_step).
  assert (HS := proj1 (bitwise_step_ok init b Hi H1)). generalize dependent (crc16_bitwise_step init b).
  intros c HS. now apply IH.
Qed.

Lemma cong_is_rem a r : 0 <= r < 65536 -> cong r a -> is_rem a r.
Proof.
  intros Hr (q & Hq & E). split; [exact Hr|]. exists q. split; [assumption|].
  rewrite <- E. rewrite (Z.lxor_comm r a), Z.lxor_assoc, Z.lxor_nilpotent, Z.lxor_0_r. reflexivity.
Qed.

(** Uniqueness of the remainder. *)
Lemma clmul_log2 q P : 0 < q -> 0 < P -> Z.log2 (clmul q P) = Z.log2 q + Z.log2 P /\ 0 < clmul q P.
Proof.
  intros Hq HP. revert q Hq.
  assert (forall q, 0 <= q -> 0 < q -> Z.log2 (clmul q P) = Z.log2 q + Z.log2 P /\ 0 < clmul q P) as HH.
  2:{ intros; apply HH; lia. }
  refine (bounded_ind _ _ _); [lia|].
  intros q b Hq IH Hpos. rewrite clmul_double by assumption.
  destruct (Z.eq_dec q 0) as [->|Hnz].
  - destruct b; [|cbn in Hpos; lia]. cbn [clmul]. rewrite Z.mul_0_r, Z.lxor_0_r.
    split; [change (Z.log2 (0 + Z.b2z true)) with 0; lia|assumption].
  - specialize (IH ltac:(lia)). destruct IH as [IHl IHp].
    assert (L2 : Z.log2 (2 * clmul q P) = 1 + Z.log2 (clmul q P)) by (rewrite Z.log2_double by lia; lia).
    assert (Lq : Z.log2 (2 * q + Z.b2z b) = 1 + Z.log2 q).
    { destruct b; cbn [Z.b2z]; [rewrite Z.log2_succ_double by lia; lia|rewrite Z.add_0_r, Z.log2_double by lia; lia]. }
    rewrite Lq.
    assert (HX : Z.log2 (Z.lxor (if b then P else 0) (2 * clmul q P)) = Z.log2 (2 * clmul q P) /\ 0 < Z.lxor (if b then P else 0) (2 * clmul q P)).
    { assert (Hlt : Z.log2 (if b then P else 0) < Z.log2 (2 * clmul q P)).
      { pose proof (Z.log2_nonneg q). pose proof (Z.log2_nonneg P). destruct b; [lia|cbn; lia]. }
      assert (Hnn : 0 <= Z.lxor (if b then P else 0) (2 * clmul q P)) by (apply lxor_nonneg; destruct b; lia).
      assert (Hbit : Z.testbit (Z.lxor (if b then P else 0) (2 * clmul q P)) (Z.log2 (2 * clmul q P)) = true).
      { rewrite Z.lxor_spec. rewrite Z.bit_log2 by lia. rewrite Z.bits_above_log2; [reflexivity|destruct b; lia|exact Hlt]. }
      assert (Hp : 0 < Z.lxor (if b then P else 0) (2 * clmul q P)).
      { destruct (Z.eq_dec (Z.lxor (if b then P else 0) (2 * clmul q P)) 0) as [E|]; [|lia].
        rewrite E, Z.bits_0 in Hbit. discriminate. }
      split; [|assumption]. apply Z.le_antisymm.
      - pose proof (Z.log2_lxor (if b then P else 0) (2 * clmul q P)). destruct b; lia.
      - destruct (Z.le_gt_cases (Z.log2 (2 * clmul q P)) (Z.log2 (Z.lxor (if b then P else 0) (2 * clmul q P)))); [assumption|].
        rewrite Z.bits_above_log2 in Hbit; [discriminate|assumption|lia]. }
    lia.
Qed.

Lemma cong_small a : 0 <= a < 65536 -> cong a 0 -> a = 0.
Proof.
  intros Ha (q & Hq & E). rewrite Z.lxor_0_r in E.
  destruct (Z.eq_dec q 0) as [->|]; [assumption|].
  destruct (clmul_log2 q CRC_POLY) as [L Hp]; [lia|reflexivity|].
  rewrite <- E in L, Hp. assert (Z.log2 a < 16) by (apply Z.log2_lt_pow2; [lia|change (2^16) with 65536; lia]).
  change (Z.log2 CRC_POLY) with 16 in L. pose proof (Z.log2_nonneg q). lia.
Qed.

Lemma is_rem_cong a r : is_rem a r -> cong a r.
Proof.
  intros [_ (q & Hq & E)]. exists q. split; [assumption|]. rewrite E, Z.lxor_assoc, Z.lxor_nilpotent, Z.lxor_0_r. reflexivity.
Qed.
Lemma is_rem_unique a r s : is_rem a r -> is_rem a s -> r = s.
Proof.
  intros Hr Hs. assert (H : cong (Z.lxor r s) 0).
  { rewrite <- (Z.lxor_nilpotent a). apply cong_sym. apply cong_lxor; now apply is_rem_cong. }
  destruct Hr as [Hr _], Hs as [Hs _]. apply cong_small in H; [now apply Z.lxor_eq|].
  split; [apply lxor_nonneg; lia|]. change 65536 with (2^16). apply lxor_lt; lia.
Qed.

Lemma crc16_correct init data : is_u16 init -> bytes data ->
  exists r, crc16_compute init data = Some r /\ crc16_compute_bitwise init data = r /\
    is_crc init data r /\ (forall s, is_crc init data s -> s = r).
Proof.
  unfold is_u16. intros Hi Hb. destruct (fold_bitwise_ok data init Hi Hb) as [Hr Hc]. cbv zeta in *.
  exists (fold_left crc16_bitwise_step data init). split; [now apply crc16_table_eq|].
  split; [unfold crc16_compute_bitwise, u16; apply Z.mod_small; change (2^16) with 65536; lia|].
  pose proof (cong_is_rem _ _ Hr Hc) as HR. split; [exact HR|].
  intros s Hs. eapply is_rem_unique; eassumption.
Qed.

Lemma crc16_app init a b : crc16_compute init (a ++ b) = do r <- crc16_compute init a; crc16_compute r b.
Proof.
  revert init; induction a as [|x a IH]; intros; [reflexivity|]. cbn [app crc16_compute].
  destruct (crc16_table_step init x); cbn [bind]; auto.
Qed.
Lemma crc16_u16 init a r : is_u16 init -> bytes a -> crc16_compute init a = Some r -> is_u16 r.
Proof.
  intros Hi Hb E. unfold is_u16 in *. rewrite crc16_table_eq in E by assumption. injection E as <-.
  now apply (fold_bitwise_ok a init).
Qed.
Lemma crc16_some init a : is_u16 init -> bytes a -> exists r, crc16_compute init a = Some r /\ is_u16 r.
Proof.
  intros Hi Hb. pose proof (crc16_table_eq a init Hi Hb) as E. rewrite E. eexists; split; [reflexivity|].
  eapply crc16_u16; eauto.
Qed.

(** ** Burst errors *)
Fixpoint bval (l : list bool) : Z := (* big endian value of a bit string *)
  match l with [] => 0 | b :: r => Z.b2z b * 2 ^ zlen r + bval r end.
Lemma bval_range l : 0 <= bval l < 2 ^ zlen l.
Proof.
  induction l as [|b l IH]; cbn [bval]; [change (2 ^ zlen (@nil bool)) with 1; lia|].
  rewrite zlen_cons, Z.pow_add_r by zl. change (2^1) with 2. destruct b; cbn [Z.b2z]; lia.
Qed.
Lemma bval_app a b : bval (a ++ b) = bval a * 2 ^ zlen b + bval b.
Proof.
  induction a as [|x a IH]; [reflexivity|]. cbn [app bval]. rewrite IH, zlen_app.
  rewrite Z.pow_add_r by zl. lia.
Qed.
Lemma bits_of_byte_val b : is_u8 b -> bval (bits_of_byte b) = b.
Proof.
  intros H. assert (E : (bval (bits_of_byte b) =? b) = true).
  { revert b H. apply (zrange_all (fun b => bval (bits_of_byte b) =? b) 256). vm_compute. reflexivity. }
  lia.
Qed.
Lemma bits_of_zlen l : zlen (bits_of l) = 8 * zlen l.
Proof. induction l as [|b l IH]; [reflexivity|]. unfold bits_of in *. cbn [flat_map]. rewrite zlen_app, IH, zlen_cons. change (zlen (bits_of_byte b)) with 8. lia. Qed.
Lemma poly_bits l : bytes l -> poly_of_bytes l = bval (bits_of l).
Proof.
  unfold bytes. induction l as [|b l IH] using rev_ind; intros H; [reflexivity|].
  apply Forall_app in H as [H1 H2]. inv H2. rewrite poly_app, IH by assumption.
  unfold bits_of. rewrite flat_map_app. cbn [flat_map]. rewrite app_nil_r, bval_app, bits_of_byte_val by assumption.
  change (zlen (bits_of_byte b)) with 8. change (2^8) with 256. reflexivity.
Qed.
Lemma bval_inj a b : zlen a = zlen b -> bval a = bval b -> a = b.
Proof.
  revert b; induction a as [|x a IH]; intros [|y b] Hl Hv; [reflexivity|zl|zl|].
  rewrite !zlen_cons in Hl. assert (Hl' : zlen a = zlen b) by lia. cbn [bval] in Hv.
  pose proof (bval_range a) as Ra. pose proof (bval_range b) as Rb. rewrite Hl' in Hv, Ra.
  destruct x, y; cbn [Z.b2z] in Hv; try (f_equal; apply IH; [assumption|lia]); exfalso; generalize dependent (2 ^ zlen b); intros; lia.
Qed.
Lemma lxor_shl_add a b k u v : 0 <= k -> 0 <= u < 2 ^ k -> 0 <= v < 2 ^ k ->
  Z.lxor (a * 2 ^ k + u) (b * 2 ^ k + v) = Z.lxor a b * 2 ^ k + Z.lxor u v.
Proof.
  intros Hk Hu Hv.
  rewrite (add_lxor_disjoint a u), (add_lxor_disjoint b v), (add_lxor_disjoint (Z.lxor a b)); try lia.
  2:{ split; [apply lxor_nonneg; lia|now apply lxor_lt]. }
  rewrite <- !Z.shiftl_mul_pow2 by lia. rewrite Z.shiftl_lxor.
  apply Z.bits_inj'. intros n Hn. rewrite !Z.lxor_spec.
  destruct (Z.testbit (Z.shiftl a k) n), (Z.testbit u n), (Z.testbit (Z.shiftl b k) n), (Z.testbit v n); reflexivity.
Qed.

(** The polynomial has a constant term, so it is coprime to x. *)
Lemma cong_unshift a : 0 <= a -> cong (2 * a) 0 -> cong a 0.
Proof.
  intros Ha (q & Hq & E). rewrite Z.lxor_0_r in E.
  destruct (half_split q Hq) as (q' & b & -> & Hq'). rewrite clmul_double in E by assumption.
  assert (b = false) as ->.
  { assert (T : Z.testbit (2 * a) 0 = Z.testbit (Z.lxor (if b then CRC_POLY else 0) (2 * clmul q' CRC_POLY)) 0) by now rewrite E.
    rewrite Z.lxor_spec, !Z.testbit_even_0 in T. destruct b; [|reflexivity]. discriminate T. }
  rewrite Z.lxor_0_l in E. exists q'. split; [assumption|]. rewrite Z.lxor_0_r. lia.
Qed.
Lemma cong_unshl a k : 0 <= a -> 0 <= k -> cong (Z.shiftl a k) 0 -> cong a 0.
Proof.
  intros Ha Hk. revert k Hk. refine (natlike_ind _ _ _).
  - now rewrite Z.shiftl_0_r.
  - intros k Hk IH H. apply IH. rewrite shl_succ in H by lia.
    apply cong_unshift; [apply Z.shiftl_nonneg; lia|assumption].
Qed.

Lemma crc16_burst init d1 d2 pre x y post r1 r2 :
  is_u16 init -> bytes d1 -> bytes d2 -> 
  bits_of d1 = pre ++ x ++ post -> bits_of d2 = pre ++ y ++ post ->
  zlen x = zlen y -> zlen x <= 16 -> x <> y ->
  crc16_compute init d1 = Some r1 -> crc16_compute init d2 = Some r2 -> r1 <> r2.
Proof.
  intros Hi Hb1 Hb2 E1 E2 Hl H16 Hne C1 C2 Heq. subst r2.
  destruct (crc16_correct init d1 Hi Hb1) as (s1 & S1 & _ & R1 & _). rewrite C1 in S1. injection S1 as <-.
  destruct (crc16_correct init d2 Hi Hb2) as (s2 & S2 & _ & R2 & _). rewrite C2 in S2. injection S2 as <-.
  assert (Hlen : zlen d1 = zlen d2).
  { pose proof (bits_of_zlen d1). pose proof (bits_of_zlen d2). rewrite E1 in H. rewrite E2 in H0. zl. }
  unfold is_crc in *. rewrite <- Hlen in R2.
  apply is_rem_cong in R1. apply is_rem_cong in R2.
  assert (C : cong (Z.lxor (Z.shiftl (poly_of_bytes d1) 16) (Z.shiftl (poly_of_bytes d2) 16)) 0).
  { set (I := Z.shiftl init (8 * zlen d1)) in *.
    replace (Z.lxor (Z.shiftl (poly_of_bytes d1) 16) (Z.shiftl (poly_of_bytes d2) 16))
      with (Z.lxor (Z.lxor I (Z.shiftl (poly_of_bytes d1) 16)) (Z.lxor I (Z.shiftl (poly_of_bytes d2) 16))).
    - rewrite <- (Z.lxor_nilpotent r1). now apply cong_lxor.
    - apply Z.bits_inj'. intros n Hn. rewrite !Z.lxor_spec.
      destruct (Z.testbit I n), (Z.testbit (Z.shiftl (poly_of_bytes d1) 16) n), (Z.testbit (Z.shiftl (poly_of_bytes d2) 16) n); reflexivity. }
  rewrite <- Z.shiftl_lxor in C.
  rewrite (poly_bits d1), (poly_bits d2), E1, E2, !bval_app in C by assumption.
  rewrite zlen_app in C. rewrite (zlen_app y post), <- Hl in C.
  pose proof (bval_range x). pose proof (bval_range y). pose proof (bval_range post).
  rewrite lxor_shl_add in C.
  2: zl.
  2,3: rewrite Z.pow_add_r by zl; rewrite <- ?Hl in *; nia.
  rewrite Z.lxor_nilpotent, Z.mul_0_l, Z.add_0_l in C.
  rewrite lxor_shl_add, Z.lxor_nilpotent, Z.add_0_r in C by zl.
  rewrite <- Z.shiftl_mul_pow2 in C by zl.
  assert (HX : 0 <= Z.lxor (bval x) (bval y) < 65536).
  { split; [apply lxor_nonneg; lia|]. pose proof (Z.pow_le_mono_r 2 (zlen x) 16 ltac:(lia) ltac:(zl)).
    change 65536 with (2^16). apply lxor_lt; rewrite <- ?Hl in *; lia. }
  rewrite Z.shiftl_shiftl in C by zl.
  apply cong_unshl in C; [|lia|zl].
  apply cong_small in C; [|assumption]. apply Z.lxor_eq in C. apply Hne. now apply bval_inj.
Qed.
