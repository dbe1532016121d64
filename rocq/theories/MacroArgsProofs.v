From Verif Require Import Base MacroArgs MacroArgsSpec.

Fixpoint pack (codes : list Z) : Z := match codes with [] => 0 | c :: r => c * 2 ^ (2 * zlen r) + pack r end.
Lemma lor_plus a b k : 0 <= k -> 0 <= b < 2 ^ k -> Z.lor (Z.shiftl a k) b = a * 2 ^ k + b.
Proof.
  intros K H. rewrite <- Z.shiftl_mul_pow2 by lia.
  assert (L : Z.land (Z.shiftl a k) b = 0).
  { destruct (Z.eq_dec b 0) as [->|D]; [apply Z.land_0_r|]. apply Z.bits_inj'. intros n Hn. rewrite Z.land_spec, Z.bits_0. destruct (Z.lt_ge_cases n k).
    - rewrite Z.shiftl_spec_low by lia. reflexivity.
    - rewrite (Z.bits_above_log2 b n), andb_false_r; [reflexivity|lia|].
      assert (Z.log2 b < k) by (apply Z.log2_lt_pow2; lia). lia. }
  rewrite <- Z.lxor_lor by exact L. symmetry. now apply Z.add_nocarry_lxor.
Qed.
Lemma pack_range codes : Forall (fun c => 0 <= c < 4) codes -> 0 <= pack codes < 2 ^ (2 * zlen codes).
Proof.
  induction 1 as [|c r C F IH]; cbn [pack]; [change (zlen (@nil Z)) with 0; cbn; lia|].
  rewrite zlen_cons. pose proof (zlen_nonneg r). replace (2 * (1 + zlen r)) with (2 + 2 * zlen r) by lia. rewrite Z.pow_add_r by lia. change (2 ^ 2) with 4.
  pose proof (Z.pow_pos_nonneg 2 (2 * zlen r) ltac:(lia) ltac:(lia)). nia.
Qed.
Lemma pack_digit : forall codes h i c, Forall (fun c => 0 <= c < 4) codes -> 0 <= h -> nth_error codes i = Some c ->
  ((h * 2 ^ (2 * zlen codes) + pack codes) / 2 ^ (2 * (zlen codes - 1 - Z.of_nat i))) mod 4 = c.
Proof.
  induction codes as [|d r IH]; intros h i c F H N; [now destruct i|].
  inversion F as [|? ? D F']; subst. pose proof (zlen_nonneg r) as L. rewrite zlen_cons. cbn [pack].
  replace (h * 2 ^ (2 * (1 + zlen r)) + (d * 2 ^ (2 * zlen r) + pack r)) with ((h * 4 + d) * 2 ^ (2 * zlen r) + pack r).
  2:{ replace (2 * (1 + zlen r)) with (2 + 2 * zlen r) by lia. rewrite Z.pow_add_r by lia. change (2 ^ 2) with 4. ring. }
  destruct i as [|i]; cbn [nth_error] in N.
  - injection N as <-. replace (2 * (1 + zlen r - 1 - Z.of_nat 0)) with (2 * zlen r) by lia.
    pose proof (pack_range r F') as P. rewrite Z.div_add_l by lia. rewrite (Z.div_small (pack r)) by lia. rewrite Z.add_0_r, Z.add_comm, Z.mod_add by lia. apply Z.mod_small. lia.
  - replace (1 + zlen r - 1 - Z.of_nat (S i)) with (zlen r - 1 - Z.of_nat i) by lia. apply IH; [exact F'|lia|exact N].
Qed.
Lemma describes_ok codes : Forall (fun c => 0 <= c < 4) codes -> describes (2 ^ (2 * zlen codes) + pack codes) codes.
Proof.
  intros F. pose proof (pack_range codes F) as P. pose proof (zlen_nonneg codes) as L. split; [lia|]. split.
  - apply Z.log2_unique; [lia|]. rewrite Z.pow_succ_r by lia. lia.
  - intros i c N. assert (I : (i < length codes)%nat) by (apply nth_error_Some; congruence). rewrite Z.shiftr_div_pow2 by (unfold zlen in *; lia).
    rewrite <- (pack_digit codes 1 i c F ltac:(lia) N) at 1. f_equal. f_equal. lia.
Qed.

(** the preprocessor *)
Lemma nth_after (A B : Type) (f : A -> B) d args L k : nth_error (d :: map f args ++ L) (S k) =
  if (k <? length args)%nat then option_map f (nth_error args k) else nth_error L (k - length args)%nat.
Proof.
  cbn [nth_error]. destruct (Nat.ltb_spec k (length args)) as [H|H].
  - rewrite nth_error_app1 by (now rewrite map_length). apply nth_error_map.
  - rewrite nth_error_app2 by (now rewrite map_length). now rewrite map_length.
Qed.
Lemma down_32 n : (n <= 32)%nat -> nth_error (map (fun k => PNum (Z.of_nat k)) (down_from 32)) (32 - n) = Some (PNum (Z.of_nat n)).
Proof.
  intros H. assert (F : Forall (fun n => nth_error (map (fun k => PNum (Z.of_nat k)) (down_from 32)) (32 - n) = Some (PNum (Z.of_nat n))) (seq 0 33))
    by (repeat (apply Forall_cons; [reflexivity|]); constructor).
  rewrite Forall_forall in F. apply F, in_seq. lia.
Qed.
Lemma down_15 n : (n <= 15)%nat -> nth_error (map PFmt (down_from 15)) (15 - n) = Some (PFmt n).
Proof.
  intros H. assert (F : Forall (fun n => nth_error (map PFmt (down_from 15)) (15 - n) = Some (PFmt n)) (seq 0 16))
    by (repeat (apply Forall_cons; [reflexivity|]); constructor).
  rewrite Forall_forall in F. apply F, in_seq. lia.
Qed.
Lemma count_ok args : (length args <= 32)%nat -> count_tok args = Some (PNum (zlen args)).
Proof. intros H. unfold count_tok. rewrite nth_after. destruct (Nat.ltb_spec 32 (length args)); [lia|]. now apply down_32. Qed.
Lemma count_more args : (32 < length args)%nat -> count_tok args = option_map PArg (nth_error args 32).
Proof. intros H. unfold count_tok. rewrite nth_after. destruct (Nat.ltb_spec 32 (length args)); [reflexivity|lia]. Qed.
Lemma name_ok args : (length args <= 15)%nat -> name_tok args = Some (PFmt (length args)).
Proof. intros H. unfold name_tok. rewrite nth_after. destruct (Nat.ltb_spec 15 (length args)); [lia|]. now apply down_15. Qed.
Lemma name_more args : (15 < length args)%nat -> name_tok args = option_map PArg (nth_error args 15).
Proof. intros H. unfold name_tok. rewrite nth_after. destruct (Nat.ltb_spec 15 (length args)); [reflexivity|lia]. Qed.

Section Lang.
Context (promo : cty -> Z).
Hypothesis HP : forall t, 0 <= promo t < 4.
Lemma codes_ok args : Forall (fun c => 0 <= c < 4) (map (fun a => promo (c_ty a)) args).
Proof. apply Forall_forall. intros c H. apply in_map_iff in H as (a & <- & _). apply HP. Qed.
Lemma mf_fmt_ok : forall args, mf_fmt promo (length args) args = Some (pack (map (fun a => promo (c_ty a)) args)).
Proof.
  induction args as [|x [|y r] IH]; [reflexivity|cbn [length mf_fmt map pack]; unfold encode_op; rewrite Z.shiftl_0_r; change (zlen (@nil Z)) with 0; change (2 ^ (2 * 0)) with 1; f_equal; lia|].
  change (mf_fmt promo (length (x :: y :: r)) (x :: y :: r)) with
    (do v <- mf_fmt promo (length (y :: r)) (y :: r); Some (Z.lor (encode_op promo x (2 * Z.of_nat (length (y :: r)))) v)).
  rewrite IH. cbn [bind]. f_equal. set (l := y :: r). change (map (fun a => promo (c_ty a)) (x :: l)) with (promo (c_ty x) :: map (fun a => promo (c_ty a)) l).
  cbn [pack]. pose proof (pack_range _ (codes_ok l)) as P. unfold encode_op. replace (Z.of_nat (length l)) with (zlen (map (fun a => promo (c_ty a)) l)) by (unfold zlen; now rewrite map_length).
  apply lor_plus; [pose proof (zlen_nonneg (map (fun a => promo (c_ty a)) l)); lia|exact P].
Qed.
Lemma log_fmt_ok args : (length args <= 15)%nat ->
  log_fmt promo args = Some (2 ^ (2 * zlen args) + pack (map (fun a => promo (c_ty a)) args)).
Proof.
  intros H. unfold log_fmt, for_each. rewrite (name_ok args H), mf_fmt_ok. cbn [bind]. rewrite count_ok by lia. cbn [const_of bind]. f_equal.
  pose proof (pack_range _ (codes_ok args)) as P. rewrite Z.lor_comm.
  replace (zlen args) with (zlen (map (fun a => promo (c_ty a)) args)) by (unfold zlen; now rewrite map_length).
  rewrite lor_plus; [lia|pose proof (zlen_nonneg (map (fun a => promo (c_ty a)) args)); lia|exact P].
Qed.
Lemma log_fmt_more args : (15 < length args)%nat -> log_fmt promo args = None.
Proof. intros H. unfold log_fmt, for_each. rewrite (name_more args H). destruct (nth_error args 15); reflexivity. Qed.
Lemma compiles_ok args : compiles promo args = true <-> zlen args <= 15.
Proof.
  unfold compiles, check, zlen. destruct (Nat.le_gt_cases (length args) 15) as [H|H].
  - rewrite log_fmt_ok by exact H. rewrite count_ok by lia. cbn [const_of bind]. unfold zlen. destruct (Z.leb_spec (Z.of_nat (length args)) 15); split; (reflexivity || lia).
  - rewrite log_fmt_more by exact H. split; [|lia]. destruct (do n <- const_of (count_tok args); Some (n <=? 15)) as [[]|]; discriminate.
Qed.
End Lang.
Lemma promo_c_range t : 0 <= promo_c t < 4.
Proof. destruct t as [| | |s c|n|n]; unfold promo_c, TO_DOUBLE, TO_STR, TO_INT32, TO_INT64; try lia; destruct (_ <=? 4); lia. Qed.
Lemma promo_same t : promo_cpp t = promo_c t.
Proof. destruct t as [| | |[] c|n|n]; reflexivity. Qed.
