(** C136: the macros of a compact log describe its arguments, and refuse too many. *)
From Verif Require Import Base CompactLog CompactLogProofs MacroArgs MacroArgsSpec MacroArgsProofs.

(** up to 32 arguments are counted *)
Theorem C136_count : forall args, zlen args <= 32 -> count_tok args = Some (PNum (zlen args)).
Proof. intros args H. apply count_ok. unfold zlen in H. lia. Qed.
Print Assumptions C136_count.

(** a log compiles exactly when it has at most 15 arguments, and then the format, which fits an int, has the type of each, in C as in C++ *)
Theorem C136_compiles : forall args, compiles promo_c args = true <-> zlen args <= 15.
Proof. intros args. apply compiles_ok. exact promo_c_range. Qed.
Print Assumptions C136_compiles.
Theorem C136_format : forall args, zlen args <= 15 ->
  exists fmt, log_fmt promo_c args = Some fmt /\ log_fmt promo_cpp args = Some fmt /\ fmt < 2 ^ 31 /\ describes fmt (map (fun a => promo_c (c_ty a)) args).
Proof.
  intros args H. assert (L : (length args <= 15)%nat) by (unfold zlen in H; lia).
  pose proof (codes_ok promo_c promo_c_range args) as F. pose proof (pack_range _ F) as P.
  assert (Z : zlen (map (fun a => promo_c (c_ty a)) args) = zlen args) by (unfold zlen; now rewrite map_length).
  exists (2 ^ (2 * zlen args) + pack (map (fun a => promo_c (c_ty a)) args)).
  split; [exact (log_fmt_ok promo_c promo_c_range args L)|]. split.
  - rewrite (log_fmt_ok promo_cpp); [|intro t; rewrite promo_same; apply promo_c_range|exact L]. do 2 f_equal. f_equal. apply map_ext. intro a. apply promo_same.
  - rewrite Z in P. split.
    + apply Z.lt_le_trans with (2 ^ (2 * zlen args) * 2); [lia|]. change (2 ^ 31) with (2 ^ 30 * 2). apply Z.mul_le_mono_nonneg_r; [lia|]. apply Z.pow_le_mono_r; lia.
    + rewrite <- Z. now apply describes_ok.
Qed.
Print Assumptions C136_format.

(** so it is the format the serializer is proved for (C50) *)
Lemma bits_pack l : fmt_bits l = pack (map arg_type l).
Proof.
  induction l as [|a r IH]; [reflexivity|]. cbn [fmt_bits map pack]. pose proof (zlen_nonneg r). rewrite lor_add by (lia || apply fmt_bits_range). rewrite IH.
  replace (zlen (map arg_type r)) with (zlen r) by (unfold zlen; now rewrite map_length). reflexivity.
Qed.
Theorem C136_is_the_serializers : forall args values, zlen args <= 15 -> map (fun a => promo_c (c_ty a)) args = map arg_type values ->
  log_fmt promo_c args = Some (compressed_fmt values).
Proof.
  intros args values H E. rewrite (log_fmt_ok promo_c promo_c_range) by (unfold zlen in H; lia). rewrite fmt_value, bits_pack, E. do 2 f_equal.
  apply (f_equal (@length Z)) in E. rewrite !map_length in E. unfold zlen. now rewrite E.
Qed.
Print Assumptions C136_is_the_serializers.

(** what the serializer reads is what was passed *)
Theorem C136_read_as_passed : forall t, common t -> reads (promo_c t) = Some (passes t).
Proof.
  intros [| | |s c|n|n] C; cbn [common] in C; try contradiction; try reflexivity.
  - destruct C as [->|[->|[->| ->]]]; reflexivity.
  - destruct C as [->| ->]; reflexivity.
Qed.
Print Assumptions C136_read_as_passed.

(** ** What does not hold *)
(** more than 15 arguments fail the check: of 33 it is the last that is taken for their number *)
Theorem C136_check_refuted : ~ (forall args, check args = Some true -> zlen args <= 15).
Proof.
  intros H. specialize (H (repeat (mk_carg (TInt 4) (Some 0)) 33) eq_refl). vm_compute in H. now apply H.
Qed.
Print Assumptions C136_check_refuted.
(** every argument is read as it was passed: a long double is read as a double, an integer of 16 bytes as one of 8 *)
Theorem C136_long_double_refuted : ~ (forall t, reads (promo_c t) = Some (passes t)).
Proof. intros H. specialize (H TLongDouble). discriminate H. Qed.
Print Assumptions C136_long_double_refuted.

Definition call1 := [mk_carg (TCharPtr CPlain true) None; mk_carg (TInt 8) None; mk_carg (TInt 1) (Some 7)].
(** the example of compact_log_helpers.h:231 *)
Example C136_case : log_fmt promo_c call1 = Some 0x74 /\ describes 0x74 [3; 1; 0] /\ compiles promo_c call1 = true /\
  log_fmt promo_c (repeat (mk_carg TFloat None) 15) = Some 0x6AAAAAAA /\ check (repeat (mk_carg TFloat None) 16) = Some false.
Proof.
  split; [reflexivity|]. split; [|repeat split]. split; [lia|]. split; [reflexivity|].
  intros [|[|[|i]]] c H; cbn in H; try (injection H as <-; reflexivity). destruct i; discriminate H.
Qed.
