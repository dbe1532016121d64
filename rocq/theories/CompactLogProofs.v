From Coq Require Import String.
From Verif Require Import Base Cbor CborSpec CborDoc CborProofs SerializerHelper SerializerHelperSpec SerializerHelperProofs SerializerDocs CompactLog CompactLogSpec.

Lemma type_range a : 0 <= arg_type a < 4. Proof. destruct a; cbn; lia. Qed.

(** The bits as a number: OR of disjoint bits is a sum. *)
Lemma lor_add a b k : 0 <= k -> 0 <= b < 2 ^ k -> Z.lor (Z.shiftl a k) b = a * 2 ^ k + b.
Proof.
  intros K H. rewrite <- Z.shiftl_mul_pow2 by lia.
  assert (L : Z.land (Z.shiftl a k) b = 0).
  { destruct (Z.eq_dec b 0) as [->|D]; [apply Z.land_0_r|]. apply Z.bits_inj'. intros n Hn. rewrite Z.land_spec, Z.bits_0. destruct (Z.lt_ge_cases n k).
    - rewrite Z.shiftl_spec_low by lia. reflexivity.
    - rewrite (Z.bits_above_log2 b n), andb_false_r; [reflexivity|lia|].
      assert (Z.log2 b < k) by (apply Z.log2_lt_pow2; lia). lia. }
  rewrite <- Z.lxor_lor by exact L. symmetry. now apply Z.add_nocarry_lxor.
Qed.
Lemma fmt_bits_range args : 0 <= fmt_bits args < 2 ^ (2 * zlen args).
Proof.
  induction args as [|a r IH]; cbn [fmt_bits]; [change (zlen (@nil larg)) with 0; cbn; lia|].
  pose proof (zlen_nonneg r). rewrite lor_add by lia. pose proof (type_range a). rewrite zlen_cons.
  replace (2 * (1 + zlen r)) with (2 + 2 * zlen r) by lia. rewrite Z.pow_add_r by lia. change (2 ^ 2) with 4. nia.
Qed.

Definition arg_doc (a : larg) : doc :=
  match a with
  | AInt v => DSigned v
  | ALong v => DArray [DLong v]
  | ADouble b => DDouble b
  | AStr s => DString (match s with Some s => s | None => str "(null)" end)
  end.
Definition compact_doc (offset : Z) (args : list larg) : doc := DArray (DUnsigned offset :: map arg_doc args).

Lemma loop_ok fmt n : forall args i, i + zlen args = n -> 0 <= i -> fmt mod 2 ^ (2 * zlen args) = fmt_bits args ->
  exists p, compact_loop (length args) fmt n i args = Some p /\ runs p (flat_map doc_ops (map arg_doc args)) /\ (Forall arg_ok args -> eprog_ok p).
Proof.
  induction args as [|a r IH]; intros i E H0 M; cbn [length compact_loop].
  - exists (ERet true). split; [reflexivity|]. split; [apply runs_ret|intros _; exact I].
  - rewrite zlen_cons in *. pose proof (zlen_nonneg r) as HR. pose proof (type_range a) as HT. pose proof (fmt_bits_range r) as HF.
    cbn [fmt_bits] in M. rewrite lor_add in M by lia. set (q := 2 ^ (2 * zlen r)) in *.
    assert (HQ : 0 < q) by (unfold q; apply Z.pow_pos_nonneg; lia).
    assert (EQ : 2 ^ (2 * (1 + zlen r)) = q * 4).
    { unfold q. replace (2 * (1 + zlen r)) with (2 * zlen r + 2) by lia. rewrite Z.pow_add_r by lia. reflexivity. }
    rewrite EQ in M. rewrite Z.rem_mul_r in M by lia.
    assert (MR : fmt mod q = fmt_bits r /\ (fmt / q) mod 4 = arg_type a).
    { pose proof (Z.mod_pos_bound fmt q HQ). pose proof (Z.div_mod_unique q ((fmt / q) mod 4) (arg_type a) (fmt mod q) (fmt_bits r)) as U.
      destruct U as [U1 U2]; [lia|lia|lia|auto]. }
    destruct MR as [MR MT].
    assert (TY : Z.land (Z.shiftr fmt ((n - i - 1) * 2)) 3 = arg_type a).
    { replace ((n - i - 1) * 2) with (2 * zlen r) by lia. rewrite Z.shiftr_div_pow2 by lia. fold q. rewrite <- MT. exact (Z.land_ones _ 2 ltac:(lia)). }
    rewrite TY. destruct (IH (i + 1) ltac:(lia) ltac:(lia) MR) as (p & P & R & O). rewrite P. cbn [bind].
    destruct a as [v|v|b|s]; cbn [arg_type]; change (0 =? 0) with true; change (1 =? 1) with true; change (2 =? 2) with true; change (3 =? 3) with true; cbv iota;
      (eexists; split; [reflexivity|]); cbn [map flat_map arg_doc doc_ops app]; split.
    + exact (runs_and _ _ [_] _ (runs_all _) R).
    + intros F. inversion F; subst. apply eok_and; [eok|auto].
    + exact (runs_and _ _ [_; _] _ (runs_all _) R).
    + intros F. inversion F; subst. apply eok_and; [eok|auto].
    + exact (runs_and _ _ [_] _ (runs_all _) R).
    + intros F. inversion F; subst. apply eok_and; [eok|auto].
    + exact (runs_and _ _ [_] _ (runs_all _) R).
    + intros F. inversion F as [|? ? FA FR]; subst. apply eok_and; [|auto]. eok. destruct s as [s|]; [destruct FA; split; [assumption|cbn; lia]|].
      split; [cbn; repeat constructor; unfold is_u8; lia|reflexivity].
Qed.

Lemma fmt_value args : compressed_fmt args = 2 ^ (2 * zlen args) + fmt_bits args.
Proof. unfold compressed_fmt. rewrite Z.lor_comm. pose proof (zlen_nonneg args). rewrite lor_add by (lia || apply fmt_bits_range). lia. Qed.
Lemma compact_ok start log_id args : Forall arg_ok args -> zlen args <= 15 ->
  exists p, compact_serialize start log_id (compressed_fmt args) args = Some p /\ eprog_ok p /\
    runs p (doc_ops (compact_doc ((log_id - start) mod 4294967296) args)).
Proof.
  intros F H. pose proof (zlen_nonneg args) as HN. pose proof (fmt_bits_range args) as HF.
  assert (HP : 0 < 2 ^ (2 * zlen args)) by (apply Z.pow_pos_nonneg; lia).
  unfold compact_serialize, clz32. rewrite fmt_value. replace (2 ^ (2 * zlen args) + fmt_bits args =? 0) with false by lia.
  assert (LG : Z.log2 (2 ^ (2 * zlen args) + fmt_bits args) = 2 * zlen args).
  { apply Z.log2_unique; [lia|]. rewrite Z.pow_succ_r by lia. lia. }
  rewrite LG. replace ((31 - (31 - 2 * zlen args)) / 2) with (zlen args) by (replace (31 - (31 - 2 * zlen args)) with (zlen args * 2) by lia; now rewrite Z.div_mul).
  cbn zeta. replace (Z.to_nat (zlen args)) with (length args) by (unfold zlen; lia).
  destruct (loop_ok (2 ^ (2 * zlen args) + fmt_bits args) (zlen args) args 0) as (p & P & R & O).
  { lia. } { lia. } { rewrite <- (Z.mul_1_l (2 ^ (2 * zlen args))) at 1. rewrite Z.add_comm, Z_mod_plus_full. apply Z.mod_small. exact HF. }
  rewrite P. cbn [bind]. eexists. split; [reflexivity|]. split; [apply eok_and; [eok|auto]|].
  rewrite u32_id by (unfold is_u32; lia). unfold compact_doc. cbn [doc_ops flat_map]. rewrite zlen_cons, zlen_map.
  exact (runs_and _ _ [_; _] _ (runs_all _) R).
Qed.
Lemma compact_doc_value off args : doc_value (compact_doc off args) = compact_item off args.
Proof. unfold compact_doc, compact_item. cbn [doc_value map]. do 2 f_equal. rewrite map_map. apply map_ext. intros [v|v|b|s]; reflexivity. Qed.
Lemma compact_doc_ok off args : is_u32 off -> Forall arg_ok args -> zlen args <= 15 -> doc_ok (compact_doc off args).
Proof.
  intros U F H. unfold compact_doc. cbn [doc_ok]. rewrite zlen_cons, zlen_map. pose proof (zlen_nonneg args). split; [unfold is_u32; lia|]. split; [exact U|].
  clear H H0. induction F as [|a r A F IH]; cbn [map]; [exact I|]. split; [|exact IH].
  destruct a as [v|v|b|s]; cbn [arg_doc doc_ok]; try exact A.
  - change (zlen [DLong v]) with 1. unfold is_u32. split; [lia|]. split; [exact A|exact I].
  - unfold is_u32. destruct s as [s|]; [destruct A; pose proof (zlen_nonneg s); lia|change (zlen (str "(null)")) with 6; lia].
Qed.

Lemma compact_doc_small off args : Forall arg_ok args -> zlen args <= 15 -> zlen (ops_bytes (doc_ops (compact_doc off args))) < 4000000.
Proof.
  intros F H. pose proof (ops_bytes_len (doc_ops (compact_doc off args))) as B. unfold compact_doc in *. cbn [doc_ops flat_map app] in *.
  cbn [calls_bound fold_right op_data] in B. change (zlen (@nil Z)) with 0 in B. fold (calls_bound (flat_map doc_ops (map arg_doc args))) in B.
  assert (C : calls_bound (flat_map doc_ops (map arg_doc args)) <= 66000 * zlen args).
  { clear -F. induction F as [|a r A F IH]; [change (zlen (@nil larg)) with 0; cbn; lia|]. rewrite zlen_cons. cbn [map flat_map].
    assert (CA : forall x y, calls_bound (x ++ y) = calls_bound x + calls_bound y).
    { intros x y. induction x as [|o x IHx]; [reflexivity|]. unfold calls_bound in *. cbn [app fold_right]. rewrite IHx. lia. }
    rewrite CA. assert (calls_bound (doc_ops (arg_doc a)) <= 65600); [|lia].
    destruct a as [v|v|b|s]; cbn [arg_doc doc_ops flat_map app calls_bound fold_right op_data]; change (zlen (@nil Z)) with 0; try lia. destruct s as [s|]; [destruct A; lia|change (zlen (str "(null)")) with 6; lia]. }
  lia.
Qed.

(** Serialized into a buffer. *)
Lemma compact_in_buffer start log_id args len : Forall arg_ok args -> zlen args <= 15 -> is_u32 len ->
  exists p b e, compact_serialize start log_id (compressed_fmt args) args = Some p /\ eprog_run (cbor_init len) p = (b, e) /\
    zlen (ce_output e) <= len /\
    (b = true <-> sh_compute_size p <= len) /\
    (b = true -> cbor_read (ce_output e) = Some (compact_item ((log_id - start) mod 4294967296) args, [])).
Proof.
  intros F H L. destruct (compact_ok start log_id args F H) as (p & P & EO & R). exists p.
  set (off := (log_id - start) mod 4294967296) in *. assert (U : is_u32 off) by (unfold is_u32, off; apply Z.mod_pos_bound; lia).
  pose proof (compact_doc_ok off args U F H) as K. 
  pose proof (compact_doc_small off args F H) as SB.
  rewrite (runs_size _ _ R) by lia.
  destruct (cbor_seq_ok (doc_ops (compact_doc off args)) (cbor_init len) (enc_wf_init _ L)) as (b & e & o & E & W & LE & B & O & T & X); [change (ce_size (cbor_init len)) with 0; lia|].
  exists b, e. split; [exact P|]. split; [rewrite R; [exact E|right; now apply enc_wf_init|change (ce_size (cbor_init len)) with 0; lia]|].
  split. { rewrite <- (ew_size _ W). pose proof (ew_le _ W) as Y. rewrite LE in Y. exact Y. }
  split; [exact B|]. intros ->. rewrite O, (T eq_refl). change (ce_output (cbor_init len)) with (@nil Z). cbn [app].
  rewrite <- (app_nil_r (ops_bytes _)), doc_cbor_read by exact K. now rewrite compact_doc_value.
Qed.
