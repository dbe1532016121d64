From Verif Require Import Base Varint VarintSpec.
Ltac Zify.zify_post_hook ::= Z.div_mod_to_equations.

Lemma lor_128 x : 0 <= x < 128 -> Z.lor 128 x = 128 + x.
Proof.
  intros H. assert (E : (Z.lor 128 x =? 128 + x) = true).
  { revert x H. apply (zrange_all (fun x => Z.lor 128 x =? 128 + x) 128).
    vm_compute. reflexivity. }
  lia.
Qed.

Lemma leb_read_app l v r r2 : leb_read l = Some (v, r) -> leb_read (l ++ r2) = Some (v, r ++ r2).
Proof.
  revert v r; induction l as [|b l IH]; cbn [leb_read app]; [discriminate|]. intros v r.
  destruct (b <? 128); [now injection 1 as <- <-|].
  destruct (leb_read l) as [[v' r']|]; [|discriminate].
  injection 1 as <- <-. now rewrite (IH v' r').
Qed.

Lemma leb_read_nonneg l v r : bytes l -> leb_read l = Some (v, r) -> 0 <= v.
Proof.
  revert v r; induction l as [|b l IH]; cbn [leb_read app]; [discriminate|]. intros v r Hb.
  inversion Hb; subst. unfold is_u8 in *. destruct (b <? 128) eqn:E; [injection 1 as <- <-; lia|].
  destruct (leb_read l) as [[v' r']|]; [|discriminate].
  injection 1 as <- <-. specialize (IH _ _ H2 eq_refl). lia.
Qed.

Lemma varint_loop_S f v : varint_loop (S f) v =
  if 128 <=? v then do r <- varint_loop f (Z.shiftr v 7); Some (Z.lor 128 (Z.land v 127) :: r)
  else Some [Z.land v 255].
Proof. reflexivity. Qed.

Lemma varint_loop_spec n v : 0 <= v < 128 ^ Z.of_nat (S n) ->
  exists e, varint_loop (S n) v = Some e /\ bytes e /\ 1 <= zlen e <= Z.of_nat (S n) /\
    leb_read e = Some (v, []) /\
    (forall o, bytes o -> leb_read o = Some (v, []) -> zlen e <= zlen o).
Proof.
  revert v; induction n as [|n IH]; intros v Hv; rewrite varint_loop_S.
  - destruct (128 <=? v) eqn:E; [cbn in Hv; lia|].
    exists [Z.land v 255]. rewrite land_255, Z.mod_small by lia.
    split; [reflexivity|]. split; [repeat constructor; lia|]. split; [rewrite zlen_cons, zlen_nil; lia|].
    split; [cbn; now replace (v <? 128) with true by lia|].
    intros o Ho Hr. destruct o; [discriminate|]. rewrite !zlen_cons, zlen_nil.
    pose proof (zlen_nonneg o); lia.
  - destruct (128 <=? v) eqn:E.
    + rewrite shiftr_div by lia. change (2 ^ 7) with 128.
      destruct (IH (v / 128)) as (e & He & Hb & Hl & Hr & Hmin).
      { rewrite (Nat2Z.inj_succ (S n)), Z.pow_succ_r in Hv by lia. lia. }
      rewrite He. cbn [bind].
      rewrite land_127, lor_128 by lia.
      eexists; split; [reflexivity|].
      split; [constructor; [unfold is_u8; lia|assumption]|].
      split; [rewrite zlen_cons; lia|].
      split.
      * cbn [leb_read]. replace (128 + v mod 128 <? 128) with false by lia.
        rewrite Hr. f_equal. f_equal. lia.
      * intros o Ho Hro. destruct o as [|b o]; [discriminate|]. cbn [leb_read] in Hro.
        inversion Ho; subst. unfold is_u8 in *.
        destruct (b <? 128) eqn:Eb; [injection Hro as ? ?; lia|].
        destruct (leb_read o) as [[v' r']|] eqn:Eo; [|discriminate].
        injection Hro as ? ?; subst r'.
        assert (v' = v / 128) by (pose proof (leb_read_nonneg _ _ _ H2 Eo); lia). subst v'.
        rewrite !zlen_cons. specialize (Hmin o H2 Eo). lia.
    + exists [Z.land v 255]. rewrite land_255, Z.mod_small by lia.
      split; [reflexivity|]. split; [repeat constructor; lia|]. split; [rewrite zlen_cons, zlen_nil; lia|].
      split; [cbn; now replace (v <? 128) with true by lia|].
      intros o Ho Hr. destruct o; [discriminate|]. rewrite !zlen_cons, zlen_nil.
      pose proof (zlen_nonneg o); lia.
Qed.

(** More fuel does not change the answer. *)
Lemma varint_loop_mono n m v e : varint_loop n v = Some e -> (n <= m)%nat -> varint_loop m v = Some e.
Proof.
  revert m v e; induction n as [|n IH]; intros m v e; [discriminate|].
  destruct m; [lia|]. cbn. intros H Hle. destruct (128 <=? v); [|assumption].
  destruct (varint_loop n (Z.shiftr v 7)) eqn:E; [|discriminate].
  rewrite (IH m _ _ E) by lia. assumption.
Qed.

Lemma varint_u32_correct v : is_u32 v ->
  exists e, varint_u32 v = Some e /\ bytes e /\ 1 <= zlen e <= 5 /\
    (forall rest, leb_read (e ++ rest) = Some (v, rest)) /\
    (forall o, bytes o -> leb_read o = Some (v, []) -> zlen e <= zlen o).
Proof.
  intros Hv. destruct (varint_loop_spec 4 v) as (e & He & Hb & Hl & Hr & Hm).
  { unfold is_u32 in Hv. change (128 ^ Z.of_nat 5) with 34359738368. lia. }
  exists e. split.
  { unfold varint_u32. rewrite u32_id by assumption. apply varint_loop_mono with 5%nat; [assumption|lia]. }
  repeat split; try assumption; try lia.
  intros rest. now apply (leb_read_app e v [] rest).
Qed.

Lemma varint_u32_some v : is_u32 v ->
  exists e, varint_u32 v = Some e /\ bytes e /\ 1 <= zlen e <= 5.
Proof. intros H; destruct (varint_u32_correct v H) as (e & ? & ? & ? & _); eauto. Qed.

(** Exact length by magnitude. *)
Lemma varint_loop_len_lt n v e k : varint_loop n v = Some e -> 0 <= v < 128 ^ Z.of_nat k -> (1 <= k)%nat ->
  zlen e <= Z.of_nat k.
Proof.
  revert n v e; induction k as [|k IH]; intros n v e He Hv Hk; [lia|].
  destruct n; [discriminate|]. cbn in He. destruct (128 <=? v) eqn:E.
  - destruct k; [cbn in Hv; lia|].
    destruct (varint_loop n (Z.shiftr v 7)) eqn:E2; [|discriminate]. cbn in He. injection He as <-.
    rewrite shiftr_div in E2 by lia. change (2^7) with 128 in E2.
    rewrite (Nat2Z.inj_succ (S k)), Z.pow_succ_r in Hv by lia.
    specialize (IH n (v/128) l E2). rewrite zlen_cons. lia.
  - injection He as <-. rewrite zlen_cons, zlen_nil. lia.
Qed.

(** Zig-zag arithmetic. *)
Lemma zigzag_spec v : is_s32 v -> zigzag v = if v <? 0 then -2 * v - 1 else 2 * v.
Proof.
  unfold is_s32, zigzag, u32; intros H.
  rewrite Z.shiftl_mul_pow2 by lia. rewrite (shiftr_div v) by lia.
  change (2^1) with 2. change (2^31) with 2147483648. change (2^32) with 4294967296.
  destruct (v <? 0) eqn:E.
  - replace (v / 2147483648) with (-1) by lia.
    replace ((-1) mod 4294967296) with (Z.ones 32) by reflexivity.
    replace (v mod 4294967296) with (v + 4294967296) by lia.
    replace (((v + 4294967296) * 2) mod 4294967296) with (2 * v + 4294967296) by lia.
    rewrite Z.lxor_comm.
    rewrite <- (Z.mod_small (2 * v + 4294967296) (2 ^ 32)) at 1 by (change (2^32) with 4294967296; lia).
    rewrite <- Z.land_ones by lia.
    assert (HL : forall x, Z.lxor (Z.ones 32) (Z.land x (Z.ones 32)) = Z.ldiff (Z.ones 32) x).
    { intros x. apply Z.bits_inj'. intros n Hn.
      rewrite Z.lxor_spec, Z.land_spec, Z.ldiff_spec.
      destruct (Z.testbit x n), (Z.testbit (Z.ones 32) n); reflexivity. }
    rewrite HL.
    replace (Z.ldiff (Z.ones 32) (2 * v + 4294967296)) with (Z.land (Z.ones 32) (Z.lnot (2 * v + 4294967296))).
    2:{ apply Z.bits_inj'. intros n Hn. rewrite Z.land_spec, Z.ldiff_spec, Z.lnot_spec by lia. reflexivity. }
    rewrite Z.land_comm, Z.land_ones by lia. unfold Z.lnot.
    change (2^32) with 4294967296. lia.
  - replace (v / 2147483648) with 0 by lia. rewrite Z.mod_0_l by lia. rewrite Z.lxor_0_r. lia.
Qed.

Lemma unzigzag_zigzag v : is_s32 v -> unzigzag (zigzag v) = v.
Proof.
  intros H. rewrite zigzag_spec by assumption. unfold unzigzag.
  destruct (v <? 0) eqn:E.
  - replace (-2 * v - 1) with (2 * (- v - 1) + 1) by lia.
    replace (Z.even (2 * (- v - 1) + 1)) with false by (rewrite Z.even_add, Z.even_mul; reflexivity). lia.
  - replace (Z.even (2 * v)) with true by (rewrite Z.even_mul; reflexivity). lia.
Qed.

Lemma zigzag_range v : is_s32 v -> is_u32 (zigzag v).
Proof. intros H. rewrite zigzag_spec by assumption. unfold is_s32, is_u32 in *. destruct (v <? 0) eqn:E; lia. Qed.

Lemma varint_si32_correct v : is_s32 v ->
  exists e, varint_si32 v = Some e /\ bytes e /\ 1 <= zlen e <= 5 /\
    (forall rest, exists u, leb_read (e ++ rest) = Some (u, rest) /\ unzigzag u = v) /\
    (-64 <= v < 64 -> zlen e = 1).
Proof.
  intros H. destruct (varint_u32_correct (zigzag v) (zigzag_range v H)) as (e & He & Hb & Hl & Hr & Hm).
  exists e. unfold varint_si32. repeat split; try assumption; try lia.
  - intros rest. exists (zigzag v). split; [apply Hr|]. now apply unzigzag_zigzag.
  - intros Hs. unfold varint_u32 in He.
    rewrite u32_id in He by now apply zigzag_range.
    pose proof (varint_loop_len_lt _ _ _ 1 He) as L.
    rewrite zigzag_spec in L by assumption. change (128 ^ Z.of_nat 1) with 128 in L.
    destruct (v <? 0) eqn:E; lia.
Qed.
