(** Proofs about the build id. *)
From Coq Require Import String.
From Verif Require Import Base BuildId BuildIdSpec.

Lemma read_app a b : read_at (a ++ b) 0 (zlen a) = Some a.
Proof.
  pose proof (zlen_nonneg a). pose proof (zlen_nonneg b). rewrite read_at_some by (rewrite ?zlen_app; lia). rewrite drop_0. now rewrite take_app_exact.
Qed.
Lemma read_app_at p a b : read_at (p ++ a ++ b) (zlen p) (zlen a) = Some a.
Proof.
  pose proof (zlen_nonneg p). pose proof (zlen_nonneg a). pose proof (zlen_nonneg b). rewrite read_at_some by (rewrite ?zlen_app; lia).
  rewrite drop_app_exact by reflexivity. now rewrite take_app_exact.
Qed.

Lemma read_id id type mem : id_in_memory id type mem -> bi_read type mem = Some (Some id).
Proof.
  intros H. destruct H as [rest L|n d t name rest L R LN LD LT]; unfold bi_read.
  - change (3 =? 3) with true. cbv iota. rewrite <- L. now rewrite read_app.
  - change (2 =? 3) with false. change (2 =? 2) with true. cbv iota.
    change 4 with (zlen [n mod 256; n / 256 mod 256; n / 65536 mod 256; n / 16777216]). rewrite read_app. cbn [bind fold_right].
    replace (n mod 256 + 256 * (n / 256 mod 256 + 256 * (n / 65536 mod 256 + 256 * (n / 16777216 + 256 * 0)))) with n.
    2:{ change 16777216 with (65536 * 256). rewrite <- (Z.div_div n 65536 256) by lia. change 65536 with (256 * 256). rewrite <- (Z.div_div n 256 256) by lia.
        pose proof (Z.div_mod n 256 ltac:(lia)). pose proof (Z.div_mod (n / 256) 256 ltac:(lia)). pose proof (Z.div_mod (n / 256 / 256) 256 ltac:(lia)). lia. }
    set (h := [n mod 256; n / 256 mod 256; n / 65536 mod 256; n / 16777216]).
    replace (h ++ d ++ t ++ name ++ id ++ rest) with ((h ++ d ++ t ++ name) ++ id ++ rest) by now rewrite <- !app_assoc.
    replace (12 + n) with (zlen (h ++ d ++ t ++ name)). 2:{ rewrite !zlen_app, LD, LT, LN. change (zlen h) with 4. lia. }
    rewrite <- L. now rewrite read_app_at.
Qed.

Lemma digit_nib v : 0 <= v < 16 -> digit (bi_nib v) = Some v.
Proof.
  intros H. unfold bi_nib, digit. destruct (v <? 10) eqn:E.
  - replace ((48 <=? v + 48) && (v + 48 <=? 57)) with true by lia. f_equal. lia.
  - replace ((48 <=? v - 10 + 97) && (v - 10 + 97 <=? 57)) with false by lia.
    replace ((97 <=? v - 10 + 97) && (v - 10 + 97 <=? 102)) with true by lia. f_equal. lia.
Qed.
Lemma digits_nibs l : Forall (fun v => 0 <= v < 16) l -> digits (map bi_nib l) = Some l.
Proof.
  induction l as [|v l IH]; intros F; [reflexivity|]. cbn [map digits]. rewrite digit_nib by exact (Forall_inv F). cbn [bind].
  now rewrite (IH (Forall_inv_tail F)).
Qed.
Lemma nib_nz v : 0 <= v < 16 -> bi_nib v <> 0.
Proof. intros H. unfold bi_nib. destruct (v <? 10); lia. Qed.

Lemma halves_len id : zlen (halves id) = 2 * zlen id.
Proof. induction id as [|b id IH]; [reflexivity|]. change (halves (b :: id)) with (b / 16 :: b mod 16 :: halves id). rewrite !zlen_cons, IH. lia. Qed.
Lemma halves_range id : bytes id -> Forall (fun v => 0 <= v < 16) (halves id).
Proof.
  induction id as [|b id IH]; intros F; [apply Forall_nil|]. change (halves (b :: id)) with (b / 16 :: b mod 16 :: halves id).
  assert (B : 0 <= b < 256) by exact (Forall_inv F).
  apply Forall_cons; [Z.div_mod_to_equations; lia|]. apply Forall_cons; [Z.div_mod_to_equations; lia|]. exact (IH (Forall_inv_tail F)).
Qed.
Lemma get_cons_pos {A} (x : A) l i : 0 < i -> get (x :: l) i = get l (i - 1).
Proof. intros H. change (x :: l) with ([x] ++ l). rewrite get_app2; [reflexivity|]. change (zlen [x]) with 1. lia. Qed.
Lemma halves_get id : bytes id -> forall i, 0 <= i < 2 * zlen id -> exists c, get id (i / 2) = Some c /\
  get (halves id) i = Some (if i mod 2 =? 0 then Z.land (Z.shiftr c 4) 15 else Z.land c 15).
Proof.
  induction id as [|b id IH]; intros F i H. { change (zlen (@nil Z)) with 0 in H. lia. }
  rewrite zlen_cons in H. assert (B : 0 <= b < 256) by exact (Forall_inv F).
  assert (L1 : Z.land (Z.shiftr b 4) 15 = b / 16).
  { rewrite Z.shiftr_div_pow2 by lia. change 15 with (Z.ones 4). rewrite Z.land_ones by lia. change (2 ^ 4) with 16. Z.div_mod_to_equations. lia. }
  assert (L2 : Z.land b 15 = b mod 16). { change 15 with (Z.ones 4). now rewrite Z.land_ones by lia. }
  change (halves (b :: id)) with (b / 16 :: b mod 16 :: halves id).
  destruct (Z.eq_dec i 0) as [->|N0]. { exists b. split; [reflexivity|]. change (0 mod 2 =? 0) with true. cbv iota. now rewrite L1. }
  destruct (Z.eq_dec i 1) as [->|N1]. { exists b. split; [reflexivity|]. change (1 mod 2 =? 0) with false. cbv iota. rewrite L2. reflexivity. }
  destruct (IH (Forall_inv_tail F) (i - 2) ltac:(lia)) as (c & G1 & G2). exists c. split.
  - rewrite get_cons_pos by (Z.div_mod_to_equations; lia). rewrite <- G1. f_equal. Z.div_mod_to_equations. lia.
  - rewrite !get_cons_pos by lia. replace (i - 1 - 1) with (i - 2) by lia. rewrite G2. now replace ((i - 2) mod 2) with (i mod 2) by (Z.div_mod_to_equations; lia).
Qed.

Lemma take_1_drop {A} (l : list A) i x n : get l i = Some x -> 0 <= n -> take (1 + n) (drop i l) = x :: take n (drop (i + 1) l).
Proof.
  intros G N. rewrite (drop_get_cons l i x G). unfold take. rewrite Z2Nat.inj_add by lia. reflexivity.
Qed.
Lemma hex_ok id : bytes id -> forall n i pre rest, zlen pre = i -> Z.of_nat n <= zlen rest -> i + Z.of_nat n <= 2 * zlen id ->
  bi_hex n i id (pre ++ rest) = Some (pre ++ map bi_nib (take (Z.of_nat n) (drop i (halves id))) ++ drop (Z.of_nat n) rest).
Proof.
  intros F. induction n as [|n IH]; intros i pre rest L H1 H2.
  - cbn [bi_hex]. change (Z.of_nat 0) with 0. now rewrite take_0, drop_0.
  - cbn [bi_hex]. pose proof (zlen_nonneg pre). destruct (halves_get id F i ltac:(lia)) as (c & G1 & G2). rewrite G1. cbn [bind].
    destruct rest as [|r rest]; [change (zlen (@nil Z)) with 0 in H1; lia|]. rewrite zlen_cons in H1.
    rewrite put_app_pre by exact L. cbn [bind]. set (v := if i mod 2 =? 0 then _ else _) in *.
    replace (pre ++ bi_nib v :: rest) with ((pre ++ [bi_nib v]) ++ rest) by now rewrite <- app_assoc.
    rewrite IH; [|rewrite zlen_app; change (zlen [bi_nib v]) with 1; lia|lia|lia].
    f_equal. rewrite <- app_assoc. f_equal. replace (Z.of_nat (Datatypes.S n)) with (1 + Z.of_nat n) by lia.
    rewrite (take_1_drop _ i v _ G2) by lia. cbn [map app]. f_equal. f_equal.
    unfold drop at 2. rewrite Z2Nat.inj_add by lia. reflexivity.
Qed.

Theorem get_string_ok id type mem out len : id_in_memory id type mem -> bytes id -> 2 <= len <= zlen out ->
  let m := Z.min 40 (len - 1) in
  exists hex, bi_get_string type mem out len = Some (true, hex ++ [0] ++ drop (m + 1) out) /\ zlen hex = m /\
    digits hex = Some (take m (halves id)) /\ hex = map bi_nib (take m (halves id)).
Proof.
  intros H F L m. unfold bi_get_string. rewrite (read_id _ _ _ H). cbn [bind]. replace (len <? 2) with false by lia.
  assert (L20 : zlen id = 20) by (destruct H; assumption). change (20 * 2) with 40. fold m.
  pose proof (hex_ok id F (Z.to_nat m) 0 [] out) as X. rewrite Z2Nat.id in X by lia. cbn [app] in X.
  rewrite X by (try reflexivity; lia). cbn [bind]. rewrite drop_0.
  exists (map bi_nib (take m (halves id))).
  assert (LM : zlen (map bi_nib (take m (halves id))) = m). { rewrite zlen_map, zlen_take, halves_len. lia. }
  destruct (drop m out) as [|x r] eqn:D. { apply (f_equal zlen) in D. rewrite zlen_drop in D. change (zlen (@nil Z)) with 0 in D. lia. }
  rewrite put_app_pre by exact LM. cbn [bind]. split; [|split; [exact LM|split; [|reflexivity]]].
  - f_equal. f_equal. f_equal. cbn [app]. f_equal. rewrite Z.add_comm, <- drop_drop, D by lia. reflexivity.
  - apply digits_nibs. pose proof (halves_range id F) as R. rewrite <- (take_drop m (halves id)) in R. now apply Forall_app in R.
Qed.

(** ** The version *)
Lemma cstr_nul l q : Forall (fun c => c <> 0) l -> bi_cstr (l ++ 0 :: q) = Some l.
Proof.
  induction l as [|c l IH]; intros F; [reflexivity|]. cbn [app bi_cstr]. assert (c <> 0) by exact (Forall_inv F).
  replace (c =? 0) with false by lia. now rewrite (IH (Forall_inv_tail F)).
Qed.
Definition suffix_of (id : option (list Z)) (max : Z) (v : list Z) : list Z :=
  match id with Some i => map bi_nib (take (Z.min 6 (max - zlen v - 3)) (halves i)) | None => str "no-id" end.

Section V.
Variables (id : option (list Z)) (type : Z) (mem : list Z) (max : Z).
Hypothesis (HID : the_id id type mem) (HM : 0 < max < 4294967296).
Definition good_call (v : option (list Z)) : Prop :=
  match v with Some v => Forall (fun c => c <> 0) v /\ zlen v < 4294967288 | None => True end.

Lemma version_made v : Forall (fun c => c <> 0) v -> zlen v + 8 <= max ->
  exists rest, bi_version type mem max (Some v) (fill max 0) = Some (true, (v ++ [43] ++ suffix_of id max v) ++ 0 :: rest).
Proof.
  intros NZ L. pose proof (zlen_nonneg v) as VN. unfold bi_version.
  assert (G : get (fill max 0) 0 = Some 0). { unfold get, fill. change (0 <? 0) with false. cbv iota. replace (Z.to_nat max) with (Datatypes.S (Z.to_nat (max - 1))) by lia. reflexivity. }
  rewrite G. cbn [bind]. change (negb (0 =? 0)) with false. cbv iota.
  assert (U1 : u32 (zlen v + 1) = zlen v + 1) by (apply u32_id; unfold is_u32; lia). rewrite U1.
  assert (U2 : u32 (zlen v + 1 + (6 + 1)) = zlen v + 8) by (rewrite u32_id by (unfold is_u32; lia); lia). rewrite U2.
  replace (zlen v + 8 <=? max) with true by lia. rewrite (take_all (zlen v + 1 - 1) v) by lia.
  rewrite splice_some by (rewrite ?zlen_fill; lia). cbn [bind]. rewrite take_0. cbn [app]. change (0 + zlen v) with (zlen v).
  assert (DF : forall k, 0 <= k <= max -> drop k (fill max 0) = fill (max - k) 0).
  { intros k K. replace (fill max 0) with (fill k 0 ++ fill (max - k) 0).
    - rewrite drop_app_exact; [reflexivity|]. rewrite zlen_fill; lia.
    - unfold fill. rewrite <- repeat_app. f_equal. lia. }
  rewrite DF by lia.
  assert (F1 : fill (max - zlen v) 0 = 0 :: fill (max - zlen v - 1) 0).
  { unfold fill. replace (Z.to_nat (max - zlen v)) with (Datatypes.S (Z.to_nat (max - zlen v - 1))) by lia. reflexivity. }
  rewrite F1, put_app_pre by lia. cbn [bind].
  assert (VL : zlen (v ++ [43]) = zlen v + 1) by (rewrite zlen_app; reflexivity).
  replace (v ++ 43 :: fill (max - zlen v - 1) 0) with ((v ++ [43]) ++ fill (max - zlen v - 1) 0) by now rewrite <- app_assoc.
  rewrite drop_app_exact, take_app_exact by lia.
  assert (FL : zlen (fill (max - zlen v - 1) 0) = max - zlen v - 1) by (apply zlen_fill; lia).
  rewrite (u32_id (max - (zlen v + 1) - 1)) by (unfold is_u32; lia).
  destruct id as [i|]; cbn [the_id] in HID.
  - destruct HID as (HI & HB).
    destruct (get_string_ok i type mem (fill (max - zlen v - 1) 0) (Z.min (6 + 1) (max - (zlen v + 1) - 1)) HI HB ltac:(lia)) as (hex & E & LH & _ & HX).
    rewrite E. cbn [bind]. rewrite HX. unfold suffix_of.
    replace (Z.min 40 (Z.min (6 + 1) (max - (zlen v + 1) - 1) - 1)) with (Z.min 6 (max - zlen v - 3)) by lia.
    eexists. rewrite <- !app_assoc. reflexivity.
  - unfold bi_get_string, bi_read. replace (type =? 3) with false by lia. replace (type =? 2) with false by lia. cbn [bind].
    rewrite splice_app_pre; [|lia|rewrite FL; change (zlen (str "no-id" ++ [0])) with 6; lia]. cbn [bind]. unfold suffix_of. eexists. f_equal. f_equal.
    rewrite <- !app_assoc. reflexivity.
Qed.
Lemma suffix_nz v : Forall (fun c => c <> 0) (suffix_of id max v).
Proof.
  unfold suffix_of. destruct id as [i|].
  - destruct HID as (_ & HB). apply Forall_map. pose proof (halves_range i HB) as R.
    rewrite <- (take_drop (Z.min 6 (max - zlen v - 3)) (halves i)) in R. apply Forall_app in R. destruct R as (R & _).
    eapply Forall_impl; [|exact R]. intros a A. now apply nib_nz.
  - cbn. repeat (apply Forall_cons; [lia|]). apply Forall_nil.
Qed.
Lemma calls_ok l : Forall good_call l ->
  bi_calls type mem max l (fill max 0) = Some (answers max (suffix_of id max) None l) /\
  forall s rest, s <> [] -> Forall (fun c => c <> 0) s -> bi_calls type mem max l (s ++ 0 :: rest) = Some (answers max (suffix_of id max) (Some s) l).
Proof.
  induction l as [|v l IH]; intros F; [split; reflexivity|]. assert (GC : good_call v) by exact (Forall_inv F).
  destruct (IH (Forall_inv_tail F)) as (IH1 & IH2). split.
  - cbn [bi_calls answers].
    assert (G : get (fill max 0) 0 = Some 0). { unfold get, fill. change (0 <? 0) with false. cbv iota. replace (Z.to_nat max) with (Datatypes.S (Z.to_nat (max - 1))) by lia. reflexivity. }
    destruct v as [v|].
    + destruct GC as (NZ & VL). destruct (zlen v + 8 <=? max) eqn:E.
      * destruct (version_made v NZ ltac:(lia)) as (rest & ->). cbn [bind].
        assert (SN : Forall (fun c => c <> 0) (v ++ [43] ++ suffix_of id max v)).
        { apply Forall_app. split; [exact NZ|]. apply Forall_cons; [lia|apply suffix_nz]. }
        rewrite cstr_nul by exact SN. cbn [bind]. rewrite IH2; [reflexivity| |exact SN]. destruct v; discriminate.
      * unfold bi_version at 1. rewrite G. cbn [bind]. change (negb (0 =? 0)) with false. cbv iota. pose proof (zlen_nonneg v).
        rewrite (u32_id (zlen v + 1)) by (unfold is_u32; lia). rewrite (u32_id (zlen v + 1 + (6 + 1))) by (unfold is_u32; lia).
        replace (zlen v + 1 + (6 + 1) <=? max) with false by lia. cbn [bind]. now rewrite IH1.
    + unfold bi_version at 1. rewrite G. cbn [bind]. change (negb (0 =? 0)) with false. cbv iota. cbn [bind]. now rewrite IH1.
  - intros s rest SN NZ. cbn [bi_calls answers]. destruct s as [|c s]; [congruence|]. unfold bi_version at 1. cbn [app].
    rewrite get_cons_0. cbn [bind]. assert (C : c <> 0) by exact (Forall_inv NZ). replace (negb (c =? 0)) with true by lia. cbn [bind].
    change (c :: s ++ 0 :: rest) with ((c :: s) ++ 0 :: rest). rewrite cstr_nul by exact NZ. cbn [bind]. now rewrite (IH2 (c :: s) rest SN NZ).
Qed.
Theorem versions_ok l : Forall good_call l -> exists suffix,
  bi_calls type mem max l (fill max 0) = Some (answers max suffix None l) /\
  forall v, zlen v + 8 <= max -> hex_of id (Z.min 6 (max - zlen v - 3)) (suffix v).
Proof.
  intros F. exists (suffix_of id max). split; [now apply calls_ok|]. intros v L. unfold hex_of, suffix_of. destruct id as [i|]; [|reflexivity].
  apply digits_nibs. destruct HID as (_ & HB). pose proof (halves_range i HB) as R.
  rewrite <- (take_drop (Z.min 6 (max - zlen v - 3)) (halves i)) in R. now apply Forall_app in R.
Qed.
End V.
