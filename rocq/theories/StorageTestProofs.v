(** Proofs about the storage self-test. *)
From Verif Require Import Base StorageTest StorageTestSpec.

Lemma image_len size : 0 <= size -> zlen (test_image size) = size.
Proof. intros H. unfold test_image. rewrite zlen_map. unfold zlen. rewrite seq_length. lia. Qed.
Lemma image_get size i : 0 <= i < size -> get (test_image size) i = Some (test_byte i).
Proof.
  intros H. unfold get, test_image. replace (i <? 0) with false by lia. rewrite nth_error_map.
  rewrite (nth_error_nth' _ 0%nat) by (rewrite seq_length; lia). rewrite seq_nth by lia. cbn. f_equal. f_equal. lia.
Qed.

Definition phase (num : Z) : Z := if num mod 2 =? 0 then 0 else 12.
Definition plen (num : Z) : Z := if num mod 2 =? 0 then 12 else 7.

Lemma get_pat1 j : 0 <= j < 12 -> get st_pattern1 j = Some (160 + j).
Proof.
  intros H. assert (j = 0 \/ j = 1 \/ j = 2 \/ j = 3 \/ j = 4 \/ j = 5 \/ j = 6 \/ j = 7 \/ j = 8 \/ j = 9 \/ j = 10 \/ j = 11) as X by lia.
  repeat (destruct X as [-> | X]; [reflexivity|]). subst. reflexivity.
Qed.
Lemma get_pat2 j : 0 <= j < 7 -> get st_pattern2 j = Some (95 - j).
Proof.
  intros H. assert (j = 0 \/ j = 1 \/ j = 2 \/ j = 3 \/ j = 4 \/ j = 5 \/ j = 6) as X by lia.
  repeat (destruct X as [-> | X]; [reflexivity|]). subst. reflexivity.
Qed.
Lemma get_take {A} (l : list A) n i : i < n -> get (take n l) i = get l i.
Proof.
  intros H. destruct (Z_lt_le_dec i 0). { unfold get. now replace (i <? 0) with true by lia. }
  destruct (Z_lt_le_dec n (zlen l)) as [L|L]; [|now rewrite take_all].
  rewrite <- (take_drop n l) at 2. rewrite get_app1; [reflexivity|]. rewrite zlen_take. lia.
Qed.

Lemma piece_image num size off : off mod 19 = phase num -> 0 <= off < size ->
  st_piece num size off = take (plen num) (drop off (test_image size)) /\ zlen (st_piece num size off) = Z.min (plen num) (size - off).
Proof.
  unfold phase, plen, st_piece. intros E H.
  assert (L1 : zlen st_pattern1 = 12) by reflexivity. assert (L2 : zlen st_pattern2 = 7) by reflexivity.
  pose proof (image_len size ltac:(lia)) as LI.
  destruct (num mod 2 =? 0).
  - split; [|rewrite zlen_take, L1; lia]. apply list_eq_get.
    { rewrite !zlen_take, zlen_drop, L1, LI. lia. }
    intros i Hi. rewrite zlen_take, L1 in Hi.
    rewrite !get_take, get_drop, image_get, get_pat1 by lia. f_equal. unfold test_byte.
    replace ((off + i) mod 19) with i; [now replace (i <? 12) with true by lia|].
    rewrite Zplus_mod, E. Z.div_mod_to_equations. lia.
  - split; [|rewrite zlen_take, L2; lia]. apply list_eq_get.
    { rewrite !zlen_take, zlen_drop, L2, LI. lia. }
    intros i Hi. rewrite zlen_take, L2 in Hi.
    rewrite !get_take, get_drop, image_get, get_pat2 by lia. f_equal. unfold test_byte.
    replace ((off + i) mod 19) with (12 + i); [replace (12 + i <? 12) with false by lia; lia|].
    rewrite Zplus_mod, E. Z.div_mod_to_equations. lia.
Qed.
Lemma phase_next num off : off mod 19 = phase num -> (off + plen num) mod 19 = phase (u32 (num + 1)).
Proof.
  unfold phase, plen. intros E.
  assert (P : u32 (num + 1) mod 2 = (num + 1) mod 2). { unfold u32. change (2^32) with (2 * 2147483648). Z.div_mod_to_equations. lia. }
  rewrite P. destruct (num mod 2 =? 0) eqn:N.
  - replace ((num + 1) mod 2 =? 0) with false by (Z.div_mod_to_equations; lia). Z.div_mod_to_equations. lia.
  - replace ((num + 1) mod 2 =? 0) with true by (Z.div_mod_to_equations; lia). Z.div_mod_to_equations. lia.
Qed.
Lemma plen_pos num : 7 <= plen num <= 12.
Proof. unfold plen. destruct (_ =? _); lia. Qed.

Lemma erased_blank b : st_erased b = true <-> blank b.
Proof. unfold st_erased, blank. rewrite orb_true_iff, !Z.eqb_eq. tauto. Qed.
Lemma find_none l : forall j, st_find j l = None -> Forall blank l.
Proof.
  induction l as [|b l IH]; intros j E; [constructor|]. cbn in E. destruct (st_erased b) eqn:B; [|discriminate].
  constructor; [now apply erased_blank|eauto].
Qed.
Lemma find_blank l : forall j, Forall blank l -> st_find j l = None.
Proof. induction l as [|b l IH]; intros j F; [reflexivity|]. cbn. rewrite (proj2 (erased_blank b) (Forall_inv F)). apply IH, (Forall_inv_tail F). Qed.
Lemma find_some l : forall j k, st_find j l = Some k -> j <= k < j + zlen l /\
  Forall blank (take (k - j) l) /\ exists b, get l (k - j) = Some b /\ ~ blank b.
Proof.
  induction l as [|b l IH]; intros j k E; [discriminate|]. cbn in E. pose proof (zlen_nonneg l). destruct (st_erased b) eqn:B.
  - destruct (IH _ _ E) as (A & F & x & G & N). rewrite zlen_cons. split; [lia|]. split.
    + replace (k - j) with (1 + (k - (j + 1))) by lia. unfold take. rewrite Z2Nat.inj_add by lia. cbn.
      constructor; [now apply erased_blank|exact F].
    + exists x. split; [|exact N]. change (b :: l) with ([b] ++ l). rewrite get_app2; change (zlen [b]) with 1; [|lia]. rewrite <- G. f_equal. lia.
  - injection E as <-. rewrite zlen_cons, Z.sub_diag. split; [lia|]. split; [constructor|]. exists b. split; [reflexivity|].
    intros X. apply erased_blank in X. congruence.
Qed.

Section P.
Context {S : Type} (p : port S) (c : S -> list Z).
Hypothesis (RC : reads_contents p c) (HS : 0 < po_size p <= 4294967280).
Local Notation size := (po_size p).

Lemma c_len s : zlen (c s) = size.
Proof. apply RC. Qed.

(** What a failed check says. *)
Definition erase_fault (s : S) (i : Z) (t : st_result) : Prop :=
  sr_op t = TErase /\ (sr_res t = RReadFailed \/
    sr_res t = RCompareFailed /\ sr_size t = 1 /\ i <= sr_off t < size /\ Forall blank (take (sr_off t - i) (drop i (c s))) /\
      exists b, get (c s) (sr_off t) = Some b /\ ~ blank b).

Lemma check_erased_ok n : forall i s, 0 <= i -> size - i <= Z.of_nat n -> exists r, st_check_erased p n i s = Some (r, s) /\
  match r with None => Forall blank (drop i (c s)) | Some t => erase_fault s i t end.
Proof.
  induction n as [|n IH]; intros i s Hi Hn; cbn [st_check_erased].
  - replace (size <=? i) with true by lia. eexists. split; [reflexivity|]. cbn.
    rewrite drop_all; [constructor|]. rewrite c_len. lia.
  - destruct (size <=? i) eqn:E.
    { eexists. split; [reflexivity|]. cbn. rewrite drop_all; [constructor|]. rewrite c_len. lia. }
    set (k := Z.min 16 (size - i)).
    destruct (po_read p i (fill k 0xef) s) as [[ok b] s'] eqn:R. destruct RC as (CL & RR).
    destruct (RR _ _ _ _ _ _ R) as (-> & B). destruct ok; cbn [negb].
    2:{ eexists. split; [reflexivity|]. cbn. split; [reflexivity|]. now left. }
    assert (B' : b = take k (drop i (c s))).
    { rewrite B; [|reflexivity|lia|]; rewrite zlen_fill by lia; [reflexivity|lia]. }
    assert (KL : zlen b = k). { rewrite B', zlen_take, zlen_drop, CL. lia. }
    destruct (st_find 0 b) as [j|] eqn:F.
    + eexists. split; [reflexivity|]. destruct (find_some _ _ _ F) as (J & FB & x & G & N). rewrite Z.sub_0_r in *.
      split; [reflexivity|]. right. cbn. split; [reflexivity|]. split; [reflexivity|]. split; [lia|]. split.
      * replace (j + i - i) with j by lia. rewrite B', take_take in FB. now replace (Z.min j k) with j in FB by lia.
      * exists x. split; [|exact N]. rewrite <- G, B'. rewrite get_take, get_drop by lia. f_equal. lia.
    + pose proof (find_none _ _ F) as FB.
      assert (U : u32 (i + 16) = i + 16) by (apply u32_id; unfold is_u32; lia). rewrite U.
      destruct (IH (i + 16) s ltac:(lia) ltac:(lia)) as (r & E1 & Q). exists r. split; [exact E1|].
      assert (D : drop i (c s) = b ++ drop (i + 16) (c s)).
      { rewrite <- (take_drop k (drop i (c s))), <- B'. f_equal. rewrite drop_drop by lia.
        destruct (Z_le_gt_dec 16 (size - i)); [f_equal; lia|]. rewrite !drop_all; [reflexivity|rewrite CL; lia|rewrite CL; lia]. }
      destruct r as [t|]; [|rewrite D; apply Forall_app; tauto].
      destruct Q as (Q1 & Q2). split; [exact Q1|]. destruct Q2 as [Q2|(Q2 & Q3 & Q4 & Q5 & Q6)]; [now left|right].
      split; [exact Q2|]. split; [exact Q3|]. split; [lia|]. split; [|exact Q6].
      rewrite D. destruct (Z_le_gt_dec 16 (size - i)).
      * rewrite take_app_ge by lia. apply Forall_app. split; [exact FB|]. rewrite KL. now replace (sr_off t - i - k) with (sr_off t - (i + 16)) by lia.
      * lia.
Qed.

Definition write_fault (s : S) (o : Z) (t : st_result) : Prop :=
  sr_op t = TWrite /\ (sr_res t = RReadFailed \/
    sr_res t = RCompareFailed /\ o <= sr_off t /\ 0 < sr_size t /\ sr_off t + sr_size t <= size /\
      take (sr_off t - o) (drop o (c s)) = take (sr_off t - o) (drop o (test_image size)) /\
      take (sr_size t) (drop (sr_off t) (c s)) <> take (sr_size t) (drop (sr_off t) (test_image size))).

Lemma read_all_ok n : forall off num s, 0 <= off -> size - off <= Z.of_nat n -> off < size -> off mod 19 = phase num ->
  exists r, st_read_all p n off num s = Some (r, s) /\
  match r with None => drop off (c s) = drop off (test_image size) | Some t => write_fault s off t end.
Proof.
  pose proof (image_len size ltac:(lia)) as LI.
  induction n as [|n IH]; intros off num s Hi Hn HL PH; cbn [st_read_all]; [lia|].
  replace (size <=? off) with false by lia.
  destruct (piece_image num size off PH ltac:(lia)) as (PI & PL). set (d := st_piece num size off) in *.
  pose proof (plen_pos num) as PP.
  destruct (po_read p off (fill (zlen d) 0xef) s) as [[ok b] s'] eqn:R. destruct RC as (CL & RR).
  destruct (RR _ _ _ _ _ _ R) as (-> & B). destruct ok; cbn [negb].
  2:{ eexists. split; [reflexivity|]. cbn. split; [reflexivity|]. now left. }
  assert (B' : b = take (zlen d) (drop off (c s))).
  { rewrite B; [|reflexivity|lia|]; rewrite zlen_fill by lia; [reflexivity|lia]. }
  assert (PI2 : d = take (zlen d) (drop off (test_image size))).
  { rewrite PI at 1. rewrite PL. destruct (Z_le_gt_dec (plen num) (size - off)); [f_equal; lia|].
    rewrite !take_all; [reflexivity| |]; rewrite zlen_drop, LI; lia. }
  destruct (list_eq_dec Z.eq_dec b d) as [EQ|NE]; cbn [negb].
  - assert (U : u32 (off + zlen d) = off + zlen d) by (apply u32_id; unfold is_u32; lia). rewrite U.
    assert (T : take (zlen d) (drop off (c s)) = take (zlen d) (drop off (test_image size))) by congruence.
    destruct (Z_le_gt_dec size (off + zlen d)) as [L|L].
    + exists None. split.
      * destruct n; cbn [st_read_all]; now replace (size <=? off + zlen d) with true by lia.
      * rewrite !take_all in T; [exact T| |]; rewrite zlen_drop, ?CL, ?LI; lia.
    + destruct (IH (off + zlen d) (u32 (num + 1)) s ltac:(lia) ltac:(lia) ltac:(lia)) as (r & E1 & Q).
      { replace (zlen d) with (plen num) by lia. now apply phase_next. }
      exists r. split; [exact E1|].
      assert (DD : forall l : list Z, drop (off + zlen d) l = drop (zlen d) (drop off l)).
      { intros l. rewrite drop_drop by lia. f_equal. lia. }
      rewrite !DD in Q.
      destruct r as [t|].
      * destruct Q as (Q1 & Q2). split; [exact Q1|]. destruct Q2 as [Q2|(Q2 & Q3 & Q4 & Q5 & Q6 & Q7)]; [now left|right].
        split; [exact Q2|]. split; [lia|]. split; [exact Q4|]. split; [exact Q5|]. split; [|exact Q7].
        rewrite <- (take_drop (zlen d) (drop off (c s))), <- (take_drop (zlen d) (drop off (test_image size))). rewrite T.
        rewrite <- PI2. rewrite !take_app_ge by lia. f_equal. rewrite !DD in Q6. now replace (sr_off t - off - zlen d) with (sr_off t - (off + zlen d)) by lia.
      * rewrite <- (take_drop (zlen d) (drop off (c s))), <- (take_drop (zlen d) (drop off (test_image size))). congruence.
  - eexists. split; [reflexivity|]. split; [reflexivity|]. right. cbn. split; [reflexivity|]. split; [lia|]. split; [lia|]. split; [lia|].
    rewrite Z.sub_diag, !take_0. split; [reflexivity|]. congruence.
Qed.

(** The outcome of the test. *)
Theorem begin_true s t s' : st_begin p s = Some (true, t, s') ->
  sr_res t = RSuccess /\ c s' = test_image size /\
  exists s0 s1, po_begin p s = (true, s0) /\ po_erase p 0 size s0 = (true, s1) /\ Forall blank (c s1).
Proof.
  unfold st_begin, st_fail. replace (size =? 0) with false by lia.
  destruct (po_begin p s) as (ok & s0) eqn:B0. destruct ok; [|discriminate]. cbn [negb].
  destruct (po_erase p 0 size s0) as (ok & s1) eqn:B1. destruct ok; [|discriminate]. cbn [negb].
  destruct (check_erased_ok (Z.to_nat size) 0 s1 ltac:(lia) ltac:(lia)) as (r & -> & Q). cbn [bind].
  destruct r; [discriminate|]. rewrite drop_0 in Q.
  destruct (st_write_all p (Z.to_nat size) 12 1 s1) as [[[r off] s2]|]; [|discriminate]. cbn [bind].
  destruct r; [discriminate|]. destruct (po_write p 0 st_pattern1 s2) as (ok & s3). destruct ok; [|discriminate]. cbn [negb].
  destruct (read_all_ok (Z.to_nat size) 0 0 s3 ltac:(lia) ltac:(lia) ltac:(lia) eq_refl) as (r & -> & Q'). cbn [bind].
  destruct r; [discriminate|]. rewrite !drop_0 in Q'. intros X. injection X as <- <-.
  split; [reflexivity|]. split; [exact Q'|]. exists s0, s1. split; [reflexivity|]. split; [exact B1|exact Q].
Qed.

Lemma write_all_fault n : forall off num s r o s', st_write_all p n off num s = Some (Some r, o, s') -> sr_op r = TWrite /\ sr_res r = RApiFail.
Proof.
  induction n as [|n IH]; intros off num s r o s'; cbn [st_write_all]; destruct (size <=? off); [discriminate|discriminate|discriminate|].
  destruct (po_write _ _ _ _) as (ok & s1). destruct ok; cbn [negb]; [apply IH|]. intros E. injection E as <- _ _. split; reflexivity.
Qed.

Theorem begin_false s t s' : st_begin p s = Some (false, t, s') ->
  sr_res t <> RSuccess /\
  (sr_res t = RCompareFailed ->
     sr_op t = TErase /\ sr_size t = 1 /\ Forall blank (take (sr_off t) (c s')) /\ (exists b, get (c s') (sr_off t) = Some b /\ ~ blank b) \/
     sr_op t = TWrite /\ 0 <= sr_off t /\ 0 < sr_size t /\ sr_off t + sr_size t <= size /\
       take (sr_off t) (c s') = take (sr_off t) (test_image size) /\
       take (sr_size t) (drop (sr_off t) (c s')) <> take (sr_size t) (drop (sr_off t) (test_image size))).
Proof.
  unfold st_begin, st_fail. replace (size =? 0) with false by lia.
  assert (AF : forall t', sr_res t' = RApiFail -> t' = t -> sr_res t <> RSuccess /\ (sr_res t = RCompareFailed -> False)).
  { intros t' E <-. rewrite E. split; discriminate. }
  assert (AW : forall t' (Q : Prop), sr_res t' = RApiFail -> t' = t -> sr_res t <> RSuccess /\ (sr_res t = RCompareFailed -> Q)).
  { intros t' Q E1 E2. destruct (AF t' E1 E2). split; tauto. }
  destruct (po_begin p s) as (ok & s0) eqn:B0. destruct ok; cbn [negb].
  2:{ intros X. assert (E : mk_str TPrepare RApiFail 0 size = t) by congruence. refine (AW _ _ _ E). reflexivity. }
  destruct (po_erase p 0 size s0) as (ok & s1) eqn:B1. destruct ok; cbn [negb].
  2:{ intros X. assert (E : mk_str TErase RApiFail 0 size = t) by congruence. refine (AW _ _ _ E). reflexivity. }
  destruct (check_erased_ok (Z.to_nat size) 0 s1 ltac:(lia) ltac:(lia)) as (r & -> & Q). cbn [bind].
  destruct r as [r|].
  { intros X. injection X as -> ->. destruct Q as (Q1 & [Q2|(Q2 & Q3 & Q4 & Q5 & Q6)]); rewrite Q2; (split; [discriminate|]); [discriminate|].
    intros _. left. rewrite Z.sub_0_r, drop_0 in Q5. tauto. }
  destruct (st_write_all p (Z.to_nat size) 12 1 s1) as [[[r off] s2]|] eqn:W; [|discriminate]. cbn [bind].
  destruct r as [r|].
  { intros X. assert (E : r = t) by congruence. destruct (write_all_fault _ _ _ _ _ _ _ W) as (_ & W2). exact (AW _ _ W2 E). }
  destruct (po_write p 0 st_pattern1 s2) as (ok & s3). destruct ok; cbn [negb].
  2:{ intros X. assert (E : mk_str TWrite RApiFail off 12 = t) by congruence. refine (AW _ _ _ E). reflexivity. }
  destruct (read_all_ok (Z.to_nat size) 0 0 s3 ltac:(lia) ltac:(lia) ltac:(lia) eq_refl) as (r & -> & Q'). cbn [bind].
  destruct r as [r|]; [|discriminate].
  intros X. injection X as -> ->. destruct Q' as (Q1 & [Q2|(Q2 & Q3 & Q4 & Q5 & Q6 & Q7)]); rewrite Q2; (split; [discriminate|]); [discriminate|].
  intros _. right. rewrite Z.sub_0_r, !drop_0 in Q6. tauto.
Qed.

(** The test ends. *)
Lemma write_all_ends n : forall off num s, 0 <= off -> size - off <= Z.of_nat n -> off mod 19 = phase num -> exists r, st_write_all p n off num s = Some r.
Proof.
  induction n as [|n IH]; intros off num s H0 Hn PH; cbn [st_write_all].
  - replace (size <=? off) with true by lia. eexists. reflexivity.
  - destruct (size <=? off) eqn:E; [eexists; reflexivity|].
    destruct (piece_image num size off PH ltac:(lia)) as (PI & PL). pose proof (plen_pos num) as PP.
    destruct (po_write _ _ _ _) as (ok & s1). destruct ok; cbn [negb]; [|eexists; reflexivity].
    rewrite u32_id by (unfold is_u32; lia).
    destruct (Z_le_gt_dec (plen num) (size - off)).
    + apply IH; [lia|lia|]. rewrite PL. rewrite Z.min_l by lia. now apply phase_next.
    + exists (None, off + zlen (st_piece num size off), s1).
      destruct n; cbn [st_write_all]; now replace (size <=? off + zlen (st_piece num size off)) with true by lia.
Qed.
Lemma begin_ends s : exists r, st_begin p s = Some r.
Proof.
  unfold st_begin, st_fail. replace (size =? 0) with false by lia.
  destruct (po_begin p s) as (ok & s0). destruct ok; cbn [negb]; [|eexists; reflexivity].
  destruct (po_erase p 0 size s0) as (ok & s1). destruct ok; cbn [negb]; [|eexists; reflexivity].
  destruct (check_erased_ok (Z.to_nat size) 0 s1 ltac:(lia) ltac:(lia)) as (r & -> & Q). cbn [bind]. destruct r; [eexists; reflexivity|].
  destruct (write_all_ends (Z.to_nat size) 12 1 s1 ltac:(lia) ltac:(lia) eq_refl) as ([[r off] s2] & ->). cbn [bind].
  destruct r; [eexists; reflexivity|]. destruct (po_write p 0 st_pattern1 s2) as (ok & s3). destruct ok; cbn [negb]; [|eexists; reflexivity].
  destruct (read_all_ok (Z.to_nat size) 0 0 s3 ltac:(lia) ltac:(lia) ltac:(lia) eq_refl) as (r & -> & Q'). cbn [bind].
  destruct r; eexists; reflexivity.
Qed.

(** Storage that works passes. *)
Section Works.
Variable e : Z.
Hypothesis (WK : works p c e) (BE : blank e) (H12 : 12 <= size).
Lemma check_works n : forall i s, 0 <= i -> size - i <= Z.of_nat n -> Forall blank (c s) -> st_check_erased p n i s = Some (None, s).
Proof.
  intros i s Hi Hn F. destruct (check_erased_ok n i s Hi Hn) as (r & E & Q). destruct r as [t|]; [|exact E].
  exfalso. destruct Q as (Q1 & [Q2|(Q2 & Q3 & Q4 & Q5 & b & Q6 & Q7)]).
  - clear -WK E Q2. revert i s E. induction n as [|n IH]; intros i s; cbn [st_check_erased]; destruct (_ <=? _); try discriminate.
    destruct WK as (W0 & W1 & _). pose proof (W1 i (fill (Z.min 16 (size - i)) 239) s) as O.
    destruct (po_read _ _ _ _) as [[ok b] s'] eqn:R. cbn in O. subst ok. cbn [negb].
    destruct (st_find 0 b); [intros X; injection X as <- _; discriminate Q2|].
    destruct W0 as (_ & W0). destruct (W0 _ _ _ _ _ _ R) as (-> & _). apply IH.
  - apply Q7. apply get_in in Q6. rewrite Forall_forall in F. now apply F.
Qed.
Lemma read_works s : c s = test_image size -> st_read_all p (Z.to_nat size) 0 0 s = Some (None, s).
Proof.
  intros C. destruct (read_all_ok (Z.to_nat size) 0 0 s ltac:(lia) ltac:(lia) ltac:(lia) eq_refl) as (r & E & Q).
  destruct r as [t|]; [|exact E]. exfalso. destruct Q as (Q1 & [Q2|(Q2 & Q3 & Q4 & Q5 & Q6 & Q7)]); [|now rewrite C in Q7].
  clear -WK E Q2. assert (X : forall n off num, st_read_all p n off num s = Some (Some t, s) -> False); [|exact (X _ _ _ E)].
  induction n as [|n IH]; intros off num; cbn [st_read_all]; destruct (_ <=? _); try discriminate.
  destruct WK as (W0 & W1 & _). pose proof (W1 off (fill (zlen (st_piece num size off)) 239) s) as O.
  destruct (po_read _ _ _ _) as [[ok b] s'] eqn:R. cbn in O. subst ok. cbn [negb].
  destruct W0 as (_ & W0). destruct (W0 _ _ _ _ _ _ R) as (-> & _).
  destruct (list_eq_dec Z.eq_dec b _); cbn [negb]; [apply IH|intros X; injection X as <-; discriminate Q2].
Qed.
Lemma write_works n : forall off num s, 0 <= off -> size - off <= Z.of_nat n -> off < size -> off mod 19 = phase num ->
  exists s', st_write_all p n off num s = Some (None, size, s') /\ c s' = take off (c s) ++ drop off (test_image size).
Proof.
  pose proof (image_len size ltac:(lia)) as LI.
  induction n as [|n IH]; intros off num s Hi Hn HL PH; cbn [st_write_all]; [lia|].
  replace (size <=? off) with false by lia.
  destruct (piece_image num size off PH ltac:(lia)) as (PI & PL). set (d := st_piece num size off) in *.
  pose proof (plen_pos num) as PP.
  destruct WK as ((W0 & _) & _ & _ & _ & W4 & _).
  destruct (W4 off d s ltac:(lia) ltac:(lia)) as (s1 & E1 & SP). rewrite E1. cbn [negb].
  rewrite splice_some in SP by (rewrite ?W0; lia). injection SP as SP.
  assert (PI2 : d = take (zlen d) (drop off (test_image size))).
  { rewrite PI at 1. rewrite PL. destruct (Z_le_gt_dec (plen num) (size - off)); [f_equal; lia|].
    rewrite !take_all; [reflexivity| |]; rewrite zlen_drop, LI; lia. }
  assert (U : u32 (off + zlen d) = off + zlen d) by (apply u32_id; unfold is_u32; lia). rewrite U.
  assert (DD : forall l : list Z, drop (off + zlen d) l = drop (zlen d) (drop off l)).
  { intros l. rewrite drop_drop by lia. f_equal. lia. }
  assert (ID : drop off (test_image size) = d ++ drop (off + zlen d) (test_image size)).
  { rewrite DD. rewrite PI2 at 1. now rewrite take_drop. }
  destruct (Z_le_gt_dec size (off + zlen d)) as [L|L].
  - exists s1. split.
    + assert (EE : off + zlen d = size) by lia. rewrite EE. destruct n; cbn [st_write_all]; now rewrite Z.leb_refl.
    + rewrite <- SP, ID. rewrite (drop_all (off + zlen d) (c s)) by (rewrite W0; lia).
      rewrite (drop_all (off + zlen d) (test_image size)) by lia. reflexivity.
  - destruct (IH (off + zlen d) (u32 (num + 1)) s1 ltac:(lia) ltac:(lia) ltac:(lia)) as (s' & E2 & C).
    { replace (zlen d) with (plen num) by lia. now apply phase_next. }
    exists s'. split; [exact E2|]. rewrite C, ID, <- SP.
    assert (TL : zlen (take off (c s)) = off) by (rewrite zlen_take, W0; lia).
    rewrite take_app_ge by lia. rewrite TL. replace (off + zlen d - off) with (zlen d) by lia.
    rewrite take_app_exact by reflexivity. now rewrite <- app_assoc.
Qed.
Theorem works_passes s : exists t s', st_begin p s = Some (true, t, s') /\ c s' = test_image size /\
  exists t' s'', st_finish p t s' = (true, t', s'').
Proof.
  pose proof (image_len size ltac:(lia)) as LI. pose proof WK as ((W0 & WR) & W1 & W2 & W3 & W4 & W5).
  assert (B : exists s', st_begin p s = Some (true, mk_str TPrepare RSuccess 0 0, s') /\ c s' = test_image size).
  { unfold st_begin, st_fail. replace (size =? 0) with false by lia.
    specialize (W2 s). destruct (po_begin p s) as (ok & s0). cbn in W2. subst ok. cbn [negb].
    destruct (W3 s0) as (s1 & -> & C1). cbn [negb].
    rewrite check_works by (try lia; rewrite C1; apply Forall_forall; intros x X; apply repeat_spec in X; now subst). cbn [bind].
    assert (E : exists s2, st_write_all p (Z.to_nat size) 12 1 s1 = Some (None, size, s2) /\ drop 12 (c s2) = drop 12 (test_image size)).
    { destruct (Z.eq_dec size 12) as [E|N].
      - exists s1. split.
        + rewrite E at 2. destruct (Z.to_nat size); cbn [st_write_all]; now replace (size <=? 12) with true by lia.
        + rewrite !drop_all; [reflexivity| |]; rewrite ?W0; lia.
      - destruct (write_works (Z.to_nat size) 12 1 s1 ltac:(lia) ltac:(lia) ltac:(lia) eq_refl) as (s2 & E & C). exists s2. split; [exact E|].
        rewrite C, drop_app_exact; [reflexivity|]. rewrite zlen_take, W0. lia. }
    destruct E as (s2 & -> & C2). cbn [bind].
    destruct (W4 0 st_pattern1 s2 ltac:(lia)) as (s3 & -> & SP). { change (zlen st_pattern1) with 12. lia. } cbn [negb].
    rewrite splice_some in SP; [|lia|rewrite W0; change (zlen st_pattern1) with 12; lia].
    apply (f_equal (fun x => match x with Some y => y | None => [] end)) in SP. cbn beta iota in SP.
    assert (C3 : c s3 = test_image size).
    { rewrite <- SP, take_0. change (0 + zlen st_pattern1) with 12. rewrite C2. cbn [app].
      rewrite <- (take_drop 12 (test_image size)) at 2. f_equal.
      destruct (piece_image 0 size 0 eq_refl ltac:(lia)) as (PI & _). rewrite drop_0 in PI. change (plen 0) with 12 in PI. rewrite <- PI.
      unfold st_piece. change (0 mod 2 =? 0) with true. cbv iota. change (zlen st_pattern1) with 12.
      rewrite Z.min_l by lia. reflexivity. }
    rewrite read_works by exact C3. cbn [bind]. exists s3. split; [reflexivity|exact C3]. }
  destruct B as (s' & E & C). eexists. exists s'. split; [exact E|]. split; [exact C|]. unfold st_finish, st_verify_clear. cbn [sr_res].
  destruct (W5 s') as (rest & CC). pose proof (W1 0 [239] (po_clear p s')) as O.
  destruct (po_read p 0 [239] (po_clear p s')) as [[ok b] s''] eqn:R. cbn in O. subst ok. cbn [negb].
  destruct (WR _ _ _ _ _ _ R) as (-> & Bq). rewrite drop_0, CC in Bq. change (zlen [239]) with 1 in Bq. rewrite Bq by lia.
  change (take 1 (e :: rest)) with [e]. cbv iota. rewrite (proj2 (erased_blank e) BE). eexists. eexists. reflexivity.
Qed.
End Works.

(** A clear that leaves the first byte as it was, and a failed test, are reported. *)
Theorem finish_true t s t' s' : st_finish p t s = (true, t', s') -> sr_res t = RSuccess /\ s' = po_clear p s /\ exists b rest, c s' = b :: rest /\ blank b.
Proof.
  unfold st_finish, st_verify_clear. destruct (sr_res t); try discriminate. split; [reflexivity|].
  destruct RC as (CL & RR). destruct (po_read p 0 [239] (po_clear p s)) as [[ok b] s''] eqn:R.
  destruct (RR _ _ _ _ _ _ R) as (-> & B). destruct ok; [|discriminate]. cbn [negb] in H.
  rewrite drop_0 in B. change (zlen [239]) with 1 in B. specialize (B eq_refl ltac:(lia) ltac:(lia)).
  destruct b as [|x b]; [discriminate|]. destruct (st_erased x) eqn:X; [|discriminate]. injection H as <- <-. split; [reflexivity|].
  pose proof (CL (po_clear p s)) as L. destruct (c (po_clear p s)) as [|y rest] eqn:Y; [change (zlen (@nil Z)) with 0 in L; lia|].
  exists y, rest. split; [reflexivity|]. change (take 1 (y :: rest)) with [y] in B. injection B as -> _. now apply erased_blank.
Qed.
End P.

Lemma test_byte_inj i j : test_byte i = test_byte j -> i mod 19 = j mod 19.
Proof.
  unfold test_byte. pose proof (Z.mod_pos_bound i 19 ltac:(lia)). pose proof (Z.mod_pos_bound j 19 ltac:(lia)).
  destruct (_ <? _) eqn:A; destruct (j mod 19 <? 12) eqn:B; lia.
Qed.

(** Two offsets that are the same cell. *)
Theorem alias_detected {S} (p : port S) (c : S -> list Z) i j : reads_contents p c -> 0 < po_size p <= 4294967280 ->
  0 <= i < po_size p -> 0 <= j < po_size p -> i mod 19 <> j mod 19 -> (forall s, get (c s) i = get (c s) j) ->
  forall s t s', st_begin p s <> Some (true, t, s').
Proof.
  intros RC HS Hi Hj N G s t s' E. destruct (begin_true p c RC HS s t s' E) as (_ & C & _).
  specialize (G s'). rewrite C, !image_get in G by assumption. injection G as G. now apply test_byte_inj in G.
Qed.
