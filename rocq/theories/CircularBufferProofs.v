From Verif Require Import Base CircularBuffer CircularBufferSpec.

Definition cb_wf (c : cbuf) : Prop :=
  0 < tot c <= 2147483648 /\ zlen (st c) = tot c /\ 0 <= rd c < tot c /\ 0 <= sz c <= tot c /\
  bytes (st c).

(** Abstraction function. *)
Definition content (c : cbuf) : list Z := take (sz c) (drop (rd c) (st c ++ st c)).

Lemma content_len c : cb_wf c -> zlen (content c) = sz c.
Proof. intros (H1 & H2 & H3 & H4 & H5). unfold content. zl. Qed.

Lemma ring_idx r i t : 0 <= r < t -> 0 <= i <= t -> t <= 2147483648 ->
  u32 (r + i) mod t = if r + i <? t then r + i else r + i - t.
Proof.
  intros. rewrite u32_id by (unfold is_u32; lia).
  destruct (r + i <? t) eqn:E; [apply Z.mod_small; lia|].
  symmetry. apply Z.mod_unique with 1; lia.
Qed.

Lemma get_take' {A} (l : list A) n i : i < n -> get (take n l) i = get l i.
Proof.
  intros. destruct (Z.lt_ge_cases i 0); [unfold get; now ifz|].
  destruct (Z.lt_ge_cases i (zlen l)).
  - rewrite <- (take_drop n l) at 2. rewrite get_app1; [reflexivity|zl].
  - unfold get. ifz. assert (HN : forall m, (length m <= length l)%nat -> nth_error m (Z.to_nat i) = @None A).
    { intros; apply nth_error_None. unfold zlen in *; lia. }
    rewrite !HN; [reflexivity|lia|]. unfold take. rewrite firstn_length. lia.
Qed.

Lemma get_content c i : cb_wf c -> 0 <= i < sz c ->
  get (content c) i = get (st c) (if rd c + i <? tot c then rd c + i else rd c + i - tot c).
Proof.
  intros (H1 & H2 & H3 & H4 & H5) Hi. unfold content.
  rewrite get_take' by lia. rewrite get_drop by lia.
  destruct (rd c + i <? tot c) eqn:E.
  - apply get_app1. lia.
  - rewrite get_app2 by lia. f_equal. lia.
Qed.

Lemma get_splice l off d l' i : splice l off d = Some l' -> 
  get l' i = if (off <=? i) && (i <? off + zlen d) then get d (i - off) else get l i.
Proof.
  intros H. apply splice_inv in H as (H1 & H2 & ->).
  destruct (Z.lt_ge_cases i off).
  - ifz. rewrite get_app1 by zl. apply get_take'. lia.
  - rewrite get_app2 by zl. replace (i - zlen (take off l)) with (i - off) by zl.
    destruct (Z.lt_ge_cases i (off + zlen d)).
    + ifz. apply get_app1. lia.
    + ifz. rewrite get_app2 by zl. rewrite get_drop by zl. f_equal. lia.
Qed.

Lemma get_read_at l off n d i : read_at l off n = Some d -> 0 <= i < n -> get d i = get l (off + i).
Proof.
  unfold read_at. destruct (_ && _) eqn:E; [|discriminate]. injection 1 as <-. intros.
  rewrite get_take' by lia. apply get_drop; lia.
Qed.
Lemma zlen_read_at l off n d : read_at l off n = Some d -> zlen d = n.
Proof. unfold read_at. destruct (_ && _) eqn:E; [|discriminate]. injection 1 as <-. zl. Qed.

(** The two-part read of a ring. *)
Lemma cb_read_ok c off n : cb_wf c -> 0 <= off -> 0 <= n -> off + n < 4294967296 ->
  cb_read c off n = Some (if off + n <=? sz c then Some (take n (drop off (content c))) else None).
Proof.
  intros W Ho Hn Hs. pose proof W as (H1 & H2 & H3 & H4 & H5). unfold cb_read.
  rewrite u32_id by (unfold is_u32; lia).
  destruct (off + n <=? sz c) eqn:E; ifz; [|reflexivity].
  rewrite ring_idx by lia. set (idx := if rd c + off <? tot c then _ else _).
  assert (Hidx : 0 <= idx < tot c) by (unfold idx; destruct (rd c + off <? tot c) eqn:F; lia).
  assert (Hi2 : rd c + off < tot c /\ idx = rd c + off \/ tot c <= rd c + off /\ idx = rd c + off - tot c)
    by (unfold idx; destruct (rd c + off <? tot c) eqn:F; lia).
  clearbody idx.
  set (k := if tot c - idx >? n then n else tot c - idx).
  assert (Hk : k = Z.min n (tot c - idx)) by (unfold k; destruct (tot c - idx >? n) eqn:G; lia).
  clearbody k.
  destruct (read_at (st c) idx k) as [a|] eqn:Ea; [|rewrite read_at_some in Ea by lia; discriminate].
  cbn [bind].
  assert (Hb : exists b, (if n - k =? 0 then Some [] else read_at (st c) 0 (n - k)) = Some b /\
     zlen b = n - k /\ forall i, 0 <= i < n - k -> get b i = get (st c) i).
  { destruct (n - k =? 0) eqn:F; [exists []; split; [reflexivity|]; split; [zl|intros; lia]|].
    destruct (read_at (st c) 0 (n - k)) as [b|] eqn:Eb.
    - exists b. split; [reflexivity|]. split; [eapply zlen_read_at; eauto|].
      intros. now rewrite (get_read_at _ _ _ _ _ Eb).
    - rewrite read_at_some in Eb by lia. discriminate. }
  destruct Hb as (b & Eb & Lb & Gb). rewrite Eb. cbn [bind]. do 2 f_equal.
  pose proof (zlen_read_at _ _ _ _ Ea) as La. pose proof (content_len c W) as LC.
  apply list_eq_get; [zl|]. intros i Hi. rewrite zlen_app in Hi.
  rewrite get_take' by lia. rewrite get_drop by lia. rewrite get_content by (try assumption; lia).
  destruct (Z.lt_ge_cases i k).
  - rewrite get_app1 by lia. rewrite (get_read_at _ _ _ _ _ Ea) by lia. f_equal.
    destruct (rd c + (off + i) <? tot c) eqn:G; lia.
  - rewrite get_app2 by lia. rewrite Gb by lia. f_equal. rewrite La.
    destruct (rd c + (off + i) <? tot c) eqn:G; lia.
Qed.

Lemma cb_ptr_ok c off : cb_wf c -> is_u32 off ->
  match cb_get_read_pointer c off with
  | None => sz c < off
  | Some (idx, l) => off <= sz c /\ 0 <= l <= sz c - off /\ (off < sz c -> 0 < l) /\
       0 <= idx < tot c /\ l <= tot c - idx /\
       (l = sz c - off \/ idx + l = tot c) /\
       forall n, 0 <= n <= l -> read_at (st c) idx n = Some (take n (drop off (content c)))
  end.
Proof.
  intros W Ho. pose proof W as (H1 & H2 & H3 & H4 & H5). unfold is_u32 in Ho.
  unfold cb_get_read_pointer. destruct (sz c <? off) eqn:E; [lia|].
  rewrite ring_idx by lia. set (idx := if rd c + off <? tot c then _ else _).
  assert (Hidx : 0 <= idx < tot c) by (unfold idx; destruct (rd c + off <? tot c) eqn:F; lia).
  repeat split; try lia.
  intros n Hn. pose proof (cb_read_ok c off n W ltac:(lia) ltac:(lia) ltac:(lia)) as R.
  ifz. replace (off + n <=? sz c) with true in R by lia.
  unfold cb_read in R. rewrite u32_id in R by (unfold is_u32; lia). ifz_in R.
  rewrite ring_idx in R by lia. fold idx in R.
  destruct (tot c - idx >? n) eqn:G.
  - destruct (read_at (st c) idx n) as [a|]; [|discriminate]. cbn [bind] in R.
    rewrite Z.sub_diag in R. change (0 =? 0) with true in R. cbn in R. rewrite app_nil_r in R. congruence.
  - replace n with (tot c - idx) in * by lia.
    destruct (read_at (st c) idx (tot c - idx)) as [a|]; [|discriminate]. cbn [bind] in R.
    rewrite Z.sub_diag in R. change (0 =? 0) with true in R. cbn in R. rewrite app_nil_r in R. congruence.
Qed.

Lemma bytes_splice l off d l' : bytes l -> bytes d -> splice l off d = Some l' -> bytes l'.
Proof.
  intros Hl Hd E. apply splice_inv in E as (_ & _ & ->). apply bytes_app. split; [now apply bytes_take|].
  apply bytes_app. split; [assumption|now apply bytes_drop].
Qed.

Lemma cb_write_at_ok c k d : cb_wf c -> bytes d -> is_u32 k -> is_u32 (zlen d) ->
  let q := content c in
  exists b c', cb_write_at_offset c k d = Some (b, c') /\ cb_wf c' /\ tot c' = tot c /\
    b = ((k <=? zlen q) && (zlen q - k + zlen d <=? tot c)) /\
    (b = false -> c' = c) /\
    (b = true -> content c' = take (zlen q - k) q ++ d ++ drop (zlen q - k + zlen d) q).
Proof.
  intros W Hd Hk Hl q. pose proof W as (H1 & H2 & H3 & H4 & H5). unfold is_u32 in *.
  pose proof (content_len c W) as LC. fold q in LC.
  unfold cb_write_at_offset, cb_get_write_size. rewrite LC.
  destruct (sz c <? k) eqn:E1.
  { exists false, c. ifz. replace (k <=? sz c) with false by lia. repeat split; try assumption; try lia; try discriminate; tauto. }
  set (nb := if zlen d >? k then zlen d - k else 0).
  destruct (tot c - sz c <? nb) eqn:E2.
  { exists false, c. replace (sz c - k + zlen d <=? tot c) with false by (unfold nb in *; destruct (zlen d >? k) eqn:G; lia).
    rewrite andb_false_r. repeat split; try assumption; try lia; try discriminate; tauto. }
  assert (Hfit : sz c - k + zlen d <= tot c) by (unfold nb in *; destruct (zlen d >? k) eqn:G; lia).
  replace (rd c + sz c - k) with (rd c + (sz c - k)) by lia.
  rewrite ring_idx by lia. set (idx := if rd c + (sz c - k) <? tot c then _ else _).
  assert (Hidx : 0 <= idx < tot c) by (unfold idx; destruct (rd c + (sz c - k) <? tot c) eqn:F; lia).
  assert (Hi2 : rd c + (sz c - k) < tot c /\ idx = rd c + (sz c - k) \/ tot c <= rd c + (sz c - k) /\ idx = rd c + (sz c - k) - tot c)
    by (unfold idx; destruct (rd c + (sz c - k) <? tot c) eqn:F; lia).
  clearbody idx. pose proof (zlen_nonneg d) as Hd0.
  set (n := if tot c - idx >? zlen d then zlen d else tot c - idx).
  assert (Hn : n = Z.min (zlen d) (tot c - idx)) by (unfold n; destruct (tot c - idx >? zlen d) eqn:G; zl).
  clearbody n.
  destruct (splice (st c) idx (take n d)) as [m1|] eqn:Em1.
  2:{ rewrite splice_some in Em1 by zl. discriminate. }
  cbn [bind].
  pose proof (splice_zlen _ _ _ _ Em1) as Lm1.
  pose proof (bytes_splice _ _ _ _ H5 (bytes_take n d Hd) Em1) as Bm1.
  assert (G1 : forall i, get m1 i = if (idx <=? i) && (i <? idx + n) then get d (i - idx) else get (st c) i).
  { intros i. rewrite (get_splice _ _ _ _ i Em1). replace (zlen (take n d)) with n by zl.
    destruct ((idx <=? i) && (i <? idx + n)) eqn:F; [|reflexivity]. apply get_take'. lia. }
  assert (Hm2 : exists m2, (if zlen d - n =? 0 then Some m1 else splice m1 0 (drop n d)) = Some m2 /\
     zlen m2 = tot c /\ bytes m2 /\
     forall i, 0 <= i -> get m2 i = if i <? zlen d - n then get d (i + n) else get m1 i).
  { destruct (zlen d - n =? 0) eqn:F.
    - exists m1. repeat split; [lia|assumption|]. intros. now ifz.
    - destruct (splice m1 0 (drop n d)) as [m2|] eqn:Em2.
      2:{ rewrite splice_some in Em2; [discriminate|lia|]. zl. }
      exists m2. repeat split; [pose proof (splice_zlen _ _ _ _ Em2); lia| |].
      + eapply bytes_splice; [exact Bm1|apply bytes_drop; exact Hd|exact Em2].
      + intros i Hi. rewrite (get_splice _ _ _ _ i Em2). rewrite zlen_drop.
        destruct (i <? zlen d - n) eqn:G; ifz; [|reflexivity]. rewrite get_drop by lia. f_equal. lia. }
  destruct Hm2 as (m2 & Em2 & Lm2 & Bm2 & G2). rewrite Em2. cbn [bind].
  replace (k <=? sz c) with true by lia. replace (sz c - k + zlen d <=? tot c) with true by lia. cbn [andb].
  assert (Hnb : 0 <= nb /\ sz c + nb = Z.max (sz c) (sz c - k + zlen d)) by (unfold nb; destruct (zlen d >? k) eqn:G; lia).
  rewrite u32_id by (unfold is_u32; lia).
  set (c' := mk_cbuf (rd c) (sz c + nb) (tot c) m2).
  assert (W' : cb_wf c') by (unfold cb_wf, c'; cbn [rd sz tot st]; repeat split; try lia; assumption).
  exists true, c'. repeat split; try discriminate; try (apply W').
  intros _. pose proof (content_len c' W') as LC'. cbn [sz c'] in LC'.
  apply list_eq_get; [zl|]. intros i Hi. rewrite LC' in Hi.
  rewrite (get_content c' i W') by exact Hi. cbn [rd tot st c'].
  set (j := if rd c + i <? tot c then rd c + i else rd c + i - tot c).
  assert (Hj : 0 <= j < tot c) by (unfold j; destruct (rd c + i <? tot c) eqn:F; lia).
  assert (Hj2 : rd c + i < tot c /\ j = rd c + i \/ tot c <= rd c + i /\ j = rd c + i - tot c)
    by (unfold j; destruct (rd c + i <? tot c) eqn:F; lia).
  rewrite G2, G1 by lia.
  (* position i: before, inside or after the written range *)
  destruct (Z.lt_ge_cases i (sz c - k)) as [Ha|Ha].
  - rewrite get_app1 by zl. rewrite get_take' by lia. unfold q. rewrite get_content by (try assumption; lia). fold j.
    clearbody j. ifz. reflexivity.
  - rewrite get_app2 by zl. replace (i - zlen (take (sz c - k) q)) with (i - (sz c - k)) by zl.
    destruct (Z.lt_ge_cases i (sz c - k + zlen d)) as [Hb|Hb].
    + rewrite get_app1 by lia.
      clearbody j. destruct (j <? zlen d - n) eqn:J1; [f_equal; lia|]. ifz. f_equal. lia.
    + rewrite get_app2 by lia. rewrite get_drop by lia.
      replace (sz c - k + zlen d + (i - (sz c - k) - zlen d)) with i by lia.
      unfold q. rewrite get_content by (try assumption; lia). fold j.
      clearbody j. ifz. reflexivity.
Qed.

Lemma cb_consume_ok c n : cb_wf c -> is_u32 n ->
  let q := content c in
  let (b, c') := cb_consume c n in
  cb_wf c' /\ tot c' = tot c /\ b = (n <=? zlen q) /\ (b = false -> c' = c) /\ (b = true -> content c' = drop n q).
Proof.
  intros W Hn q. pose proof W as (H1 & H2 & H3 & H4 & H5). unfold is_u32 in *.
  pose proof (content_len c W) as LC. fold q in LC. unfold cb_consume.
  destruct (sz c <? n) eqn:E.
  - replace (n <=? zlen q) with false by lia. repeat split; try assumption; try lia; discriminate.
  - replace (n <=? zlen q) with true by lia. rewrite ring_idx by lia.
    set (r := if rd c + n <? tot c then _ else _).
    assert (Hr : 0 <= r < tot c) by (unfold r; destruct (rd c + n <? tot c) eqn:F; lia).
    set (c' := mk_cbuf r (sz c - n) (tot c) (st c)).
    assert (W' : cb_wf c') by (unfold cb_wf, c'; cbn [rd sz tot st]; repeat split; try lia; assumption).
    split; [exact W'|]. repeat split; try discriminate. intros _.
    pose proof (content_len c' W') as LC'. cbn [sz c'] in LC'.
    apply list_eq_get; [zl|]. intros i Hi. rewrite LC' in Hi.
    rewrite get_content by (try assumption; cbn; lia). rewrite get_drop by lia. unfold q.
    rewrite get_content by (try assumption; lia). cbn [rd tot st c'].
    f_equal. unfold r. destruct (rd c + n <? tot c) eqn:F;
      match goal with |- (if ?x then _ else _) = (if ?y then _ else _) => destruct x eqn:?; destruct y eqn:?; lia end.
Qed.

Lemma cb_consume_end_ok c n : cb_wf c -> is_u32 n ->
  let q := content c in
  let (b, c') := cb_consume_from_end c n in
  cb_wf c' /\ tot c' = tot c /\ b = (n <=? zlen q) /\ (b = false -> c' = c) /\ (b = true -> content c' = take (zlen q - n) q).
Proof.
  intros W Hn q. pose proof W as (H1 & H2 & H3 & H4 & H5). unfold is_u32 in *.
  pose proof (content_len c W) as LC. fold q in LC. unfold cb_consume_from_end.
  destruct (sz c <? n) eqn:E.
  - replace (n <=? zlen q) with false by lia. repeat split; try assumption; try lia; discriminate.
  - replace (n <=? zlen q) with true by lia.
    split; [unfold cb_wf; cbn [rd sz tot st]; repeat split; try lia; assumption|].
    repeat split; try discriminate. intros _. rewrite LC. unfold q, content. cbn [rd sz tot st].
    rewrite take_take. f_equal. lia.
Qed.

Lemma calls_carry_app from tr d o x : calls_carry from tr d -> o = from + zlen d -> 0 < zlen x ->
  calls_carry from (tr ++ [(o, x)]) (d ++ x).
Proof.
  revert from d; induction tr as [|(o' & y) tr IH]; intros from d H Ho Hx; cbn in *.
  - subst d. rewrite zlen_nil in Ho. cbn. split; [lia|]. split; [assumption|]. exists []. now rewrite app_nil_r.
  - destruct H as (-> & Hy & d' & -> & H). split; [reflexivity|]. split; [assumption|].
    exists (d' ++ x). split; [now rewrite app_assoc|]. apply IH; try assumption. zl.
Qed.

Lemma app_last_inv {A} (l : list A) a p o s : l ++ [a] = p ++ o :: s ->
  (s = [] /\ p = l /\ o = a) \/ (exists s', s = s' ++ [a] /\ l = p ++ o :: s').
Proof.
  destruct s as [|x s] using rev_ind.
  - intros H. apply app_inj_tail in H as [-> ->]. now left.
  - clear IHs. intros H. right. exists s.
    replace (p ++ o :: s ++ [x]) with ((p ++ o :: s) ++ [x]) in H by (now rewrite <- app_assoc).
    apply app_inj_tail in H as [-> ->]. auto.
Qed.

Lemma verdicts_app f tr o x b : verdicts f tr true -> f tr o x = b -> verdicts f (tr ++ [(o, x)]) b.
Proof.
  intros H E i p o' x' s Hs Hi. apply app_last_inv in Hs as [(-> & -> & Heq)|(s' & -> & ->)].
  - injection Heq as -> ->. assumption.
  - rewrite (H i p o' x' s' eq_refl Hi). destruct s' as [|? ?]; cbn; [reflexivity|reflexivity].
Qed.

Lemma rwc_loop_ok fuel : forall c off n left f tr,
  cb_wf c -> 0 <= off -> 0 <= left <= n -> off + n <= sz c -> (Z.to_nat left < fuel)%nat ->
  calls_carry 0 tr (take (n - left) (drop off (content c))) -> verdicts f tr true ->
  (tr = [] /\ left = n \/ zlen tr = 1 /\ tot c <= rd c + off + (n - left) \/ left = 0 /\ zlen tr <= 2) ->
  exists b tr', cb_rwc_loop fuel c off n left f tr = Some (b, tr') /\
    (exists d rest, calls_carry 0 tr' d /\ take n (drop off (content c)) = d ++ rest /\ (b = true -> rest = [])) /\
    verdicts f tr' b /\ zlen tr' <= 2 /\ (tr' = [] -> b = true).
Proof.
  induction fuel as [|fuel IH]; intros c off n left f tr W Ho Hl Hs Hf HC HV HP; [lia|].
  pose proof W as (H1 & H2 & H3 & H4 & H5). cbn [cb_rwc_loop].
  destruct (left =? 0) eqn:E0.
  - exists true, tr. split; [reflexivity|]. split.
    + exists (take (n - left) (drop off (content c))), []. rewrite app_nil_r.
      split; [assumption|]. split; [f_equal; lia|reflexivity].
    + split; [assumption|]. split; [|reflexivity].
      destruct HP as [[-> _]|[[? _]|[_ ?]]]; zl.
  - rewrite u32_id by (unfold is_u32; lia).
    pose proof (cb_ptr_ok c (off + (n - left)) W ltac:(unfold is_u32; lia)) as P.
    destruct (cb_get_read_pointer c (off + (n - left))) as [[idx l]|] eqn:Ep; [|lia].
    destruct P as (P1 & P2 & P3 & P4 & P5 & P6 & P7).
    rewrite (P7 (Z.min left l)) by lia. cbn [bind].
    set (k := Z.min left l). assert (Hk : 0 < k <= left) by lia.
    pose proof (content_len c W) as LC.
    set (x := take k (drop (off + (n - left)) (content c))).
    assert (Lx : zlen x = k) by (unfold x; zl).
    assert (HC' : calls_carry 0 (tr ++ [(n - left, x)]) (take (n - (left - k)) (drop off (content c)))).
    { replace (n - (left - k)) with ((n - left) + k) by lia. rewrite take_plus by lia.
      rewrite drop_drop by lia. replace (n - left + off) with (off + (n - left)) by lia.
      apply calls_carry_app; [assumption| |unfold x in Lx; lia]. zl. }
    assert (Hidx : idx = if rd c + (off + (n - left)) <? tot c then rd c + (off + (n - left)) else rd c + (off + (n - left)) - tot c).
    { unfold cb_get_read_pointer in Ep. ifz_in Ep. injection Ep as <- _. rewrite ring_idx by lia. reflexivity. }
    assert (HP' : zlen (tr ++ [(n - left, x)]) = 1 /\ tot c <= rd c + off + (n - (left - k)) \/ left - k = 0 /\ zlen (tr ++ [(n - left, x)]) <= 2).
    { destruct HP as [[-> ->]|[[Ht Hw]|[? _]]]; [| |lia].
      - replace (zlen ([] ++ [(n - n, x)])) with 1 by zl.
        destruct (Z.eq_dec (n - k) 0); [right; lia|left]. split; [reflexivity|].
        rewrite Hidx in *. destruct (rd c + (off + (n - n)) <? tot c) eqn:F; lia.
      - right. replace (rd c + (off + (n - left)) <? tot c) with false in Hidx by lia.
        split; [|zl]. lia. }
    destruct (f tr (n - left) x) eqn:Ef.
    + apply IH; try assumption; try lia; first [now apply verdicts_app | now right].
    + eexists false, _. split; [reflexivity|]. split.
      * exists (take (n - (left - k)) (drop off (content c))), (take (left - k) (drop (off + (n - (left - k))) (content c))).
        split; [assumption|]. split; [|discriminate].
        replace n with ((n - (left - k)) + (left - k)) at 1 by lia. rewrite take_plus by lia. f_equal.
        rewrite drop_drop by lia. do 2 f_equal. lia.
      * split; [now apply verdicts_app|]. split; [destruct HP' as [[? _]|[_ ?]]; zl|]. now destruct tr.
Qed.

Lemma cb_rwc_ok c off n f : cb_wf c -> 0 <= off -> 0 <= n -> off + n < 4294967296 ->
  exists b tr, cb_read_with_callback c off n f = Some (b, tr) /\
  (if off + n <=? sz c
   then (exists d rest, calls_carry 0 tr d /\ take n (drop off (content c)) = d ++ rest /\ (b = true -> rest = []))
        /\ verdicts f tr b /\ zlen tr <= 2 /\ (tr = [] -> b = true)
   else b = false /\ tr = []).
Proof.
  intros W Ho Hn Hs. unfold cb_read_with_callback. rewrite u32_id by (unfold is_u32; lia).
  destruct (off + n <=? sz c) eqn:E; ifz.
  - apply rwc_loop_ok; try assumption; try lia.
    + rewrite Z.sub_diag. reflexivity.
    + intros i p o x s H. now destruct p.
    + now left.
  - exists false, []. auto.
Qed.

Lemma cb_step_ok c o : cb_wf c -> op_ok o ->
  exists r c', cb_step c o = Some (r, c') /\ cb_wf c' /\ tot c' = tot c /\
    q_step (tot c) (content c) o r (content c') /\
    (r = RBool false -> c' = c) /\ (match o with OWrite _ | OWriteAt _ _ | OConsume _ | OConsumeEnd _ => True | _ => c' = c end).
Proof.
  intros W Hok. pose proof (content_len c W) as LC. pose proof W as (H1 & H2 & H3 & H4 & H5).
  destruct o as [d|k d|k n|k|k n f|n|n| |]; cbn [op_ok] in Hok; cbn [cb_step].
  - destruct Hok as [Hb Hl]. destruct (cb_write_at_ok c 0 d W Hb) as (b & c' & E & W' & T & Hb' & Hf & Ht); [unfold is_u32; lia|assumption|].
    unfold cb_write. rewrite E. cbn [bind fst snd]. exists (RBool b), c'. repeat split; try assumption; try (apply W').
    + replace (0 <=? zlen (content c)) with true in Hb' by zl. rewrite Z.sub_0_r in Hb'. exact Hb'.
    + destruct b; [|now rewrite Hf]. rewrite Ht by reflexivity. rewrite Z.sub_0_r.
      rewrite take_all, drop_all by zl. now rewrite app_nil_r.
    + injection 1 as ->. auto.
  - destruct Hok as (Hb & Hk & Hl). destruct (cb_write_at_ok c k d W Hb Hk Hl) as (b & c' & E & W' & T & Hb' & Hf & Ht).
    rewrite E. cbn [bind fst snd]. exists (RBool b), c'. repeat split; try assumption; try (apply W').
    + destruct b; [|now rewrite Hf]. now rewrite Ht.
    + injection 1 as ->. auto.
  - destruct Hok as (Hk & Hn & Hs). unfold is_u32 in *. rewrite cb_read_ok by (try assumption; lia). cbn [bind].
    eexists _, c. split; [reflexivity|]. split; [assumption|]. split; [reflexivity|].
    split; [|split; [discriminate|reflexivity]]. cbn [q_step]. split; [reflexivity|]. now rewrite LC.
  - pose proof (cb_ptr_ok c k W Hok) as P. destruct (cb_get_read_pointer c k) as [[idx l]|].
    + destruct P as (P1 & P2 & P3 & P4 & P5 & P6 & P7). rewrite (P7 l) by lia. cbn [bind].
      eexists _, c. repeat split; try assumption; try lia; try discriminate.
      * exists (drop l (drop k (content c))). now rewrite take_drop.
      * intros Hlt E. apply (f_equal zlen) in E. unfold is_u32 in Hok. zl.
    + eexists _, c. repeat split; try assumption; try lia; try discriminate.
  - destruct Hok as (Hk & Hn & Hs). unfold is_u32 in *. destruct (cb_rwc_ok c k n f W) as (b & tr & E & H); try lia.
    rewrite E. cbn [bind fst snd]. eexists _, c. split; [reflexivity|]. split; [assumption|]. split; [reflexivity|].
    split; [|split; [discriminate|reflexivity]]. cbn [q_step]. split; [reflexivity|]. now rewrite LC.
  - pose proof (cb_consume_ok c n W Hok) as P. destruct (cb_consume c n) as [b c']. destruct P as (W' & T & Hb & Hf & Ht).
    eexists _, c'. repeat split; try assumption; try (apply W').
    + destruct b; [now apply Ht|now rewrite Hf].
    + injection 1 as ->. auto.
  - pose proof (cb_consume_end_ok c n W Hok) as P. destruct (cb_consume_from_end c n) as [b c']. destruct P as (W' & T & Hb & Hf & Ht).
    eexists _, c'. repeat split; try assumption; try (apply W').
    + destruct b; [now apply Ht|now rewrite Hf].
    + injection 1 as ->. auto.
  - eexists _, c. split; [reflexivity|]. split; [assumption|]. split; [reflexivity|].
    split; [|split; [discriminate|reflexivity]]. cbn [q_step]. unfold cb_get_read_size. now rewrite LC.
  - eexists _, c. split; [reflexivity|]. split; [assumption|]. split; [reflexivity|].
    split; [|split; [discriminate|reflexivity]]. cbn [q_step]. unfold cb_get_write_size. now rewrite LC.
Qed.

Lemma cb_run_ok ops : forall c, cb_wf c -> Forall op_ok ops ->
  exists rs c', cb_run c ops = Some (rs, c') /\ cb_wf c' /\ tot c' = tot c /\
    q_run (tot c) (content c) ops rs (content c').
Proof.
  induction ops as [|o ops IH]; intros c W H; cbn [cb_run].
  - exists [], c. repeat split; try assumption; apply W.
  - inv H. destruct (cb_step_ok c o W H2) as (r & c1 & E & W1 & T1 & Q1 & _). rewrite E. cbn [bind fst snd].
    destruct (IH c1 W1 H3) as (rs & c' & E' & W' & T' & Q'). rewrite E'. cbn [bind fst snd].
    exists (r :: rs), c'. split; [reflexivity|]. split; [exact W'|]. split; [lia|].
    cbn [q_run]. exists (content c1). split; [assumption|]. now rewrite T1 in Q'.
Qed.

Lemma cb_init_ok storage n : is_u8 0 -> 0 < n <= 2147483648 -> n = zlen storage ->
  exists c, cb_init storage n = Some (Some c) /\ cb_wf c /\ tot c = n /\ content c = [].
Proof.
  intros Hz Hn Hl. unfold cb_init. ifz. rewrite splice_some by (rewrite ?zlen_fill by lia; lia).
  cbn [bind]. rewrite zlen_fill by lia. rewrite take_0, drop_all by lia. rewrite app_nil_l, app_nil_r.
  exists (mk_cbuf 0 0 n (fill n 0)). split; [reflexivity|].
  split; [|split; reflexivity]. unfold cb_wf; cbn [rd sz tot st].
  pose proof (zlen_fill n 0 ltac:(lia)). repeat split; try lia. now apply bytes_fill.
Qed.

(** The full refinement, from init on. *)
Lemma cb_refines storage ops : 0 < zlen storage <= 2147483648 -> Forall op_ok ops ->
  exists c rs c' q', cb_init storage (zlen storage) = Some (Some c) /\
    cb_run c ops = Some (rs, c') /\ q_run (zlen storage) [] ops rs q'.
Proof.
  intros Hs Ho. destruct (cb_init_ok storage (zlen storage)) as (c & E & W & T & C); [unfold is_u8; lia|lia|lia|].
  destruct (cb_run_ok ops c W Ho) as (rs & c' & E' & W' & T' & Q').
  exists c, rs, c', (content c'). repeat split; try assumption. now rewrite T, C in Q'.
Qed.

Lemma cb_run_app ops1 ops2 c : cb_run c (ops1 ++ ops2) =
  do x <- cb_run c ops1; do y <- cb_run (snd x) ops2; Some (fst x ++ fst y, snd y).
Proof.
  revert c; induction ops1 as [|o ops1 IH]; intros c; cbn [app cb_run].
  - cbn [bind fst snd app]. destruct (cb_run c ops2) as [[? ?]|]; reflexivity.
  - destruct (cb_step c o) as [[r c1]|]; [|reflexivity]. cbn [bind fst snd]. rewrite IH.
    destruct (cb_run c1 ops1) as [[rs c2]|]; [|reflexivity]. cbn [bind fst snd].
    destruct (cb_run c2 ops2) as [[rs2 c3]|]; reflexivity.
Qed.

(** A failed call leaves the context and the memory exactly as they were; no call ever leaves
    the storage. *)
Lemma cb_all_or_nothing storage ops o c : 0 < zlen storage <= 2147483648 -> Forall op_ok ops -> op_ok o ->
  cb_init storage (zlen storage) = Some (Some c) ->
  exists rs c1 r c2, cb_run c ops = Some (rs, c1) /\ cb_step c1 o = Some (r, c2) /\
    zlen (st c2) = zlen storage /\
    (match r with RBool true => True | _ => c2 = c1 end).
Proof.
  intros Hs Hops Ho Hi.
  destruct (cb_init_ok storage (zlen storage)) as (c0 & E & W & T & C); [unfold is_u8; lia|lia|lia|].
  rewrite E in Hi. injection Hi as ->.
  destruct (cb_run_ok ops c W Hops) as (rs & c1 & E' & W' & T' & _).
  destruct (cb_step_ok c1 o W' Ho) as (r & c2 & E2 & W2 & T2 & Q2 & F2 & G2).
  exists rs, c1, r, c2. repeat split; try assumption.
  - destruct W2 as (_ & L & _). lia.
  - destruct r as [[|]| | | |]; try exact I; try (now apply F2).
    all: destruct o; cbn [q_step] in Q2; try contradiction; exact G2.
Qed.

Lemma cb_read_overflow_refuted : ~ (forall storage ops c c1 rs offset len,
  0 < zlen storage <= 2147483648 -> Forall op_ok ops ->
  cb_init storage (zlen storage) = Some (Some c) -> cb_run c ops = Some (rs, c1) ->
  is_u32 offset -> is_u32 len -> cb_get_read_size c1 < offset + len ->
  cb_read c1 offset len = Some None).
Proof.
  intros H.
  specialize (H [7; 7; 7] [OWrite [1]] (mk_cbuf 0 0 3 [0; 0; 0]) (mk_cbuf 0 1 3 [1; 0; 0]) [RBool true] 1 4294967295).
  assert (E : cb_read (mk_cbuf 0 1 3 [1; 0; 0]) 1 4294967295 = None) by (vm_compute; reflexivity).
  rewrite E in H. discriminate H; try reflexivity; try (unfold is_u32; lia).
  - change (zlen [7; 7; 7]) with 3. lia.
  - repeat constructor; vm_compute; congruence.
Qed.

Lemma cb_others_refuse storage ops c c1 rs :
  0 < zlen storage <= 2147483648 -> Forall op_ok ops ->
  cb_init storage (zlen storage) = Some (Some c) -> cb_run c ops = Some (rs, c1) ->
  (forall k d, bytes d -> is_u32 k -> is_u32 (zlen d) ->
     cb_get_read_size c1 < k \/ zlen storage < cb_get_read_size c1 - k + zlen d ->
     cb_write_at_offset c1 k d = Some (false, c1)) /\
  (forall n, is_u32 n -> cb_get_read_size c1 < n ->
     cb_consume c1 n = (false, c1) /\ cb_consume_from_end c1 n = (false, c1) /\
     cb_get_read_pointer c1 n = None) /\
  (forall k n, is_u32 k -> is_u32 n -> is_u32 (k + n) -> cb_get_read_size c1 < k + n ->
     cb_read c1 k n = Some None).
Proof.
  intros Hs Hops Hi Hr.
  destruct (cb_init_ok storage (zlen storage)) as (c0 & E & W & T & C); [unfold is_u8; lia|lia|lia|].
  rewrite E in Hi. injection Hi as ->.
  destruct (cb_run_ok ops c W Hops) as (rs' & c1' & E' & W' & T' & _). rewrite E' in Hr. injection Hr as -> ->.
  unfold cb_get_read_size. pose proof (content_len c1 W') as LC. split; [|split].
  - intros k d Hd Hk Hl Hx. destruct (cb_write_at_ok c1 k d W' Hd Hk Hl) as (b & c' & E1 & _ & _ & Hb & Hf & _).
    rewrite LC in Hb. assert (b = false) as ->. { subst b. apply andb_false_iff. lia. }
    rewrite E1. f_equal. f_equal. now apply Hf.
  - intros n Hn Hx. unfold cb_consume, cb_consume_from_end, cb_get_read_pointer. ifz. auto.
  - intros k n Hk Hn Hkn Hx. unfold is_u32 in *. rewrite cb_read_ok by (try assumption; lia). now ifz.
Qed.
