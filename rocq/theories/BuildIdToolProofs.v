From Verif Require Import Base BuildIdTool BuildIdToolSpec.

Lemma find_sect_spec a b s : forall l, find_sect l a b = Some s ->
  In s l /\ s_alloc s = true /\ s_addr s <= a < s_addr s + s_size s /\ b <= s_addr s + s_size s.
Proof.
  induction l as [|x l IH]; cbn [find_sect]; [discriminate|]. cbv zeta. destruct (s_alloc x) eqn:AL; cbn [andb].
  - destruct ((s_addr x <=? a) && (a <? s_addr x + s_size x) && ((s_addr x <=? b) && (b <=? s_addr x + s_size x))) eqn:E.
    + intros [= <-]. split; [now left|]. split; [exact AL|]. lia.
    + intros H. destruct (IH H) as (A & B). split; [now right|exact B].
  - intros H. destruct (IH H) as (A & B). split; [now right|exact B].
Qed.
Lemma lookup_spec e n v sz s : lookup e n = Some (v, sz, s) ->
  In s (e_sects e) /\ s_alloc s = true /\ s_addr s <= v < s_addr s + s_size s /\ v + sz <= s_addr s + s_size s.
Proof.
  unfold lookup. intros H. apply bind_inv in H as (x & X & H). apply bind_inv in H as (y & Y & H). injection H as <- <- <-.
  now apply find_sect_spec.
Qed.
Lemma app_same {A} (a b x y : list A) : zlen a = zlen b -> a ++ x = b ++ y -> a = b /\ x = y.
Proof.
  revert b. induction a as [|i a IH]; intros [|j b] L E.
  - now split.
  - rewrite zlen_cons in L. change (zlen (@nil A)) with 0 in L. pose proof (zlen_nonneg b). lia.
  - rewrite zlen_cons in L. change (zlen (@nil A)) with 0 in L. pose proof (zlen_nonneg a). lia.
  - rewrite !zlen_cons in L. cbn [app] in E. injection E as -> E. destruct (IH b) as [-> ->]; [lia|exact E|]. now split.
Qed.
Lemma split_at {A} n (l : list A) : 0 <= n <= zlen l -> exists a b, l = a ++ b /\ zlen a = n.
Proof. intros H. exists (take n l), (drop n l). rewrite take_drop. split; [reflexivity|]. rewrite zlen_take. lia. Qed.

(** The file around the symbol. *)
Lemma around e file s o n : placed e file s -> 0 <= o -> 0 <= n -> o + n <= s_size s ->
  exists A p m q B, file = A ++ p ++ m ++ q ++ B /\ zlen A = s_off s /\ zlen p = o /\ zlen m = n /\ zlen q = s_size s - o - n.
Proof.
  intros (_ & P1 & P2 & _) O N L.
  destruct (split_at (s_off s) file) as (A & R & -> & LA); [lia|]. rewrite zlen_app in P2.
  destruct (split_at o R) as (p & R2 & -> & Lp); [lia|]. rewrite zlen_app in P2.
  destruct (split_at n R2) as (m & R3 & -> & Lm); [lia|]. rewrite zlen_app in P2.
  destruct (split_at (s_size s - o - n) R3) as (q & B & -> & Lq); [lia|].
  exists A, p, m, q, B. repeat split; assumption.
Qed.
Lemma patch_at A p m q B b pos : pos = zlen A + zlen p -> zlen b = zlen m ->
  patch (A ++ p ++ m ++ q ++ B) pos b = A ++ p ++ b ++ q ++ B.
Proof.
  intros -> L. unfold patch. pose proof (zlen_nonneg m). pose proof (zlen_nonneg q). pose proof (zlen_nonneg B). pose proof (zlen_nonneg A). pose proof (zlen_nonneg p).
  replace (fill (zlen A + zlen p - zlen (A ++ p ++ m ++ q ++ B)) 0) with (@nil Z).
  2:{ unfold fill. rewrite !zlen_app. replace (Z.to_nat _) with 0%nat by lia. reflexivity. }
  rewrite app_nil_r, L.
  replace (A ++ p ++ m ++ q ++ B) with ((A ++ p) ++ m ++ q ++ B) by now rewrite !app_assoc.
  rewrite (take_app_exact _ (A ++ p)) by (rewrite zlen_app; lia).
  replace ((A ++ p) ++ m ++ q ++ B) with ((A ++ p ++ m) ++ q ++ B) by now rewrite !app_assoc.
  rewrite (drop_app_exact _ (A ++ p ++ m)) by (rewrite !zlen_app; lia).
  now rewrite <- !app_assoc.
Qed.
Lemma own_data s A p m q B : s_nobits s = false -> zlen A = s_off s -> zlen p + zlen m + zlen q = s_size s ->
  s_data (A ++ p ++ m ++ q ++ B) s = p ++ m ++ q.
Proof.
  intros N LA L. unfold s_data. rewrite N, drop_app_exact by lia.
  replace (p ++ m ++ q ++ B) with ((p ++ m ++ q) ++ B) by now rewrite <- !app_assoc.
  apply take_app_exact. rewrite !zlen_app. lia.
Qed.
Lemma take_drop_app_l {A} n o (a b : list A) : 0 <= o -> 0 <= n -> o + n <= zlen a -> take n (drop o (a ++ b)) = take n (drop o a).
Proof. intros. rewrite drop_app_le by lia. apply take_app_le. rewrite zlen_drop. lia. Qed.
Lemma other_data s' (A M M' B : list Z) : zlen M = zlen M' ->
  s_nobits s' = true \/ (0 <= s_off s' /\ 0 <= s_size s' /\ (s_off s' + s_size s' <= zlen A \/ zlen A + zlen M <= s_off s')) ->
  s_data (A ++ M ++ B) s' = s_data (A ++ M' ++ B) s'.
Proof.
  intros L [H|(H1 & H2 & H3)]; unfold s_data; [now rewrite H|]. destruct (s_nobits s'); [reflexivity|].
  destruct H3 as [H3|H3].
  - rewrite !take_drop_app_l by lia. reflexivity.
  - pose proof (zlen_nonneg A). pose proof (zlen_nonneg M). rewrite !drop_app_ge by (rewrite ?L in *; lia). now rewrite L.
Qed.
Lemma get_oob (l : list Z) i : ~ 0 <= i < zlen l -> get l i = None.
Proof.
  intros H. unfold get. destruct (i <? 0) eqn:E; [reflexivity|]. apply nth_error_None. unfold zlen in H. lia.
Qed.
Lemma changed_at A p m q B b : zlen b = zlen m ->
  changed (A ++ p ++ m ++ q ++ B) (A ++ p ++ b ++ q ++ B) (zlen A + zlen p) b.
Proof.
  intros L. split; [rewrite !zlen_app; lia|]. intros x.
  replace (A ++ p ++ b ++ q ++ B) with ((A ++ p) ++ b ++ q ++ B) by now rewrite <- !app_assoc.
  replace (A ++ p ++ m ++ q ++ B) with ((A ++ p) ++ m ++ q ++ B) by now rewrite <- !app_assoc.
  replace (zlen A + zlen p) with (zlen (A ++ p)) by apply zlen_app.
  set (P := A ++ p). set (Q := q ++ B). pose proof (zlen_nonneg P). pose proof (zlen_nonneg b). pose proof (zlen_nonneg Q).
  destruct (Z_lt_dec x 0); [|destruct (Z_lt_dec x (zlen P)); [|destruct (Z_lt_dec x (zlen P + zlen b)); [|destruct (Z_lt_dec x (zlen P + zlen b + zlen Q))]]].
  - replace (zlen P <=? x) with false by lia. cbn [andb]. now rewrite !get_oob by lia.
  - replace (zlen P <=? x) with false by lia. cbn [andb]. now rewrite !get_app1 by lia.
  - replace (zlen P <=? x) with true by lia. replace (x <? zlen P + zlen b) with true by lia. cbn [andb].
    rewrite get_app2 by lia. now rewrite get_app1 by lia.
  - replace (x <? zlen P + zlen b) with false by lia. rewrite andb_false_r.
    rewrite (get_app2 P) by lia. rewrite (get_app2 b) by lia. rewrite (get_app2 P) by lia. rewrite (get_app2 m) by lia. now rewrite L.
  - replace (x <? zlen P + zlen b) with false by lia. rewrite andb_false_r. rewrite !get_oob; [reflexivity| |]; rewrite !zlen_app; lia.
Qed.

(** The hash input depends only on the data of sections. *)
Lemma hashed_ext mask f f' : forall l,
  (forall s, In s l -> s_alloc s = true -> s_data f s = s_data f' s) -> hashed mask f l = hashed mask f' l.
Proof.
  induction l as [|s l IH]; intros H; [reflexivity|]. cbn [hashed]. rewrite IH by (intros; apply H; [now right|assumption]).
  destruct (s_alloc s) eqn:A; cbn [negb]; [|reflexivity]. rewrite (H s (or_introl eq_refl) A). reflexivity.
Qed.
(** and, with a mask, not on what is masked *)
Lemma hashed_mask addr off inst n f f' : forall l,
  (forall s, In s l -> s_alloc s = true -> s_data f s = s_data f' s \/
     (s_addr s = addr /\ take off (s_data f s) = take off (s_data f' s) /\ drop (off + n) (s_data f s) = drop (off + n) (s_data f' s))) ->
  hashed (Some (addr, off, inst, n)) f l = hashed (Some (addr, off, inst, n)) f' l.
Proof.
  induction l as [|s l IH]; intros H; [reflexivity|]. cbn [hashed]. rewrite IH by (intros; apply H; [now right|assumption]).
  destruct (s_alloc s) eqn:A; cbn [negb]; [|reflexivity].
  destruct (H s (or_introl eq_refl) A) as [E|(E1 & E2 & E3)]; [now rewrite E|]. rewrite E1, Z.eqb_refl, E2, E3. reflexivity.
Qed.
Lemma zs_eqb_eq : forall a b, zs_eqb a b = true <-> a = b.
Proof.
  induction a as [|x a IH]; intros [|y b]; cbn [zs_eqb]; split; intros H; try discriminate; try reflexivity.
  - apply andb_true_iff in H as [H1 H2]. apply IH in H2. f_equal; [lia|exact H2].
  - injection H as -> ->. rewrite Z.eqb_refl. now apply IH.
Qed.

(** Patching a symbol: what changes. *)
Lemma patched e file v n s b : placed e file s -> In s (e_sects e) -> s_addr s <= v -> v + n <= s_addr s + s_size s -> zlen b = n ->
  let f' := patch file (position v s) b in
  changed file f' (position v s) b /\ placed e f' s /\
  sym_data f' v n s = b /\
  take (v - s_addr s) (s_data f' s) = take (v - s_addr s) (s_data file s) /\
  drop (v - s_addr s + n) (s_data f' s) = drop (v - s_addr s + n) (s_data file s) /\
  (forall s', In s' (e_sects e) -> s_alloc s' = true -> s' = s \/ s_data f' s' = s_data file s').
Proof.
  intros P IN V1 V2 L. pose proof (zlen_nonneg b). set (o := v - s_addr s) in *.
  destruct (around e file s o n P) as (A & p & m & q & B & F & LA & Lp & Lm & Lq); [lia|lia|lia|].
  cbv zeta. assert (N : s_nobits s = false) by apply P.
  assert (PF : patch file (position v s) b = A ++ p ++ b ++ q ++ B).
  { rewrite F. apply patch_at; [unfold position; lia|lia]. }
  rewrite PF. assert (PO : position v s = zlen A + zlen p) by (unfold position; lia). rewrite PO.
  assert (D1 : s_data file s = p ++ m ++ q) by (rewrite F; apply own_data; trivial; lia).
  assert (D2 : s_data (A ++ p ++ b ++ q ++ B) s = p ++ b ++ q) by (apply own_data; trivial; lia).
  split; [rewrite F; apply changed_at; lia|].
  split.
  { destruct P as (P0 & P1 & P2 & P3). split; [exact P0|]. split; [exact P1|]. split; [|exact P3].
    rewrite F in P2. rewrite !zlen_app in *. lia. }
  split; [unfold sym_data; rewrite D2; fold o; rewrite (drop_app_exact o p) by lia; apply take_app_exact; lia|].
  split; [rewrite D1, D2, !(take_app_exact o p) by lia; reflexivity|].
  split.
  { rewrite D1, D2. rewrite (app_assoc p b), (app_assoc p m). rewrite !drop_app_exact; [reflexivity| |]; rewrite zlen_app; lia. }
  intros s' I' AL'. destruct (s_nobits s') eqn:N'.
  - right. unfold s_data. now rewrite N'.
  - destruct P as (_ & _ & _ & P3). destruct (P3 s' I' AL' N') as (Q1 & Q2 & [Q3|Q3]); [now left|]. right.
    rewrite F. replace (A ++ p ++ b ++ q ++ B) with (A ++ (p ++ b ++ q) ++ B) by now rewrite <- !app_assoc.
    replace (A ++ p ++ m ++ q ++ B) with (A ++ (p ++ m ++ q) ++ B) by now rewrite <- !app_assoc.
    apply other_data; [rewrite !zlen_app; lia|]. right. split; [exact Q1|]. split; [exact Q2|]. rewrite !zlen_app. lia.
Qed.

Lemma unchanged e file v n s : placed e file s -> In s (e_sects e) -> s_addr s <= v -> 0 <= n -> v + n <= s_addr s + s_size s ->
  changed file file (position v s) (sym_data file v n s) /\ zlen (sym_data file v n s) = n.
Proof.
  intros P IN V1 N0 V2. set (o := v - s_addr s) in *.
  destruct (around e file s o n P) as (A & p & m & q & B & F & LA & Lp & Lm & Lq); [lia|lia|lia|].
  assert (N : s_nobits s = false) by apply P.
  assert (D1 : s_data file s = p ++ m ++ q) by (rewrite F; apply own_data; trivial; lia).
  assert (SD : sym_data file v n s = m).
  { unfold sym_data. rewrite D1. fold o. rewrite (drop_app_exact o p) by lia. apply take_app_exact. lia. }
  rewrite SD. assert (PO : position v s = zlen A + zlen p) by (unfold position; lia). rewrite PO.
  split; [|exact Lm]. rewrite F. now apply changed_at.
Qed.

Lemma sha1_ok sha e file n v sz s f' h : (forall b, zlen (sha b) = 20) -> lookup e n = Some (v, sz, s) -> placed e file s ->
  sha1_mode sha e file n false = Some (f', h) ->
  changed file f' (position v s) h /\ sym_data f' v 20 s = h /\ forall d, sha1_mode sha e f' n d = Some (f', h).
Proof.
  intros SH LK P H. destruct (lookup_spec _ _ _ _ _ LK) as (IN & AL & V & V2).
  unfold sha1_mode in H. rewrite LK in H. cbn [bind] in H. destruct (sz =? 20) eqn:E20; cbn [negb] in H; [|discriminate].
  apply Z.eqb_eq in E20. subst sz. apply bind_inv in H as (b & HB & H).
  destruct (zs_eqb (sym_data file v 20 s) (sha b)) eqn:EQ.
  - injection H as <- <-. pose proof EQ as EQ'. apply zs_eqb_eq in EQ'.
    destruct (unchanged e file v 20 s P IN) as [C _]; [lia|lia|lia|]. rewrite EQ' in C. split; [exact C|]. split; [exact EQ'|].
    intros d. unfold sha1_mode. rewrite LK. cbn [bind]. change (20 =? 20) with true. cbn [negb]. rewrite HB. cbn [bind]. now rewrite EQ.
  - injection H as <- <-. destruct (patched e file v 20 s (sha b) P IN) as (C & P' & S & T1 & T2 & O); [lia|lia|apply SH|].
    fold (position v s). split; [exact C|]. split; [exact S|].
    intros d. unfold sha1_mode. rewrite LK. cbn [bind]. change (20 =? 20) with true. cbn [negb].
    fold (position v s). set (f' := patch file (position v s) (sha b)) in *.
    rewrite (hashed_mask _ _ _ _ f' file), HB. 
    + cbn [bind]. rewrite S. now rewrite (proj2 (zs_eqb_eq _ _) eq_refl).
    + intros s' I' A'. destruct (O s' I' A') as [->|D]; [right|now left]. split; [reflexivity|]. split; assumption.
Qed.
Lemma sha1_dump sha e file n : forall f' h, sha1_mode sha e file n true = Some (f', h) -> f' = file.
Proof.
  intros f' h. unfold sha1_mode. intros H. apply bind_inv in H as ([[v sz] s] & _ & H). destruct (negb (sz =? 20)); [discriminate|].
  apply bind_inv in H as (b & _ & H). destruct (zs_eqb _ _); now injection H.
Qed.
Lemma pack_unpack little n l : pack4 little n = Some l -> zlen l = 4 /\ unpack4 little l = Some n.
Proof.
  unfold pack4. destruct ((0 <=? n) && (n <? 2 ^ 32)) eqn:E; [|discriminate]. intros [= <-]. change (2 ^ 32) with 4294967296 in E.
  split; [now destruct little|].
  assert (X : n mod 256 + 256 * (n / 256 mod 256) + 65536 * (n / 65536 mod 256) + 16777216 * (n / 16777216) = n)
    by (Z.to_euclidean_division_equations; lia).
  destruct little; unfold unpack4; cbn [rev app]; now rewrite X.
Qed.
Lemma unpack_len little l n : unpack4 little l = Some n -> zlen l = 4.
Proof.
  unfold unpack4. intros H.
  assert (L : zlen (if little then l else rev l) = 4).
  { destruct (if little then l else rev l) as [|a [|b [|c [|d [|? ?]]]]]; try discriminate. reflexivity. }
  destruct little; [exact L|]. unfold zlen in *. now rewrite rev_length in L.
Qed.
Lemma unpack_inj little l l' n : bytes l -> bytes l' -> unpack4 little l = Some n -> unpack4 little l' = Some n -> l = l'.
Proof.
  unfold unpack4, bytes. intros B B' H H'.
  enough (X : (if little then l else rev l) = (if little then l' else rev l')).
  { destruct little; [exact X|]. now rewrite <- (rev_involutive l), X, rev_involutive. }
  assert (Y : Forall is_u8 (if little then l else rev l)) by (destruct little; [|apply Forall_rev]; assumption).
  assert (Y' : Forall is_u8 (if little then l' else rev l')) by (destruct little; [|apply Forall_rev]; assumption).
  destruct (if little then l else rev l) as [|a [|b [|c [|d [|? ?]]]]]; try discriminate.
  destruct (if little then l' else rev l') as [|a' [|b' [|c' [|d' [|? ?]]]]]; try discriminate.
  injection H as <-. injection H' as H'.
  repeat match goal with Q : Forall is_u8 (_ :: _) |- _ => inversion Q; clear Q; subst end. unfold is_u8 in *.
  repeat (f_equal; try lia).
Qed.
Lemma crc_ok crc e file n v sz s f' : lookup e n = Some (v, sz, s) -> placed e file s ->
  crc_mode crc e file n false = Some f' ->
  (exists c b, changed file f' (position v s) c /\ zlen c = 4 /\ unpack4 (e_little e) c = Some (crc b) /\
     hashed (Some (s_addr s, v - s_addr s, [], 4)) f' (e_sects e) = Some b) /\
  forall d, crc_mode crc e f' n d = Some f'.
Proof.
  intros LK P H. destruct (lookup_spec _ _ _ _ _ LK) as (IN & AL & V & V2).
  unfold crc_mode in *. rewrite LK in *. cbn [bind] in *. destruct (is_bss s) eqn:BS; [discriminate|].
  apply bind_inv in H as (b & HB & H). apply bind_inv in H as (cur & HC & H). pose proof (unpack_len _ _ _ HC) as L4.
  assert (V4 : v + 4 <= s_addr s + s_size s).
  { unfold s_data in L4. destruct P as (P0 & P1 & P2 & _). rewrite P0 in L4. rewrite !zlen_take, zlen_drop, !zlen_take, zlen_drop in L4. lia. }
  assert (SDE : forall f, take 4 (drop (v - s_addr s) (s_data f s)) = sym_data f v 4 s) by reflexivity.
  assert (SDE' : forall f, sym_data f v 4 s = take 4 (drop (v - s_addr s) (s_data f s))) by reflexivity.
  destruct (cur =? crc b) eqn:EQ.
  - injection H as <-. split.
    + exists (sym_data file v 4 s), b. destruct (unchanged e file v 4 s P IN) as [C LC]; [lia|lia|lia|].
      split; [exact C|]. split; [exact LC|]. split; [|exact HB]. rewrite SDE', HC. f_equal. lia.
    + intros d. rewrite HB. cbn [bind]. rewrite HC. cbn [bind]. now rewrite EQ.
  - apply bind_inv in H as (c & PK & H). injection H as <-. destruct (pack_unpack _ _ _ PK) as [LC UC].
    destruct (patched e file v 4 s c P IN) as (C & P' & S & T1 & T2 & O); [lia|lia|exact LC|].
    fold (position v s). set (f' := patch file (position v s) c) in *.
    assert (HB' : hashed (Some (s_addr s, v - s_addr s, [], 4)) f' (e_sects e) = Some b).
    { rewrite (hashed_mask _ _ _ _ f' file); [exact HB|]. intros s' I' A'. destruct (O s' I' A') as [->|D]; [right|now left]. split; [reflexivity|]. split; assumption. }
    split; [exists c, b; split; [exact C|]; split; [exact LC|]; split; assumption|].
    intros d. rewrite HB'. cbn [bind]. rewrite SDE, S, UC. cbn [bind]. now rewrite Z.eqb_refl.
Qed.

Lemma placed_len e f f' s : zlen f' = zlen f -> placed e f s -> placed e f' s.
Proof. intros L (A & B & C & D). split; [exact A|]. split; [exact B|]. split; [lia|exact D]. Qed.
Lemma sym_get e f v n s i : placed e f s -> s_addr s <= v -> v + n <= s_addr s + s_size s -> 0 <= i < n ->
  get (sym_data f v n s) i = get f (position v s + i).
Proof.
  intros P V1 V2 I. destruct (around e f s (v - s_addr s) n P) as (A & p & m & q & B & F & LA & Lp & Lm & Lq); [lia|lia|lia|].
  assert (N : s_nobits s = false) by apply P. unfold sym_data. rewrite F, own_data by (trivial; lia).
  rewrite (drop_app_exact _ p) by lia. rewrite (take_app_exact n m) by lia. unfold position.
  rewrite (get_app2 A) by lia. rewrite (get_app2 p) by lia. rewrite get_app1 by lia. f_equal. lia.
Qed.
Lemma info_ok sha e file v sz s v' s' f' r : (forall b, zlen (sha b) = 20) ->
  lookup e n_storage = Some (v, sz, s) -> lookup e n_derived = Some (v', 20, s') -> placed e file s -> placed e file s' ->
  position v s + sz <= position v' s' \/ position v' s' + 20 <= position v s ->
  get (sym_data file v sz s) 0 = Some 1 -> info sha e file false = Some (f', r) ->
  exists b short, hashed None file (e_sects e) = Some b /\ r = (3, Some (hex (sha b)), short) /\
    zlen f' = zlen file /\
    (forall x, get f' x = if x =? position v s then Some 3
                          else if (position v' s' <=? x) && (x <? position v' s' + 20) then get (sha b) (x - position v' s') else get file x) /\
    sym_data f' v' 20 s' = sha b /\ get (sym_data f' v sz s) 0 = Some 3 /\
    forall d, info sha e f' d = Some (f', r).
Proof.
  intros SH L1 L2 P1 P2 DJ G0 H. destruct (lookup_spec _ _ _ _ _ L1) as (IN1 & AL1 & V1 & W1). destruct (lookup_spec _ _ _ _ _ L2) as (IN2 & AL2 & V2 & W2).
  unfold info in H. rewrite L1 in H. cbn [bind] in H. apply bind_inv in H as (b2 & G2 & H). rewrite G0 in H. cbn [bind] in H.
  change (1 =? 2) with false in H. change (1 =? 3) with false in H. change (1 =? 1) with true in H. cbn [negb] in H. cbv iota in H. rewrite L2 in H. cbn [bind] in H.
  apply bind_inv in H as (b & HB & H). injection H as <- <-. fold (position v s) (position v' s').
  set (short := if b2 =? 0 then None else Some b2).
  assert (SZ : 3 <= sz).
  { destruct (Z_lt_dec sz 3) as [X|X]; [|lia]. exfalso. rewrite get_oob in G2; [discriminate|]. unfold sym_data. rewrite zlen_take. lia. }
  destruct (patched e file v 1 s [3] P1 IN1) as (C1 & P1' & _); [lia|lia|reflexivity|].
  set (f1 := patch file (position v s) [3]) in *. destruct C1 as [CL1 CG1].
  pose proof (placed_len e file f1 s' CL1 P2) as P2'.
  destruct (patched e f1 v' 20 s' (sha b) P2' IN2) as (C2 & P2'' & S2 & _); [lia|lia|apply SH|].
  set (f2 := patch f1 (position v' s') (sha b)) in *. destruct C2 as [CL2 CG2].
  assert (GET : forall x, get f2 x = if x =? position v s then Some 3
     else if (position v' s' <=? x) && (x <? position v' s' + 20) then get (sha b) (x - position v' s') else get file x).
  { intros x. rewrite CG2, SH. rewrite CG1. change (zlen [3]) with 1.
    destruct (x =? position v s) eqn:E.
    - apply Z.eqb_eq in E. subst x. replace ((position v' s' <=? position v s) && (position v s <? position v' s' + 20)) with false by lia.
      replace ((position v s <=? position v s) && (position v s <? position v s + 1)) with true by lia. now rewrite Z.sub_diag.
    - replace ((position v s <=? x) && (x <? position v s + 1)) with false by lia. reflexivity. }
  pose proof (placed_len e file f2 s (eq_trans CL2 CL1) P1) as P1''.
  assert (T0 : get (sym_data f2 v sz s) 0 = Some 3).
  { rewrite (sym_get e) by (trivial; lia). rewrite Z.add_0_r, GET, Z.eqb_refl. reflexivity. }
  assert (T2 : get (sym_data f2 v sz s) 2 = Some b2).
  { rewrite (sym_get e) by (trivial; lia). rewrite GET. replace (position v s + 2 =? position v s) with false by lia.
    replace ((position v' s' <=? position v s + 2) && (position v s + 2 <? position v' s' + 20)) with false by lia.
    rewrite <- G2. symmetry. apply (sym_get e); trivial; lia. }
  exists b, short. split; [exact HB|]. split; [reflexivity|]. split; [lia|]. split; [exact GET|]. split; [exact S2|]. split; [exact T0|].
  intros d. unfold info. rewrite L1. cbn [bind]. rewrite T2. cbn [bind]. rewrite T0. cbn [bind]. change (3 =? 2) with false. change (3 =? 3) with true. cbv iota. rewrite L2. cbn [bind].
  now rewrite S2.
Qed.
(** Nothing is written when there is an id, or with dump_only. *)
Lemma info_kept sha e file d f' r : info sha e file d = Some (f', r) -> d = true \/ fst (fst r) <> 3 -> f' = file.
Proof.
  unfold info. intros H D. apply bind_inv in H as ([[v sz] s] & _ & H). apply bind_inv in H as (b2 & _ & H). apply bind_inv in H as (ty & _ & H).
  destruct (ty =? 2); [apply bind_inv in H as (g & _ & H); now injection H|].
  apply bind_inv in H as ([[v' sz'] s'] & _ & H). destruct (ty =? 3); [now injection H|]. destruct (negb (ty =? 1)); [discriminate|].
  destruct d; [now injection H|]. apply bind_inv in H as (b & _ & H). injection H as <- <-. cbn in D. destruct D; [discriminate|congruence].
Qed.
(** The image decides. *)
Lemma image_data e f f' : image e f = image e f' -> forall s, In s (e_sects e) -> s_alloc s = true -> s_data f s = s_data f' s.
Proof.
  unfold image. induction (e_sects e) as [|x l IH]; intros E s I A; [contradiction|]. cbn [filter] in E. destruct I as [->|I].
  - rewrite A in E. cbn [map] in E. now injection E.
  - apply IH; trivial. destruct (s_alloc x); [cbn [map] in E; now injection E|exact E].
Qed.
Lemma s_data_len e f s : complete e f -> In s (e_sects e) -> s_alloc s = true -> zlen (s_data f s) = Z.max 0 (s_size s).
Proof.
  intros C I A. unfold s_data. destruct (s_nobits s) eqn:N; [unfold zlen, fill; rewrite repeat_length; lia|].
  destruct (C s I A N) as (C1 & C2 & C3). rewrite zlen_take, zlen_drop. lia.
Qed.
Lemma hashed_inj e f f' : complete e f -> complete e f' -> forall l, (forall s, In s l -> In s (e_sects e)) ->
  forall b, hashed None f l = Some b -> hashed None f' l = Some b ->
  map (fun s => (s_addr s, s_data f s)) (filter s_alloc l) = map (fun s => (s_addr s, s_data f' s)) (filter s_alloc l).
Proof.
  intros C C'. induction l as [|s l IH]; intros SUB b H H'; [reflexivity|]. cbn [hashed filter] in *.
  destruct (s_alloc s) eqn:A; cbn [negb] in *; [|apply (IH (fun x I => SUB x (or_intror I)) b); assumption].
  apply bind_inv in H as (a & PA & H). apply bind_inv in H as (d & PD & H). apply bind_inv in H as (r & PR & H). injection H as <-.
  rewrite PA in H'. cbn [bind] in H'. apply bind_inv in H' as (d' & PD' & H'). apply bind_inv in H' as (r' & PR' & H'). injection H' as H'.
  apply app_inv_head in H'.
  pose proof (s_data_len e f s C (SUB s (or_introl eq_refl)) A) as LF. pose proof (s_data_len e f' s C' (SUB s (or_introl eq_refl)) A) as LF'.
  assert (X : s_data f s = s_data f' s /\ r = r').
  { destruct (is_bss s) eqn:B.
    - rewrite PD in PD'. injection PD' as <-. apply app_inv_head in H'. split; [|now symmetry].
      unfold is_bss in B. unfold s_data. destruct (s_nobits s); [reflexivity|]. now rewrite andb_false_r in B.
    - injection PD as <-. injection PD' as <-. apply app_same in H' as [-> ->]; [now split|lia]. }
  destruct X as [X1 X2]. subst r'. cbn [map]. rewrite X1. f_equal. apply (IH (fun x I => SUB x (or_intror I)) r); assumption.
Qed.
(** With what the compiler left in the symbol, the mask changes nothing. *)
Lemma hashed_compiled e file v s : placed e file s -> In s (e_sects e) -> s_addr s <= v -> v + 20 <= s_addr s + s_size s ->
  sym_data file v 20 s = compiled_id -> 
  forall l, (forall s', In s' l -> In s' (e_sects e)) -> (forall s', In s' l -> s_alloc s' = true -> s_addr s' = s_addr s -> s' = s) ->
  hashed (Some (s_addr s, v - s_addr s, compiled_id, 20)) file l = hashed None file l.
Proof.
  intros P IN V1 V2 SD. destruct (around e file s (v - s_addr s) 20 P) as (A & p & m & q & B & F & LA & Lp & Lm & Lq); [lia|lia|lia|].
  assert (N : s_nobits s = false) by apply P.
  assert (D1 : s_data file s = p ++ m ++ q) by (rewrite F; apply own_data; trivial; lia).
  assert (M : m = compiled_id).
  { rewrite <- SD. unfold sym_data. rewrite D1. rewrite (drop_app_exact _ p) by lia. rewrite take_app_exact by lia. reflexivity. }
  induction l as [|x l IH]; intros SUB U; [reflexivity|]. cbn [hashed].
  rewrite IH by (intros; first [apply SUB; now right|apply U; trivial; now right]).
  destruct (s_alloc x) eqn:AX; cbn [negb]; [|reflexivity]. destruct (s_addr s =? s_addr x) eqn:E; [|reflexivity].
  rewrite (U x (or_introl eq_refl) AX) by lia. rewrite D1. rewrite (take_app_exact _ p) by lia.
  replace (drop (v - s_addr s + 20) (p ++ m ++ q)) with q; [now rewrite <- M|].
  rewrite app_assoc. symmetry. apply drop_app_exact. rewrite zlen_app. lia.
Qed.
Lemma nib_digit v : 0 <= v < 16 -> nib v = hex_digit v.
Proof. intros H. apply Z.eqb_eq. apply (zrange_all (fun v => nib v =? hex_digit v) 16); [vm_compute; reflexivity|lia]. Qed.
Lemma hex_ok l : bytes l -> hex l = hex_text l.
Proof.
  unfold hex, hex_text. induction 1 as [|b l B _ IH]; [reflexivity|]. cbn [flat_map map concat]. rewrite IH. unfold is_u8 in B.
  rewrite !nib_digit; [reflexivity| |]; Z.to_euclidean_division_equations; lia.
Qed.
