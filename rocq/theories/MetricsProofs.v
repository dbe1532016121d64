(** Proofs about the metrics: the model of memfault_metrics.c does what the specification says. *)
From Verif Require Import Base Metrics MetricsSpec.

(** ** Arrays *)
Lemma zset_inv {A} (l : list A) i x l' : zset l i x = Some l' ->
  0 <= i < zlen l /\ l' = take i l ++ x :: drop (i + 1) l.
Proof.
  unfold zset. destruct (0 <=? i) eqn:E1, (i <? zlen l) eqn:E2; cbn [andb]; try discriminate.
  intros H. injection H as <-. split; [lia|reflexivity].
Qed.
Lemma zset_some {A} (l : list A) i x : 0 <= i < zlen l -> zset l i x = Some (take i l ++ x :: drop (i + 1) l).
Proof.
  intros. unfold zset. replace (0 <=? i) with true by lia. replace (i <? zlen l) with true by lia. reflexivity.
Qed.
Lemma get_upd_same {A} (l : list A) i x : 0 <= i < zlen l -> get (take i l ++ x :: drop (i + 1) l) i = Some x.
Proof.
  intros. assert (zlen (take i l) = i) by (rewrite zlen_take; lia).
  rewrite get_app2 by lia. replace (i - zlen (take i l)) with 0 by lia. reflexivity.
Qed.
Lemma get_take {A} (l : list A) n i : i < n -> get (take n l) i = get l i.
Proof.
  intros H. rewrite <- (take_drop n l) at 2. destruct (Z.ltb_spec i (zlen (take n l))) as [L|L].
  - now rewrite get_app1 by lia.
  - rewrite zlen_take in L. destruct (get (take n l) i) eqn:G; [apply get_range in G; rewrite zlen_take in G; lia|].
    destruct (get (take n l ++ drop n l) i) eqn:G2; [|reflexivity].
    apply get_range in G2. rewrite take_drop in G2. lia.
Qed.
Lemma get_upd_other {A} (l : list A) i j x : 0 <= i < zlen l -> j <> i -> get (take i l ++ x :: drop (i + 1) l) j = get l j.
Proof.
  intros. assert (L : zlen (take i l) = i) by (rewrite zlen_take; lia).
  destruct (Z.ltb_spec j i).
  - rewrite get_app1 by lia. apply get_take. lia.
  - rewrite get_app2 by lia. rewrite L.
    replace (x :: drop (i + 1) l) with ([x] ++ drop (i + 1) l) by reflexivity.
    rewrite get_app2 by (change (zlen [x]) with 1; lia). change (zlen [x]) with 1.
    rewrite get_drop by lia. f_equal. lia.
Qed.
Lemma zlen_upd {A} (l : list A) i x : 0 <= i < zlen l -> zlen (take i l ++ x :: drop (i + 1) l) = zlen l.
Proof. intros. rewrite zlen_app, zlen_cons, zlen_take, zlen_drop. lia. Qed.
Lemma get_none {A} (l : list A) i : get l i = None <-> ~ (0 <= i < zlen l).
Proof.
  split.
  - intros G H. destruct (get_some l i H) as (x & E). congruence.
  - intros H. destruct (get l i) eqn:G; [|reflexivity]. apply get_range in G. contradiction.
Qed.
Lemma get_cons_S {A} (x : A) l i : 0 < i -> get (x :: l) i = get l (i - 1).
Proof.
  intros. replace (x :: l) with ([x] ++ l) by reflexivity. rewrite get_app2 by (change (zlen [x]) with 1; lia).
  reflexivity.
Qed.
Lemma take_cons {A} (x : A) l i : 0 < i -> take i (x :: l) = x :: take (i - 1) l.
Proof.
  intros. replace (x :: l) with ([x] ++ l) by reflexivity. rewrite take_app_ge by (change (zlen [x]) with 1; lia).
  reflexivity.
Qed.

(** ** The index tables *)
Definition pl (t : mdef -> bool) (defs : list mdef) (i : Z) : Z := ms_count t (take i defs).
Lemma ms_count_nonneg t defs : 0 <= ms_count t defs.
Proof. induction defs as [|d r IH]; cbn [ms_count]; [lia|]. destruct (t d); lia. Qed.
Lemma ms_count_app t a b : ms_count t (a ++ b) = ms_count t a + ms_count t b.
Proof. induction a as [|d r IH]; cbn [ms_count app]; [lia|]. rewrite IH. lia. Qed.
Lemma pl_nonneg t defs i : 0 <= pl t defs i.
Proof. apply ms_count_nonneg. Qed.
Lemma pl_lt t defs i d : get defs i = Some d -> t d = true -> pl t defs i < ms_count t defs.
Proof.
  intros G T. unfold pl. rewrite <- (take_drop i defs) at 2. rewrite ms_count_app.
  rewrite (drop_get_cons _ _ _ G). cbn [ms_count]. rewrite T. pose proof (ms_count_nonneg t (drop (i + 1) defs)). lia.
Qed.
Lemma pl_lt2 t defs i j d : get defs i = Some d -> t d = true -> i < j -> pl t defs i < pl t defs j.
Proof.
  intros G T L. unfold pl. replace (take i defs) with (take i (take j defs)).
  - apply (pl_lt t (take j defs) i d); [|exact T]. now rewrite get_take by lia.
  - rewrite take_take. f_equal. lia.
Qed.
Lemma pl_inj t defs i j d e : get defs i = Some d -> t d = true -> get defs j = Some e -> t e = true -> i <> j ->
  pl t defs i <> pl t defs j.
Proof.
  intros G T G' T' N. destruct (Z.ltb_spec i j).
  - pose proof (pl_lt2 t defs i j d G T ltac:(assumption)). lia.
  - pose proof (pl_lt2 t defs j i e G' T' ltac:(lia)). lia.
Qed.

Fixpoint tab (t : mdef -> bool) (ph n : Z) (defs : list mdef) : list Z :=
  match defs with
  | [] => []
  | d :: r => if t d then n :: tab t ph (n + 1) r else ph :: tab t ph n r
  end.
Lemma tab_get t ph defs : forall n i d, get defs i = Some d ->
  get (tab t ph n defs) i = Some (if t d then n + pl t defs i else ph).
Proof.
  induction defs as [|e r IH]; intros n i d G.
  - apply get_range in G. change (zlen (@nil mdef)) with 0 in G. lia.
  - pose proof (get_range _ _ _ G) as R. destruct (Z.eq_dec i 0) as [->|N].
    + rewrite get_cons_0 in G. injection G as ->. cbn [tab]. unfold pl. rewrite take_0. cbn [ms_count].
      destruct (t d); rewrite get_cons_0; [f_equal; lia|reflexivity].
    + rewrite get_cons_S in G by lia. cbn [tab]. unfold pl. rewrite take_cons by lia. cbn [ms_count].
      fold (pl t r (i - 1)). destruct (t e); rewrite get_cons_S by lia; rewrite (IH _ _ _ G).
      * destruct (t d); [f_equal; lia|reflexivity].
      * destruct (t d); [f_equal; lia|reflexivity].
Qed.
Lemma kv_tab defs : forall n, kv_table n defs = tab is_scalar 0 n defs.
Proof.
  induction defs as [|d r IH]; intros n; [reflexivity|]. cbn [kv_table tab]. rewrite !IH.
  unfold is_scalar, is_string. destruct (md_type d); reflexivity.
Qed.
Lemma str_tab defs : forall n, str_table n defs = tab is_string 0 n defs.
Proof.
  induction defs as [|d r IH]; intros n; [reflexivity|]. cbn [str_table tab]. rewrite !IH.
  unfold is_string. destruct (md_type d); reflexivity.
Qed.
Lemma timer_tab defs : forall n, timer_table n defs = tab is_timer (-1) n defs.
Proof.
  induction defs as [|d r IH]; intros n; [reflexivity|]. cbn [timer_table tab]. rewrite !IH.
  unfold is_timer. destruct (md_type d); reflexivity.
Qed.
Lemma kv_get defs i d : get defs i = Some d -> get (kv_table 0 defs) i = Some (if is_scalar d then pl is_scalar defs i else 0).
Proof. intros G. rewrite kv_tab, (tab_get _ _ _ _ _ _ G). destruct (is_scalar d); f_equal; lia. Qed.
Lemma str_get defs i d : get defs i = Some d -> get (str_table 0 defs) i = Some (if is_string d then pl is_string defs i else 0).
Proof. intros G. rewrite str_tab, (tab_get _ _ _ _ _ _ G). destruct (is_string d); f_equal; lia. Qed.
Lemma timer_get defs i d : get defs i = Some d -> get (timer_table 0 defs) i = Some (if is_timer d then pl is_timer defs i else -1).
Proof. intros G. rewrite timer_tab, (tab_get _ _ _ _ _ _ G). destruct (is_timer d); f_equal; lia. Qed.

(** ** Set flags *)
Lemma testbit_u8 x n : 0 <= n < 8 -> Z.testbit (u8 x) n = Z.testbit x n.
Proof. intros. unfold u8. apply Z.mod_pow2_bits_low. lia. Qed.
Lemma flag_bit s k : me_flag s k = (do b <- get (ms_flags s) (k / 8); Some (Z.testbit b (k mod 8))).
Proof. unfold me_flag. destruct (get (ms_flags s) (k / 8)); cbn [bind]; [|reflexivity]. f_equal. symmetry. apply Z.testbit_odd. Qed.
Lemma me_flag_flags s s' k : ms_flags s = ms_flags s' -> me_flag s k = me_flag s' k.
Proof. unfold me_flag. intros ->. reflexivity. Qed.
Lemma bit_one a b : 0 <= a -> 0 <= b -> Z.testbit (Z.shiftl 1 a) b = (a =? b).
Proof.
  intros. rewrite Z.shiftl_1_l. destruct (Z.eqb_spec a b) as [->|N].
  - now apply Z.pow2_bits_true.
  - now apply Z.pow2_bits_false.
Qed.

Definition flags_room (s : mstate) (n : Z) : Prop := zlen (ms_flags s) = (n + 7) / 8.
Lemma flag_range s n k : flags_room s n -> 0 <= k < n -> 0 <= k / 8 < zlen (ms_flags s).
Proof. unfold flags_room. intros -> H. Z.div_mod_to_equations. lia. Qed.
Lemma flag_write s n k (f : Z -> Z) : flags_room s n -> 0 <= k < n ->
  exists b, get (ms_flags s) (k / 8) = Some b /\
    (do b <- get (ms_flags s) (k / 8); do f <- zset (ms_flags s) (k / 8) (u8 (f b)); Some (set_flags s f))
    = Some (set_flags s (take (k / 8) (ms_flags s) ++ u8 (f b) :: drop (k / 8 + 1) (ms_flags s))) /\
    forall j, 0 <= j < n -> me_flag (set_flags s (take (k / 8) (ms_flags s) ++ u8 (f b) :: drop (k / 8 + 1) (ms_flags s))) j
      = (if j / 8 =? k / 8 then Some (Z.testbit (f b) (j mod 8)) else me_flag s j).
Proof.
  intros F K. pose proof (flag_range _ _ _ F K) as R. destruct (get_some _ _ R) as (b & G).
  exists b. split; [exact G|]. split.
  - rewrite G. cbn [bind]. rewrite zset_some by exact R. reflexivity.
  - intros j J. rewrite !flag_bit. cbn [ms_flags set_flags]. destruct (Z.eqb_spec (j / 8) (k / 8)) as [E|E].
    + rewrite E, get_upd_same by exact R. cbn [bind]. rewrite testbit_u8; [reflexivity|]. apply Z.mod_pos_bound. lia.
    + rewrite get_upd_other by assumption. reflexivity.
Qed.
Lemma flag_set_ok s n k : flags_room s n -> 0 <= k < n -> exists fl,
  me_flag_set s k = Some (set_flags s fl) /\ zlen fl = zlen (ms_flags s) /\
  me_flag (set_flags s fl) k = Some true /\
  forall j, 0 <= j < n -> j <> k -> me_flag (set_flags s fl) j = me_flag s j.
Proof.
  intros F K. destruct (flag_write s n k (fun b => Z.lor b (Z.shiftl 1 (k mod 8))) F K) as (b & G & W & Bits).
  eexists. split; [exact W|]. pose proof (flag_range _ _ _ F K) as R. split; [now apply zlen_upd|].
  assert (MK : 0 <= k mod 8 < 8) by (apply Z.mod_pos_bound; lia).
  split.
  - rewrite Bits by exact K. rewrite Z.eqb_refl. rewrite Z.lor_spec, bit_one by lia. rewrite Z.eqb_refl, orb_true_r. reflexivity.
  - intros j J N. rewrite Bits by exact J. destruct (Z.eqb_spec (j / 8) (k / 8)) as [E|E]; [|reflexivity].
    assert (MJ : 0 <= j mod 8 < 8) by (apply Z.mod_pos_bound; lia).
    rewrite Z.lor_spec, bit_one by lia. replace (k mod 8 =? j mod 8) with false.
    + rewrite orb_false_r. rewrite flag_bit, E, G. reflexivity.
    + symmetry. apply Z.eqb_neq. intros C. apply N. rewrite (Z.div_mod j 8), (Z.div_mod k 8) by lia. lia.
Qed.
Lemma flag_clear_ok s n k : flags_room s n -> 0 <= k < n -> exists fl,
  me_flag_clear s k = Some (set_flags s fl) /\ zlen fl = zlen (ms_flags s) /\
  me_flag (set_flags s fl) k = Some false /\
  forall j, 0 <= j < n -> j <> k -> me_flag (set_flags s fl) j = me_flag s j.
Proof.
  intros F K. destruct (flag_write s n k (fun b => Z.land b (Z.lnot (Z.shiftl 1 (k mod 8)))) F K) as (b & G & W & Bits).
  eexists. split; [exact W|]. pose proof (flag_range _ _ _ F K) as R. split; [now apply zlen_upd|].
  assert (MK : 0 <= k mod 8 < 8) by (apply Z.mod_pos_bound; lia).
  split.
  - rewrite Bits by exact K. rewrite Z.eqb_refl. rewrite Z.land_spec, Z.lnot_spec, bit_one by lia. rewrite Z.eqb_refl. cbn [negb]. rewrite andb_false_r. reflexivity.
  - intros j J N. rewrite Bits by exact J. destruct (Z.eqb_spec (j / 8) (k / 8)) as [E|E]; [|reflexivity].
    assert (MJ : 0 <= j mod 8 < 8) by (apply Z.mod_pos_bound; lia).
    rewrite Z.land_spec, Z.lnot_spec, bit_one by lia. replace (k mod 8 =? j mod 8) with false.
    + cbn [negb]. rewrite andb_true_r. rewrite flag_bit, E, G. reflexivity.
    + symmetry. apply Z.eqb_neq. intros C. apply N. rewrite (Z.div_mod j 8), (Z.div_mod k 8) by lia. lia.
Qed.

(** ** The relation *)
Definition meta_of (r : option (Z * Z)) : bool * Z :=
  match r with Some (_, last) => (true, last mod 2147483648) | None => (false, 0) end.
Definition run_ok (r : option (Z * Z)) : Prop := match r with Some (since, last) => 0 <= since <= last | None => True end.
Definition is_set (o : option Z) : bool := match o with Some _ => true | None => false end.

(** What the arrays hold for one metric. *)
Definition m_ok (defs : list mdef) (s : mstate) (i : Z) (d : mdef) (v : aval) : Prop :=
  match md_type d, v with
  | MUnsigned, AInt o => get (ms_vals s) (pl is_scalar defs i) = Some (or0 o) /\ is_u32 (or0 o)
                         /\ me_flag s (pl is_scalar defs i) = Some (is_set o)
  | MSigned, AInt o => get (ms_vals s) (pl is_scalar defs i) = Some (u32 (or0 o)) /\ is_s32 (or0 o)
                       /\ me_flag s (pl is_scalar defs i) = Some (is_set o)
  | MTimer, ATimer t r => get (ms_vals s) (pl is_scalar defs i) = Some (a_shows v mod 4294967296)
                          /\ get (ms_meta s) (pl is_timer defs i) = Some (meta_of r) /\ run_ok r
  | MString, AStr c => exists junk, get (ms_strs s) (pl is_string defs i) = Some (c ++ 0 :: junk)
                       /\ zlen c + zlen junk = md_range d /\ Forall charz c
  | _, _ => False
  end.
Record mrel (defs : list mdef) (s : mstate) (a : list aval) : Prop := mk_mrel {
  mr_len : zlen a = zlen defs;
  mr_vals : zlen (ms_vals s) = ms_count is_scalar defs;
  mr_flags : flags_room s (ms_count is_scalar defs);
  mr_strs : zlen (ms_strs s) = ms_count is_string defs;
  mr_meta : zlen (ms_meta s) = ms_count is_timer defs + 1;
  mr_each : forall i d v, get defs i = Some d -> get a i = Some v -> m_ok defs s i d v }.

(** [s'] differs from [s] only in the places of metric [i]. *)
Record only (defs : list mdef) (s s' : mstate) (i : Z) : Prop := mk_only {
  on_vals : zlen (ms_vals s') = zlen (ms_vals s);
  on_flags : zlen (ms_flags s') = zlen (ms_flags s);
  on_strs : zlen (ms_strs s') = zlen (ms_strs s);
  on_meta : zlen (ms_meta s') = zlen (ms_meta s);
  on_val : forall j d, get defs j = Some d -> is_scalar d = true -> j <> i ->
             get (ms_vals s') (pl is_scalar defs j) = get (ms_vals s) (pl is_scalar defs j);
  on_flag : forall j d, get defs j = Some d -> is_scalar d = true -> j <> i ->
             me_flag s' (pl is_scalar defs j) = me_flag s (pl is_scalar defs j);
  on_str : forall j d, get defs j = Some d -> is_string d = true -> j <> i ->
             get (ms_strs s') (pl is_string defs j) = get (ms_strs s) (pl is_string defs j);
  on_met : forall j d, get defs j = Some d -> is_timer d = true -> j <> i ->
             get (ms_meta s') (pl is_timer defs j) = get (ms_meta s) (pl is_timer defs j) }.
Lemma only_refl defs s i : only defs s s i.
Proof. split; reflexivity. Qed.
Lemma only_trans defs s s1 s2 i : only defs s s1 i -> only defs s1 s2 i -> only defs s s2 i.
Proof.
  intros [A1 A2 A3 A4 A5 A6 A7 A8] [B1 B2 B3 B4 B5 B6 B7 B8]. split; try congruence; intros j d G T N.
  - rewrite (B5 j d G T N). eauto.
  - rewrite (B6 j d G T N). eauto.
  - rewrite (B7 j d G T N). eauto.
  - rewrite (B8 j d G T N). eauto.
Qed.

Lemma m_ok_frame defs s s' i j d v : only defs s s' i -> get defs j = Some d -> j <> i -> m_ok defs s j d v -> m_ok defs s' j d v.
Proof.
  intros O G N M. unfold m_ok in *. destruct (md_type d) eqn:T, v; try contradiction.
  - rewrite (on_val _ _ _ _ O j d G), (on_flag _ _ _ _ O j d G); try assumption; unfold is_scalar, is_string; rewrite T; reflexivity.
  - rewrite (on_val _ _ _ _ O j d G), (on_flag _ _ _ _ O j d G); try assumption; unfold is_scalar, is_string; rewrite T; reflexivity.
  - rewrite (on_val _ _ _ _ O j d G), (on_met _ _ _ _ O j d G); try assumption; unfold is_timer, is_scalar, is_string; rewrite T; reflexivity.
  - rewrite (on_str _ _ _ _ O j d G); try assumption; unfold is_string; rewrite T; reflexivity.
Qed.

Lemma mrel_put defs s s' a i d v : mrel defs s a -> only defs s s' i -> get defs i = Some d -> m_ok defs s' i d v ->
  mrel defs s' (am_put a i v).
Proof.
  intros [L V F S M E] O G K. pose proof (get_range _ _ _ G) as R. unfold am_put.
  split.
  - rewrite zlen_upd by lia. exact L.
  - rewrite (on_vals _ _ _ _ O). exact V.
  - unfold flags_room. rewrite (on_flags _ _ _ _ O). exact F.
  - rewrite (on_strs _ _ _ _ O). exact S.
  - rewrite (on_meta _ _ _ _ O). exact M.
  - intros j e w GJ GA. destruct (Z.eq_dec j i) as [->|N].
    + rewrite get_upd_same in GA by lia. injection GA as <-. rewrite G in GJ. injection GJ as <-. exact K.
    + rewrite get_upd_other in GA by lia. apply (m_ok_frame defs s s' i); try assumption. now apply E.
Qed.

(** Writes to one array element. *)
Lemma only_vals defs s i d x l : get defs i = Some d -> is_scalar d = true ->
  zset (ms_vals s) (pl is_scalar defs i) x = Some l -> only defs s (set_vals s l) i.
Proof.
  intros G T Z. apply zset_inv in Z as (R & ->). split; try reflexivity.
  - cbn [ms_vals set_vals]. now apply zlen_upd.
  - intros j e GJ TJ N. cbn [ms_vals set_vals]. apply get_upd_other; [exact R|].
    apply (pl_inj _ _ _ _ _ _ GJ TJ G T). exact N.
Qed.
Lemma only_meta defs s i d x l : get defs i = Some d -> is_timer d = true ->
  zset (ms_meta s) (pl is_timer defs i) x = Some l -> only defs s (set_meta s l) i.
Proof.
  intros G T Z. apply zset_inv in Z as (R & ->). split; try reflexivity.
  - cbn [ms_meta set_meta]. now apply zlen_upd.
  - intros j e GJ TJ N. cbn [ms_meta set_meta]. apply get_upd_other; [exact R|].
    apply (pl_inj _ _ _ _ _ _ GJ TJ G T). exact N.
Qed.
Lemma only_strs defs s i d x l : get defs i = Some d -> is_string d = true ->
  zset (ms_strs s) (pl is_string defs i) x = Some l -> only defs s (set_strs s l) i.
Proof.
  intros G T Z. apply zset_inv in Z as (R & ->). split; try reflexivity.
  - cbn [ms_strs set_strs]. now apply zlen_upd.
  - intros j e GJ TJ N. cbn [ms_strs set_strs]. apply get_upd_other; [exact R|].
    apply (pl_inj _ _ _ _ _ _ GJ TJ G T). exact N.
Qed.
Lemma only_flags defs s i d fl : get defs i = Some d -> is_scalar d = true -> zlen fl = zlen (ms_flags s) ->
  (forall j, 0 <= j < ms_count is_scalar defs -> j <> pl is_scalar defs i -> me_flag (set_flags s fl) j = me_flag s j) ->
  only defs s (set_flags s fl) i.
Proof.
  intros G T L F. split; try reflexivity; [exact L|].
  intros j e GJ TJ N. apply F.
  - split; [apply pl_nonneg|]. exact (pl_lt _ _ _ _ GJ TJ).
  - apply (pl_inj _ _ _ _ _ _ GJ TJ G T). exact N.
Qed.

Lemma pl_range t defs i d : get defs i = Some d -> t d = true -> 0 <= pl t defs i < ms_count t defs.
Proof. intros G T. split; [apply pl_nonneg|exact (pl_lt _ _ _ _ G T)]. Qed.

(** Looking a key up. *)
Lemma am_get_some defs s a key : mrel defs s a -> (am_get defs a key = None /\ get defs key = None)
  \/ exists d v, am_get defs a key = Some (d, v) /\ get defs key = Some d /\ get a key = Some v /\ m_ok defs s key d v.
Proof.
  intros R. unfold am_get. destruct (get defs key) as [d|] eqn:G; [|left; split; reflexivity].
  right. pose proof (get_range _ _ _ G) as L. destruct (get_some a key) as (v & GA); [rewrite (mr_len _ _ _ R); exact L|].
  exists d, v. rewrite GA. repeat split. exact (mr_each _ _ _ R _ _ _ G GA).
Qed.
Lemma find_none defs s key : get defs key = None -> me_find defs s key = Some None.
Proof. unfold me_find. intros ->. reflexivity. Qed.
Lemma find_some defs s a key d v : mrel defs s a -> get defs key = Some d -> get a key = Some v ->
  me_find defs s key = Some (Some (mk_mi d
    (match md_type d with MString => PStr (pl is_string defs key) | _ => PVal (pl is_scalar defs key) end)
    (match md_type d with MTimer => Some (pl is_timer defs key) | _ => None end)
    (match v with AInt o => is_set o | _ => false end))).
Proof.
  intros R G GA. pose proof (mr_each _ _ _ R _ _ _ G GA) as M. unfold me_find. rewrite G.
  rewrite (kv_get _ _ _ G), (str_get _ _ _ G), (timer_get _ _ _ G). cbn [bind].
  assert (T1 : is_scalar d = negb (mtype_eqb (md_type d) MString)) by reflexivity.
  assert (T2 : is_string d = mtype_eqb (md_type d) MString) by reflexivity.
  assert (T3 : is_timer d = mtype_eqb (md_type d) MTimer) by reflexivity.
  rewrite T1, T2, T3. clear T1 T2 T3.
  unfold m_ok in M. destruct (md_type d) eqn:T, v; try contradiction; cbn [mtype_eqb negb].
  - destruct M as (_ & _ & ->). reflexivity.
  - destruct M as (_ & _ & ->). reflexivity.
  - cbn [bind]. replace (pl is_timer defs key =? -1) with false; [reflexivity|]. symmetry. apply Z.eqb_neq. pose proof (pl_nonneg is_timer defs key). lia.
  - reflexivity.
Qed.

(** ** Numbers *)
Lemma write_flag (defs : list mdef) s a i d raw (fs : mstate -> Z -> option mstate) (b : bool) :
  (forall s n k, flags_room s n -> 0 <= k < n -> exists fl,
     fs s k = Some (set_flags s fl) /\ zlen fl = zlen (ms_flags s) /\ me_flag (set_flags s fl) k = Some b /\
     forall j, 0 <= j < n -> j <> k -> me_flag (set_flags s fl) j = me_flag s j) ->
  mrel defs s a -> get defs i = Some d -> is_scalar d = true ->
  exists v s', zset (ms_vals s) (pl is_scalar defs i) raw = Some v /\ fs (set_vals s v) (pl is_scalar defs i) = Some s'
    /\ only defs s s' i /\ get (ms_vals s') (pl is_scalar defs i) = Some raw
    /\ me_flag s' (pl is_scalar defs i) = Some b /\ ms_meta s' = ms_meta s.
Proof.
  intros FS R G T. pose proof (pl_range _ _ _ _ G T) as P.
  assert (RV : 0 <= pl is_scalar defs i < zlen (ms_vals s)) by (rewrite (mr_vals _ _ _ R); exact P).
  exists (take (pl is_scalar defs i) (ms_vals s) ++ raw :: drop (pl is_scalar defs i + 1) (ms_vals s)).
  set (v := take _ _ ++ _).
  destruct (FS (set_vals s v) _ _ (mr_flags _ _ _ R) P) as (fl & E & L & B & O).
  exists (set_flags (set_vals s v) fl). split; [now apply zset_some|]. split; [exact E|]. split.
  - apply only_trans with (set_vals s v).
    + apply (only_vals defs s i d raw); try assumption. now apply zset_some.
    + apply (only_flags defs _ i d); assumption.
  - split; [now apply get_upd_same|]. split; [exact B|reflexivity].
Qed.

Lemma s32_u32 v : is_s32 v -> s32 (u32 v) = v.
Proof. unfold is_s32, s32, u32. change (2^31) with 2147483648. change (2^32) with 4294967296. intros. Z.div_mod_to_equations. lia. Qed.
Lemma mod_u32 v : v mod 4294967296 = u32 v.
Proof. reflexivity. Qed.
Lemma u32_u32 v : u32 (u32 v) = u32 v.
Proof. unfold u32. apply Z.mod_mod. change (2^32) with 4294967296. lia. Qed.

Definition step_ok (defs : list mdef) (timers : list Z) (o : mop) : Prop :=
  forall s a res a', mrel defs s a -> am_step defs timers a o = Some (res, a') ->
  exists s', me_step defs timers s o = Some (res, s') /\ mrel defs s' a'.

Lemma scalar_of t d : md_type d = t -> t <> MString -> is_scalar d = true.
Proof. unfold is_scalar, is_string. intros -> N. destruct t; try reflexivity. contradiction. Qed.
Lemma mtype_eqb_eq a b : mtype_eqb a b = true <-> a = b.
Proof. destruct a, b; split; intros H; try reflexivity; discriminate. Qed.

Lemma set_u_ok defs timers k v : step_ok defs timers (OSetU k v).
Proof.
  intros s a res a' R H. cbn [am_step me_step] in *. unfold in_u32 in H. destruct (_ && _) eqn:U in H; [|discriminate].
  apply andb_true_iff in U as (U1 & U2). assert (UV : is_u32 v) by (unfold is_u32; lia).
  unfold me_set. destruct (am_get_some defs s a k R) as [(E & G)|(d & w & E & G & GA & M)]; rewrite E in H.
  - rewrite find_none by exact G. injection H as <- <-. exists s. split; [reflexivity|exact R].
  - rewrite (find_some defs s a k d w R G GA). cbn [bind mi_def mi_place].
    destruct (mtype_eqb (md_type d) MUnsigned) eqn:T.
    + apply mtype_eqb_eq in T. injection H as <- <-. rewrite T.
      destruct (write_flag defs s a k d (u32 v) me_flag_set true flag_set_ok R G (scalar_of _ _ T ltac:(discriminate)))
        as (vs & s' & Z1 & Z2 & O & V & F & _).
      rewrite Z1. cbn [bind]. rewrite Z2. cbn [bind fst snd]. exists s'. split; [reflexivity|].
      apply (mrel_put defs s s' a k d); try assumption. unfold m_ok. rewrite T. cbn [or0 is_set].
      rewrite u32_id in V by exact UV. split; [exact V|]. split; assumption.
    + injection H as <- <-. exists s. split; [reflexivity|exact R].
Qed.
Lemma set_s_ok defs timers k v : step_ok defs timers (OSetS k v).
Proof.
  intros s a res a' R H. cbn [am_step me_step] in *. unfold in_s32 in H. destruct (_ && _) eqn:U in H; [|discriminate].
  apply andb_true_iff in U as (U1 & U2). assert (UV : is_s32 v) by (unfold is_s32; lia).
  unfold me_set. destruct (am_get_some defs s a k R) as [(E & G)|(d & w & E & G & GA & M)]; rewrite E in H.
  - rewrite find_none by exact G. injection H as <- <-. exists s. split; [reflexivity|exact R].
  - rewrite (find_some defs s a k d w R G GA). cbn [bind mi_def mi_place].
    destruct (mtype_eqb (md_type d) MSigned) eqn:T.
    + apply mtype_eqb_eq in T. injection H as <- <-. rewrite T.
      destruct (write_flag defs s a k d (u32 v) me_flag_set true flag_set_ok R G (scalar_of _ _ T ltac:(discriminate)))
        as (vs & s' & Z1 & Z2 & O & V & F & _).
      rewrite Z1. cbn [bind]. rewrite Z2. cbn [bind fst snd]. exists s'. split; [reflexivity|].
      apply (mrel_put defs s s' a k d); try assumption. unfold m_ok. rewrite T. cbn [or0 is_set].
      split; [exact V|]. split; assumption.
    + injection H as <- <-. exists s. split; [reflexivity|exact R].
Qed.

Lemma add_unsigned raw n : is_u32 raw -> is_s32 n ->
  (if xorb (0 <? n) (raw <? u32 (raw + u32 n)) then if 0 <? n then 4294967295 else 0 else u32 (raw + u32 n))
  = clamp 0 4294967295 (raw + n).
Proof.
  unfold is_u32, is_s32, clamp, u32. change (2^32) with 4294967296. intros A B.
  assert (E : (raw + n mod 4294967296) mod 4294967296 = if raw + n <? 0 then raw + n + 4294967296
              else if raw + n <? 4294967296 then raw + n else raw + n - 4294967296).
  { destruct (raw + n <? 0) eqn:E1; [|destruct (raw + n <? 4294967296) eqn:E2]; Z.div_mod_to_equations; lia. }
  rewrite E. clear E.
  destruct (raw + n <? 0) eqn:E1; [|destruct (raw + n <? 4294967296) eqn:E2];
    destruct (0 <? n) eqn:P; match goal with |- context[raw <? ?x] => destruct (raw <? x) eqn:I end; cbn [xorb]; lia.
Qed.
Lemma add_signed v n :
  (if 2147483647 <? v + n then 2147483647 else if v + n <? -2147483648 then -2147483648 else v + n)
  = clamp (-2147483648) 2147483647 (v + n).
Proof. unfold clamp. destruct (2147483647 <? v + n) eqn:E1; [|destruct (v + n <? -2147483648) eqn:E2]; lia. Qed.

Lemma add_ok defs timers k n : step_ok defs timers (OAdd k n).
Proof.
  intros s a res a' R H. cbn [am_step me_step] in *. unfold in_s32 in H. destruct (_ && _) eqn:U in H; [|discriminate].
  apply andb_true_iff in U as (U1 & U2). assert (UV : is_s32 n) by (unfold is_s32; lia).
  unfold me_add. destruct (am_get_some defs s a k R) as [(E & G)|(d & w & E & G & GA & M)]; rewrite E in H.
  - rewrite find_none by exact G. injection H as <- <-. exists s. split; [reflexivity|exact R].
  - rewrite (find_some defs s a k d w R G GA). cbn [bind mi_def mi_place].
    unfold m_ok in M. destruct (md_type d) eqn:T, w as [o|t r|c]; try contradiction.
    + destruct M as (V & RG & F). injection H as <- <-. rewrite V. cbn [bind]. rewrite add_unsigned by assumption.
      destruct (write_flag defs s a k d (clamp 0 4294967295 (or0 o + n)) me_flag_set true flag_set_ok R G (scalar_of _ _ T ltac:(discriminate)))
        as (vs & s' & Z1 & Z2 & O & V' & F' & _).
      rewrite Z1. cbn [bind]. rewrite Z2. cbn [bind fst snd]. exists s'. split; [reflexivity|].
      apply (mrel_put defs s s' a k d); try assumption. unfold m_ok. rewrite T. cbn [or0 is_set].
      split; [exact V'|]. split; [|assumption]. unfold clamp, is_u32. lia.
    + destruct M as (V & RG & F). injection H as <- <-. rewrite V. cbn [bind]. rewrite s32_u32 by exact RG. rewrite add_signed.
      destruct (write_flag defs s a k d (u32 (clamp (-2147483648) 2147483647 (or0 o + n))) me_flag_set true flag_set_ok R G (scalar_of _ _ T ltac:(discriminate)))
        as (vs & s' & Z1 & Z2 & O & V' & F' & _).
      rewrite Z1. cbn [bind]. rewrite Z2. cbn [bind fst snd]. exists s'. split; [reflexivity|].
      apply (mrel_put defs s s' a k d); try assumption. unfold m_ok. rewrite T. cbn [or0 is_set].
      split; [exact V'|]. split; [|assumption]. unfold clamp, is_s32. lia.
    + injection H as <- <-. exists s. split; [reflexivity|exact R].
    + injection H as <- <-. exists s. split; [reflexivity|exact R].
Qed.

Lemma read_num defs s a k t : mrel defs s a -> t = MUnsigned \/ t = MSigned ->
  me_read defs s k t =
  Some match am_get defs a k with
       | None => (KEY_NOT_FOUND, None)
       | Some (d, v) => if mtype_eqb (md_type d) t then
                          match v with AInt (Some n) => (0, Some n) | _ => (VALUE_NOT_SET, None) end
                        else (TYPE_INCOMPATIBLE, None)
       end.
Proof.
  intros R T. unfold me_read, me_of_type. destruct (am_get_some defs s a k R) as [(E & G)|(d & w & E & G & GA & M)]; rewrite E.
  - rewrite find_none by exact G. reflexivity.
  - rewrite (find_some defs s a k d w R G GA). cbn [bind mi_def mi_place mi_set].
    unfold m_ok in M. destruct T as [->| ->]; destruct (md_type d) eqn:TD, w as [o|t r|c]; try contradiction; cbn [mtype_eqb]; try reflexivity.
    + destruct M as (V & RG & F). destruct o as [v|]; cbn [is_set]; [|reflexivity]. rewrite V. reflexivity.
    + destruct M as (V & RG & F). destruct o as [v|]; cbn [is_set]; [|reflexivity]. rewrite V. cbn [bind or0] in *.
      rewrite s32_u32 by exact RG. reflexivity.
Qed.
Lemma read_u_ok defs timers k : step_ok defs timers (OReadU k).
Proof.
  intros s a res a' R H. cbn [am_step me_step] in *. rewrite (read_num defs s a k MUnsigned R) by (left; reflexivity). cbn [bind].
  destruct (am_get defs a k) as [(d & v)|]; [|injection H as <- <-; exists s; split; [reflexivity|exact R]].
  destruct (mtype_eqb (md_type d) MUnsigned); [|injection H as <- <-; exists s; split; [reflexivity|exact R]].
  destruct v as [[n|]|t r|c]; injection H as <- <-; exists s; (split; [reflexivity|exact R]).
Qed.
Lemma read_s_ok defs timers k : step_ok defs timers (OReadS k).
Proof.
  intros s a res a' R H. cbn [am_step me_step] in *. rewrite (read_num defs s a k MSigned R) by (right; reflexivity). cbn [bind].
  destruct (am_get defs a k) as [(d & v)|]; [|injection H as <- <-; exists s; split; [reflexivity|exact R]].
  destruct (mtype_eqb (md_type d) MSigned); [|injection H as <- <-; exists s; split; [reflexivity|exact R]].
  destruct v as [[n|]|t r|c]; injection H as <- <-; exists s; (split; [reflexivity|exact R]).
Qed.

(** ** Strings *)
Lemma charz_nz c : charz c -> c <> 0.
Proof. unfold charz, is_char. lia. Qed.
Lemma cstr_app c junk : Forall charz c -> cstr (c ++ 0 :: junk) = Some c.
Proof.
  induction 1 as [|x l H _ IH]; [reflexivity|]. cbn [app cstr]. pose proof (charz_nz _ H).
  replace (x =? 0) with false by lia. rewrite IH. reflexivity.
Qed.
Lemma forallb_charz c : forallb is_char c = true -> Forall charz c.
Proof. intros H. apply Forall_forall. intros x I. unfold charz. rewrite forallb_forall in H. now apply H. Qed.
Lemma Forall_take {A} (P : A -> Prop) n l : Forall P l -> Forall P (take n l).
Proof. unfold take. revert l. induction (Z.to_nat n) as [|m IH]; intros l H; [constructor|]. destruct H; cbn [firstn]; constructor; auto. Qed.

Lemma splice0 b w : zlen w <= zlen b -> splice b 0 w = Some (w ++ drop (zlen w) b).
Proof.
  intros. rewrite splice_some by lia. rewrite take_0. reflexivity.
Qed.
Lemma put_mid (p : list Z) (s : list Z) i v : zlen p = i -> 1 <= zlen s -> put (p ++ s) i v = Some (p ++ v :: drop 1 s).
Proof. intros. unfold put. rewrite splice_app_pre; [reflexivity|assumption|]. change (zlen [v]) with 1. lia. Qed.

Lemma set_str_ok defs timers k c : mdefs_ok defs -> step_ok defs timers (OSetStr k c).
Proof.
  intros DOK s a res a' R H. cbn [am_step me_step] in *. destruct (forallb is_char c) eqn:CH; [|discriminate].
  apply forallb_charz in CH. unfold me_set_string.
  destruct (am_get_some defs s a k R) as [(E & G)|(d & w & E & G & GA & M)]; rewrite E in H.
  - rewrite find_none by exact G. injection H as <- <-. exists s. split; [reflexivity|exact R].
  - rewrite (find_some defs s a k d w R G GA). cbn [bind mi_def mi_place].
    destruct (mtype_eqb (md_type d) MString) eqn:T; [|injection H as <- <-; exists s; split; [reflexivity|exact R]].
    apply mtype_eqb_eq in T. injection H as <- <-. rewrite T. unfold m_ok in M. rewrite T in M. destruct w as [o|t r|old]; try contradiction.
    destruct M as (junk & GS & LN & FC). rewrite GS. cbn [bind].
    assert (DR : 0 <= md_range d < 4294967296).
    { unfold mdefs_ok in DOK. rewrite Forall_forall in DOK. apply DOK. exact (get_in _ _ _ G). }
    set (len := Z.min (zlen c) (md_range d)). pose proof (zlen_nonneg c) as NC.
    pose proof (zlen_nonneg old) as NO. pose proof (zlen_nonneg junk) as NJ.
    assert (LT : zlen (take len c) = len) by (rewrite zlen_take; unfold len; lia).
    assert (LB : zlen (old ++ 0 :: junk) = md_range d + 1) by (rewrite zlen_app, zlen_cons; lia).
    assert (LL : 0 <= len <= md_range d) by (unfold len; lia).
    rewrite splice0 by lia. cbn [bind]. rewrite LT.
    rewrite put_mid; [|exact LT|rewrite zlen_drop; lia]. cbn [bind].
    rewrite drop_drop by lia.
    assert (RS : 0 <= pl is_string defs k < zlen (ms_strs s)).
    { rewrite (mr_strs _ _ _ R). apply (pl_range _ _ _ d); [exact G|]. unfold is_string. rewrite T. reflexivity. }
    rewrite zset_some by exact RS. cbn [bind fst snd]. eexists. split; [reflexivity|].
    apply (mrel_put defs s _ a k d); try assumption.
    + eapply only_strs; [exact G|unfold is_string; rewrite T; reflexivity|]. apply zset_some. exact RS.
    + unfold m_ok. rewrite T. exists (drop (1 + len) (old ++ 0 :: junk)). cbn [ms_strs set_strs]. split.
      * rewrite get_upd_same by exact RS. f_equal. f_equal. unfold len.
        destruct (Z.leb_spec (zlen c) (md_range d)).
        -- rewrite Z.min_l by lia. rewrite !take_all by lia. reflexivity.
        -- rewrite Z.min_r by lia. reflexivity.
      * split; [|now apply Forall_take]. rewrite zlen_drop, LB, zlen_take. unfold len in *. lia.
Qed.

Lemma read_str_ok defs timers k out : step_ok defs timers (OReadStr k out).
Proof.
  intros s a res a' R H. cbn [am_step me_step] in *. unfold me_read_string.
  destruct (Z.eqb_spec (zlen out) 0) as [Z0|Z0]; [injection H as <- <-; exists s; split; [reflexivity|exact R]|].
  pose proof (zlen_nonneg out) as NO. unfold me_of_type.
  destruct (am_get_some defs s a k R) as [(E & G)|(d & w & E & G & GA & M)]; rewrite E in H.
  - rewrite find_none by exact G. injection H as <- <-. exists s. split; [reflexivity|exact R].
  - rewrite (find_some defs s a k d w R G GA). cbn [bind mi_def mi_place].
    unfold m_ok in M. destruct (md_type d) eqn:T, w as [o|t r|c]; try contradiction; cbn [mtype_eqb];
      try (injection H as <- <-; exists s; split; [reflexivity|exact R]).
    destruct M as (junk & GS & LN & FC). rewrite GS. cbn [bind]. rewrite cstr_app by exact FC. cbn [bind].
    pose proof (zlen_nonneg c) as NC. pose proof (zlen_nonneg junk) as NJ.
    rewrite read_at_some by (rewrite ?zlen_app, ?zlen_cons; lia). cbn [bind]. rewrite drop_0.
    assert (W : take (Z.min (zlen c + 1) (zlen out)) (c ++ 0 :: junk) = take (zlen out) (c ++ [0])).
    { replace (c ++ 0 :: junk) with ((c ++ [0]) ++ junk) by (rewrite <- app_assoc; reflexivity).
      assert (L1 : zlen (c ++ [0]) = zlen c + 1) by (rewrite zlen_app; reflexivity).
      rewrite take_app_le by lia. destruct (Z.leb_spec (zlen c + 1) (zlen out)).
      - rewrite Z.min_l by lia. rewrite !take_all by lia. reflexivity.
      - rewrite Z.min_r by lia. reflexivity. }
    rewrite W. assert (L1 : zlen (c ++ [0]) = zlen c + 1) by (rewrite zlen_app; reflexivity).
    rewrite splice0 by (rewrite zlen_take; lia). cbn [bind].
    assert (EQ : take (zlen out) (c ++ [0]) ++ drop (zlen (take (zlen out) (c ++ [0]))) out
                 = take (zlen out) (c ++ [0] ++ drop (zlen c + 1) out)).
    { rewrite (app_assoc c). rewrite zlen_take, L1. destruct (Z.leb_spec (zlen c + 1) (zlen out)).
      - rewrite take_all by lia. rewrite take_app_ge by lia. f_equal. rewrite take_all by (rewrite zlen_drop; lia). f_equal. lia.
      - rewrite (take_app_le _ (c ++ [0])) by lia. rewrite (drop_all _ out) by lia. apply app_nil_r. }
    rewrite EQ. set (full := c ++ [0] ++ drop (zlen c + 1) out) in *.
    assert (LF : zlen out <= zlen full) by (unfold full; rewrite !zlen_app, zlen_drop; change (zlen [0]) with 1; lia).
    replace (take (zlen out) full) with (take (zlen out - 1) full ++ take 1 (drop (zlen out - 1) full)).
    2:{ rewrite <- take_plus by lia. f_equal. lia. }
    rewrite put_mid; [|rewrite zlen_take; lia|rewrite zlen_take, zlen_drop; lia]. cbn [bind fst snd].
    rewrite drop_all by (rewrite zlen_take; lia).
    injection H as <- <-. exists s. split; [reflexivity|exact R].
Qed.

(** ** Timers *)
Lemma am_put_same a k v : get a k = Some v -> am_put a k v = a.
Proof. intros G. unfold am_put. rewrite <- (drop_get_cons _ _ _ G). apply take_drop. Qed.
Lemma land31 now : Z.land now 2147483647 = now mod 2147483648.
Proof. change 2147483647 with (Z.ones 31). rewrite Z.land_ones by lia. reflexivity. Qed.
Lemma delta31 last now : 0 <= last -> last <= now < last + 2147483648 ->
  (if last mod 2147483648 <=? now mod 2147483648 then now mod 2147483648 - last mod 2147483648
   else u32 (2147483648 - last mod 2147483648 + now mod 2147483648)) = now - last.
Proof.
  unfold u32. change (2^32) with 4294967296. intros A B.
  assert (C : last mod 2147483648 <= now mod 2147483648 /\ now mod 2147483648 - last mod 2147483648 = now - last
          \/ now mod 2147483648 < last mod 2147483648 /\ 2147483648 - last mod 2147483648 + now mod 2147483648 = now - last).
  { Z.div_mod_to_equations. lia. }
  destruct C as [(C1 & C2)|(C1 & C2)].
  - replace (_ <=? _) with true by lia. exact C2.
  - replace (_ <=? _) with false by lia. rewrite C2. apply Z.mod_small. lia.
Qed.

Definition a_timer_op (o : mtop) (now : Z) (v : aval) : option (bool * aval) :=
  match v with
  | ATimer t None => match o with TStart => Some (true, ATimer t (Some (now, now))) | _ => Some (false, v) end
  | ATimer t (Some (since, last)) =>
      match o with
      | TStart => Some (false, v)
      | TStop => if gap_ok last now then Some (true, ATimer (t + (now - since)) None) else None
      | TForce => if gap_ok last now then Some (true, ATimer t (Some (since, now))) else None
      end
  | _ => None
  end.

Lemma timer_update_ok defs s a i d v o now b v' : mrel defs s a -> get defs i = Some d -> md_type d = MTimer ->
  get a i = Some v -> 0 <= now -> a_timer_op o now v = Some (b, v') ->
  exists s', me_timer_update s (pl is_scalar defs i) (pl is_timer defs i) o now = Some (b, s')
    /\ mrel defs s' (am_put a i v').
Proof.
  intros R G T GA NN H. pose proof (mr_each _ _ _ R _ _ _ G GA) as M. unfold m_ok in M. rewrite T in M.
  destruct v as [x|t r|x]; try contradiction. destruct M as (V & ME & RO).
  assert (TS : is_scalar d = true) by (apply (scalar_of MTimer); [exact T|discriminate]).
  assert (TT : is_timer d = true) by (unfold is_timer; rewrite T; reflexivity).
  assert (PM : 0 <= pl is_timer defs i < zlen (ms_meta s)) by (rewrite (mr_meta _ _ _ R); pose proof (pl_range _ _ _ _ G TT); lia).
  assert (PV : 0 <= pl is_scalar defs i < zlen (ms_vals s)) by (rewrite (mr_vals _ _ _ R); exact (pl_range _ _ _ _ G TS)).
  unfold me_timer_update. rewrite ME. cbn [bind]. destruct r as [(since & last)|]; cbn [meta_of a_timer_op] in *.
  - destruct o.
    + injection H as <- <-. exists s. split; [reflexivity|]. rewrite am_put_same by exact GA. exact R.
    + destruct (gap_ok last now) eqn:GP; [|discriminate]. injection H as <- <-. unfold gap_ok in GP. cbn [run_ok] in RO.
      rewrite land31, delta31 by lia. rewrite V. cbn [bind]. rewrite zset_some by exact PV. cbn [bind]. rewrite zset_some by exact PM. cbn [bind].
      eexists. split; [reflexivity|]. apply (mrel_put defs s _ a i d); try assumption.
      * eapply only_trans; [eapply only_vals; [exact G|exact TS|]; apply zset_some; exact PV|].
        eapply only_meta; [exact G|exact TT|]. apply zset_some. exact PM.
      * unfold m_ok. rewrite T. cbn [ms_vals ms_meta set_vals set_meta meta_of run_ok a_shows].
        rewrite !get_upd_same by assumption. split; [|split; [reflexivity|exact I]]. f_equal. cbn [a_shows].
        unfold u32. change (2^32) with 4294967296. rewrite Zplus_mod_idemp_l. f_equal. lia.
    + destruct (gap_ok last now) eqn:GP; [|discriminate]. injection H as <- <-. unfold gap_ok in GP. cbn [run_ok] in RO.
      rewrite land31, delta31 by lia. rewrite V. cbn [bind]. rewrite zset_some by exact PV. cbn [bind]. rewrite zset_some by exact PM. cbn [bind].
      eexists. split; [reflexivity|]. apply (mrel_put defs s _ a i d); try assumption.
      * eapply only_trans; [eapply only_vals; [exact G|exact TS|]; apply zset_some; exact PV|].
        eapply only_meta; [exact G|exact TT|]. apply zset_some. exact PM.
      * unfold m_ok. rewrite T. cbn [ms_vals ms_meta set_vals set_meta meta_of run_ok a_shows].
        rewrite !get_upd_same by assumption. split; [|split; [reflexivity|cbn [run_ok]; lia]]. f_equal. cbn [a_shows].
        unfold u32. change (2^32) with 4294967296. rewrite Zplus_mod_idemp_l. f_equal. lia.
  - destruct o; injection H as <- <-; try (exists s; split; [reflexivity|]; rewrite am_put_same by exact GA; exact R).
    rewrite zset_some by exact PM. cbn [bind]. eexists. split; [reflexivity|]. apply (mrel_put defs s _ a i d); try assumption.
    + eapply only_meta; [exact G|exact TT|]. apply zset_some. exact PM.
    + unfold m_ok. rewrite T. cbn [ms_vals ms_meta set_meta meta_of run_ok a_shows]. rewrite get_upd_same by exact PM.
      cbn [a_shows] in V. split; [rewrite V; f_equal; f_equal; lia|]. split; [reflexivity|lia].
Qed.

Lemma a_start_op now t r : Some (a_start now (ATimer t r)) =
  (do x <- a_timer_op TStart now (ATimer t r); Some (if fst x then 0 else NO_CHANGE, snd x)).
Proof. destruct r as [(since & last)|]; reflexivity. Qed.
Lemma a_stop_op now t r : a_stop now (ATimer t r) =
  (do x <- a_timer_op TStop now (ATimer t r); Some (if fst x then 0 else NO_CHANGE, snd x)).
Proof. destruct r as [(since & last)|]; [|reflexivity]. cbn [a_stop a_timer_op]. destruct (gap_ok last now); reflexivity. Qed.
Lemma a_force_op now t r : a_force now (ATimer t r) = (do x <- a_timer_op TForce now (ATimer t r); Some (snd x)).
Proof. destruct r as [(since & last)|]; [|reflexivity]. cbn [a_force a_timer_op]. destruct (gap_ok last now); reflexivity. Qed.

Lemma timer_ok defs s a k o now (f : aval -> option (Z * aval)) rv a' :
  (forall t r, f (ATimer t r) = (do x <- a_timer_op o now (ATimer t r); Some (if fst x then 0 else NO_CHANGE, snd x))) ->
  mrel defs s a -> 0 <= now -> am_timer defs a k f = Some (rv, a') ->
  exists s', me_timer defs s k o now = Some (rv, s') /\ mrel defs s' a'.
Proof.
  intros FO R NN H. unfold am_timer, me_timer in *.
  destruct (am_get_some defs s a k R) as [(E & G)|(d & w & E & G & GA & M)]; rewrite E in H.
  - rewrite find_none by exact G. injection H as <- <-. exists s. split; [reflexivity|exact R].
  - rewrite (find_some defs s a k d w R G GA). cbn [bind mi_def mi_place mi_meta].
    destruct (mtype_eqb (md_type d) MTimer) eqn:T; [|injection H as <- <-; exists s; split; [reflexivity|exact R]].
    apply mtype_eqb_eq in T. unfold m_ok in M. rewrite T in M. destruct w as [x|t r|x]; try contradiction.
    rewrite T. rewrite FO in H. destruct (a_timer_op o now (ATimer t r)) as [(b & v')|] eqn:OP; [|discriminate].
    cbn [bind fst snd] in H. injection H as <- <-.
    destruct (timer_update_ok _ _ _ _ _ _ _ _ _ _ R G T GA NN OP) as (s' & U & R'). rewrite U. cbn [bind].
    exists s'. split; [reflexivity|exact R'].
Qed.
Lemma start_ok defs timers k now : step_ok defs timers (OStart k now).
Proof.
  intros s a res a' R H. cbn [am_step me_step] in *. destruct (0 <=? now) eqn:NN; [|discriminate].
  destruct (am_timer defs a k _) as [(rv & a1)|] eqn:E in H; [|discriminate]. cbn [bind fst snd] in H. injection H as <- <-.
  destruct (timer_ok defs s a k TStart now (fun v => Some (a_start now v)) rv a1 (a_start_op now) R ltac:(lia) E) as (s' & U & R').
  rewrite U. exists s'. split; [reflexivity|exact R'].
Qed.
Lemma stop_ok defs timers k now : step_ok defs timers (OStop k now).
Proof.
  intros s a res a' R H. cbn [am_step me_step] in *. destruct (0 <=? now) eqn:NN; [|discriminate].
  destruct (am_timer defs a k _) as [(rv & a1)|] eqn:E in H; [|discriminate]. cbn [bind fst snd] in H. injection H as <- <-.
  destruct (timer_ok defs s a k TStop now _ rv a1 (a_stop_op now) R ltac:(lia) E) as (s' & U & R').
  rewrite U. exists s'. split; [reflexivity|exact R'].
Qed.
Lemma read_t_ok defs timers k now : step_ok defs timers (OReadT k now).
Proof.
  intros s a res a' R H. cbn [am_step me_step] in *. destruct (0 <=? now) eqn:NN; [|discriminate].
  unfold me_timer, me_read, me_of_type.
  destruct (am_get_some defs s a k R) as [(E & G)|(d & w & E & G & GA & M)]; rewrite E in H.
  - rewrite find_none by exact G. cbn [bind fst snd]. rewrite find_none by exact G. injection H as <- <-. exists s. split; [reflexivity|exact R].
  - rewrite (find_some defs s a k d w R G GA). cbn [bind mi_def mi_place mi_meta].
    destruct (mtype_eqb (md_type d) MTimer) eqn:T.
    + pose proof T as T'. apply mtype_eqb_eq in T. unfold m_ok in M. rewrite T in M. destruct w as [x|t r|x]; try contradiction.
      rewrite T. rewrite a_force_op in H. destruct (a_timer_op TForce now (ATimer t r)) as [(b & v')|] eqn:OP; [|discriminate].
      cbn [bind fst snd] in H. injection H as <- <-.
      destruct (timer_update_ok _ _ _ _ _ _ _ _ _ _ R G T GA (proj1 (Z.leb_le _ _) NN) OP) as (s' & U & R'). rewrite U. cbn [bind fst snd].
      assert (GA' : get (am_put a k v') k = Some v').
      { unfold am_put. apply get_upd_same. apply get_range in GA. exact GA. }
      rewrite (find_some defs s' _ k d v' R' G GA'). cbn [bind mi_def mi_place mi_meta]. rewrite T'. rewrite T.
      pose proof (mr_each _ _ _ R' _ _ _ G GA') as M'. unfold m_ok in M'. rewrite T in M'. destruct v' as [x|t' r'|x]; try contradiction.
      destruct M' as (V & _). rewrite V. cbn [bind fst snd]. exists s'. split; [reflexivity|exact R'].
    + cbn [bind snd]. rewrite (find_some defs s a k d w R G GA). cbn [bind mi_def]. rewrite T. injection H as <- <-.
      exists s. split; [reflexivity|exact R].
Qed.

(** ** Loops over all metrics *)
Lemma loop_ok defs (f : Z -> mstate -> option mstate) (g : mdef -> aval -> option aval) :
  (forall s a i d v v', mrel defs s a -> get defs i = Some d -> get a i = Some v -> g d v = Some v' ->
     exists s', f i s = Some s' /\ mrel defs s' (am_put a i v')) ->
  forall ds dpre, defs = dpre ++ ds -> forall vs vpre vs' s, zlen vpre = zlen dpre -> mrel defs s (vpre ++ vs) ->
  am_each g ds vs = Some vs' ->
  exists s', me_loop f (length ds) (zlen dpre) s = Some s' /\ mrel defs s' (vpre ++ vs').
Proof.
  intros ST. induction ds as [|d ds IH]; intros dpre D vs vpre vs' s L R H.
  - destruct vs; [|discriminate]. injection H as <-. exists s. split; [reflexivity|exact R].
  - destruct vs as [|v vs]; [discriminate|]. cbn [am_each] in H. binv H. binv H. injection H as <-. rename v0 into v'. rename v1 into r.
    assert (G : get defs (zlen dpre) = Some d) by (rewrite D, get_app2 by lia; rewrite Z.sub_diag; reflexivity).
    assert (GA : get (vpre ++ v :: vs) (zlen dpre) = Some v) by (rewrite get_app2 by lia; rewrite L, Z.sub_diag; reflexivity).
    destruct (ST s _ _ d v v' R G GA E) as (s1 & F & R1). cbn [length me_loop]. rewrite F. cbn [bind].
    assert (P : am_put (vpre ++ v :: vs) (zlen dpre) v' = (vpre ++ [v']) ++ vs).
    { unfold am_put. rewrite take_app_exact by lia. rewrite <- app_assoc. f_equal. cbn [app]. f_equal.
      replace (vpre ++ v :: vs) with ((vpre ++ [v]) ++ vs) by (rewrite <- app_assoc; reflexivity).
      apply drop_app_exact. rewrite zlen_app. change (zlen [v]) with 1. lia. }
    rewrite P in R1. destruct (IH (dpre ++ [d])) with (vs := vs) (vpre := vpre ++ [v']) (vs' := r) (s := s1) as (s2 & F2 & R2).
    + rewrite <- app_assoc. exact D.
    + rewrite !zlen_app. change (zlen [v']) with 1. change (zlen [d]) with 1. lia.
    + exact R1.
    + exact E0.
    + exists s2. split; [|rewrite <- app_assoc in R2; exact R2]. rewrite zlen_app in F2. exact F2.
Qed.

Lemma tally_ok defs timers now : step_ok defs timers (OTally now).
Proof.
  intros s a res a' R H. cbn [am_step me_step] in *. destruct (0 <=? now) eqn:NN; [|discriminate].
  binv H. injection H as <- <-. unfold me_tally.
  destruct (loop_ok defs (me_tally_one defs now) (fun _ => a_force now)) with (ds := defs) (dpre := @nil mdef) (vs := a) (vpre := @nil aval) (vs' := v) (s := s)
    as (s' & F & R'); try reflexivity; try assumption.
  - clear - NN. intros s a i d v v' R G GA F. pose proof (mr_each _ _ _ R _ _ _ G GA) as M. unfold me_tally_one. rewrite (find_some defs s a i d v R G GA).
    cbn [bind mi_def mi_place mi_meta]. destruct (is_timer d) eqn:T.
    + assert (T' : md_type d = MTimer) by (unfold is_timer in T; now apply mtype_eqb_eq in T). rewrite T'.
      unfold m_ok in M. rewrite T' in M. destruct v as [x|t r|x]; try contradiction.
      rewrite a_force_op in F. destruct (a_timer_op TForce now (ATimer t r)) as [(b & v1)|] eqn:OP; [|discriminate].
      cbn [bind snd] in F. injection F as ->.
      destruct (timer_update_ok _ _ _ _ _ _ _ _ _ _ R G T' GA (proj1 (Z.leb_le _ _) NN) OP) as (s' & U & R'). rewrite U. cbn [bind snd].
      exists s'. split; [reflexivity|exact R'].
    + exists s. split; [reflexivity|]. assert (v' = v).
      { unfold m_ok in M. unfold is_timer in T. destruct (md_type d), v; try contradiction; try discriminate; injection F as <-; reflexivity. }
      subst v'. rewrite am_put_same by exact GA. exact R.
  - change (zlen (@nil mdef)) with 0 in F. rewrite F. cbn [bind]. exists s'. split; [reflexivity|exact R'].
Qed.

Lemma reset_ok defs s a session a' : mrel defs s a ->
  am_each (fun d v => Some (if md_session d =? session then a_reset v else v)) defs a = Some a' ->
  exists s', me_reset defs s session = Some s' /\ mrel defs s' a'.
Proof.
  intros R H. unfold me_reset.
  destruct (loop_ok defs (me_reset_one defs session) (fun d v => Some (if md_session d =? session then a_reset v else v)))
    with (ds := defs) (dpre := @nil mdef) (vs := a) (vpre := @nil aval) (vs' := a') (s := s)
    as (s' & F & R'); try reflexivity; try assumption.
  - clear. intros s a i d v v' R G GA F. pose proof (mr_each _ _ _ R _ _ _ G GA) as M. unfold me_reset_one. rewrite G. cbn [bind].
    injection F as <-. destruct (md_session d =? session); cbn [negb].
    2:{ exists s. split; [reflexivity|]. rewrite am_put_same by exact GA. exact R. }
    rewrite (kv_get _ _ _ G), (str_get _ _ _ G). cbn [bind]. unfold m_ok in M.
    destruct (is_scalar d) eqn:SC.
    + destruct (write_flag defs s a i d 0 me_flag_clear false flag_clear_ok R G SC) as (vs & s' & Z1 & Z2 & O & V & F & ME).
      assert (RES : mrel defs s' (am_put a i (a_reset v))).
      { apply (mrel_put defs s s' a i d); try assumption. unfold m_ok. rewrite ME.
        destruct (md_type d) eqn:T, v as [x|t r|x]; try contradiction; cbn [a_reset or0 is_set].
        - split; [exact V|]. split; [unfold is_u32; lia|exact F].
        - split; [exact V|]. split; [unfold is_s32; lia|exact F].
        - destruct M as (_ & MM & RO). destruct r as [(since & last)|]; cbn [a_shows run_ok meta_of] in *.
          + replace (0 + (last - last)) with 0 by lia. split; [exact V|]. split; [exact MM|lia].
          + split; [exact V|]. split; [exact MM|exact I].
        - unfold is_scalar, is_string in SC. rewrite T in SC. discriminate. }
      assert (M' : md_type d <> MString) by (intros C; unfold is_scalar, is_string in SC; rewrite C in SC; discriminate).
      exists s'. split; [|exact RES]. destruct (md_type d); try contradiction; rewrite Z1; cbn [bind]; exact Z2.
    + assert (T : md_type d = MString) by (unfold is_scalar, is_string in SC; destruct (md_type d); try discriminate; reflexivity).
      rewrite T in M. destruct v as [x|t r|c]; try contradiction. destruct M as (junk & GS & LN & FC).
      assert (TT : is_string d = true) by (unfold is_string; rewrite T; reflexivity). rewrite TT. rewrite T. rewrite GS. cbn [bind].
      assert (PUT : put (c ++ 0 :: junk) 0 0 = Some (0 :: drop 1 (c ++ 0 :: junk))).
      { replace (c ++ 0 :: junk) with ([] ++ (c ++ 0 :: junk)) at 1 by reflexivity. rewrite put_mid; [reflexivity|reflexivity|].
        rewrite zlen_app, zlen_cons. pose proof (zlen_nonneg c). pose proof (zlen_nonneg junk). lia. }
      rewrite PUT. cbn [bind].
      assert (RS : 0 <= pl is_string defs i < zlen (ms_strs s)) by (rewrite (mr_strs _ _ _ R); exact (pl_range _ _ _ _ G TT)).
      rewrite zset_some by exact RS. cbn [bind]. eexists. split; [reflexivity|]. apply (mrel_put defs s _ a i d); try assumption.
      * eapply only_strs; [exact G|exact TT|]. apply zset_some. exact RS.
      * unfold m_ok. rewrite T. cbn [a_reset]. exists (drop 1 (c ++ 0 :: junk)). cbn [ms_strs set_strs]. rewrite get_upd_same by exact RS.
        split; [reflexivity|]. split; [|constructor]. rewrite zlen_drop, zlen_app, zlen_cons, zlen_nil.
        pose proof (zlen_nonneg c). pose proof (zlen_nonneg junk). lia.
  - change (zlen (@nil mdef)) with 0 in F. exists s'. split; [exact F|exact R'].
Qed.

(** ** The reset at boot *)
Lemma pl_surj t defs : forall q, 0 <= q < ms_count t defs -> exists i d, get defs i = Some d /\ t d = true /\ pl t defs i = q.
Proof.
  induction defs as [|e r IH]; intros q Q; cbn [ms_count] in Q; [lia|].
  assert (SH : forall i d, get r i = Some d -> get (e :: r) (i + 1) = Some d /\ pl t (e :: r) (i + 1) = (if t e then 1 else 0) + pl t r i).
  { intros i d G. pose proof (get_range _ _ _ G). split.
    - rewrite get_cons_S by lia. replace (i + 1 - 1) with i by lia. exact G.
    - unfold pl. rewrite take_cons by lia. replace (i + 1 - 1) with i by lia. reflexivity. }
  destruct (t e) eqn:T.
  - destruct (Z.eq_dec q 0) as [->|N].
    + exists 0, e. split; [reflexivity|]. split; [exact T|reflexivity].
    + destruct (IH (q - 1)) as (i & d & G & TD & P); [lia|]. destruct (SH i d G) as (G' & P'). exists (i + 1), d.
      split; [exact G'|]. split; [exact TD|lia].
  - destruct (IH q) as (i & d & G & TD & P); [lia|]. destruct (SH i d G) as (G' & P'). exists (i + 1), d.
    split; [exact G'|]. split; [exact TD|lia].
Qed.
Lemma get_fill n x i : 0 <= i < n -> get (fill n x) i = Some x.
Proof.
  intros H. destruct (get_some (fill n x) i) as (y & G); [rewrite zlen_fill by lia; exact H|].
  rewrite G. apply get_in in G. unfold fill in G. apply repeat_spec in G. subst. reflexivity.
Qed.
Lemma flag_zero s n k : ms_flags s = fill ((n + 7) / 8) 0 -> 0 <= k < n -> me_flag s k = Some false.
Proof.
  intros F K. rewrite flag_bit, F. rewrite get_fill by (Z.div_mod_to_equations; lia). cbn [bind]. rewrite Z.bits_0. reflexivity.
Qed.
Lemma clear_strs_ok l : Forall (fun b => 1 <= zlen b) l ->
  me_clear_strs l = Some (map (fun b => 0 :: drop 1 b) l).
Proof.
  induction 1 as [|b r H _ IH]; [reflexivity|]. cbn [me_clear_strs map].
  replace b with ([] ++ b) at 1 by reflexivity. rewrite put_mid; [|reflexivity|exact H]. cbn [bind app]. rewrite IH. reflexivity.
Qed.
Lemma get_map {A B} (f : A -> B) l i x : get l i = Some x -> get (map f l) i = Some (f x).
Proof. unfold get. destruct (i <? 0); [discriminate|]. intros G. rewrite nth_error_map, G. reflexivity. Qed.
Lemma get_map_inv {A B} (f : A -> B) l i y : get (map f l) i = Some y -> exists x, get l i = Some x /\ y = f x.
Proof.
  unfold get. destruct (i <? 0); [discriminate|]. rewrite nth_error_map. destruct (nth_error l (Z.to_nat i)); [|discriminate].
  cbn. intros H. injection H as <-. eexists. split; reflexivity.
Qed.
Lemma Forall_get {A} (P : A -> Prop) l : (forall i x, get l i = Some x -> P x) -> Forall P l.
Proof.
  intros H. apply Forall_forall. intros x I. apply In_nth_error in I as (n & N). apply (H (Z.of_nat n) x).
  unfold get. replace (Z.of_nat n <? 0) with false by lia. rewrite Nat2Z.id. exact N.
Qed.

Lemma full_reset_ok defs s a : mrel defs s a -> exists s', me_full_reset s = Some s' /\ mrel defs s' (map a_reset a).
Proof.
  intros R. assert (B : Forall (fun b => 1 <= zlen b) (ms_strs s)).
  { apply Forall_get. intros q b G. pose proof (get_range _ _ _ G) as RG. rewrite (mr_strs _ _ _ R) in RG.
    destruct (pl_surj _ _ _ RG) as (i & d & GD & T & P). pose proof (get_range _ _ _ GD) as RD.
    destruct (get_some a i) as (v & GA); [rewrite (mr_len _ _ _ R); exact RD|].
    pose proof (mr_each _ _ _ R _ _ _ GD GA) as M. unfold m_ok in M.
    assert (T' : md_type d = MString) by (unfold is_string in T; now apply mtype_eqb_eq in T). rewrite T' in M.
    destruct v as [x|t r|c]; try contradiction. destruct M as (junk & GS & _). rewrite P, G in GS. injection GS as ->.
    rewrite zlen_app, zlen_cons. pose proof (zlen_nonneg c). pose proof (zlen_nonneg junk). lia. }
  unfold me_full_reset. rewrite (clear_strs_ok _ B). cbn [bind]. eexists. split; [reflexivity|].
  pose proof (zlen_nonneg (ms_vals s)) as NV. pose proof (zlen_nonneg (ms_flags s)) as NF.
  split; cbn [ms_vals ms_flags ms_strs ms_meta].
  - rewrite zlen_map. exact (mr_len _ _ _ R).
  - rewrite zlen_fill by lia. exact (mr_vals _ _ _ R).
  - unfold flags_room. cbn [ms_flags]. rewrite zlen_fill by lia. exact (mr_flags _ _ _ R).
  - rewrite zlen_map. exact (mr_strs _ _ _ R).
  - exact (mr_meta _ _ _ R).
  - intros i d w G GW. apply get_map_inv in GW as (v & GA & ->).
    pose proof (mr_each _ _ _ R _ _ _ G GA) as M. unfold m_ok in *. cbn [ms_vals ms_flags ms_strs ms_meta].
    assert (SV : is_scalar d = true -> get (fill (zlen (ms_vals s)) 0) (pl is_scalar defs i) = Some 0).
    { intros T. apply get_fill. rewrite (mr_vals _ _ _ R). exact (pl_range _ _ _ _ G T). }
    assert (SF : is_scalar d = true ->
      me_flag (mk_ms (fill (zlen (ms_vals s)) 0) (fill (zlen (ms_flags s)) 0) (map (fun b => 0 :: drop 1 b) (ms_strs s)) (ms_meta s)) (pl is_scalar defs i) = Some false).
    { intros T. apply (flag_zero _ (ms_count is_scalar defs)); [cbn [ms_flags]; rewrite (mr_flags _ _ _ R); reflexivity|].
      exact (pl_range _ _ _ _ G T). }
    destruct (md_type d) eqn:T, v as [x|t r|c]; try contradiction; cbn [a_reset or0 is_set].
    + split; [apply SV; now apply (scalar_of MUnsigned)|]. split; [unfold is_u32; lia|apply SF; now apply (scalar_of MUnsigned)].
    + split; [apply SV; now apply (scalar_of MSigned)|]. split; [unfold is_s32; lia|apply SF; now apply (scalar_of MSigned)].
    + destruct M as (_ & MM & RO). destruct r as [(since & last)|]; cbn [a_shows run_ok meta_of] in *.
      * replace (0 + (last - last)) with 0 by lia. split; [apply SV; now apply (scalar_of MTimer)|]. split; [exact MM|lia].
      * split; [apply SV; now apply (scalar_of MTimer)|]. split; [exact MM|exact I].
    + destruct M as (junk & GS & LN & FC). exists (drop 1 (c ++ 0 :: junk)). split; [exact (get_map _ _ _ _ GS)|].
      split; [|constructor]. rewrite zlen_drop, zlen_app, zlen_cons, zlen_nil. pose proof (zlen_nonneg c). pose proof (zlen_nonneg junk). lia.
Qed.

(** ** What the event says *)
Lemma item_ok defs s a i d v : mrel defs s a -> get defs i = Some d -> get a i = Some v ->
  exists info, me_find defs s i = Some (Some info) /\ mi_def info = d /\ me_item s info = Some (a_item d v).
Proof.
  intros R G GA. eexists. split; [exact (find_some defs s a i d v R G GA)|]. split; [reflexivity|].
  pose proof (mr_each _ _ _ R _ _ _ G GA) as M. unfold me_item, a_item. cbn [mi_place mi_def mi_set]. unfold m_ok in M.
  destruct (md_type d) eqn:T, v as [o|t r|c]; try contradiction; cbn [md_type].
  - destruct M as (V & _ & _). rewrite V. cbn [bind]. destruct o; reflexivity.
  - destruct M as (V & RG & _). rewrite V. cbn [bind]. destruct o; cbn [is_set or0] in *; [rewrite s32_u32 by exact RG|]; reflexivity.
  - destruct M as (V & _). rewrite V. reflexivity.
  - destruct M as (junk & GS & LN & FC). rewrite GS. cbn [bind]. rewrite cstr_app by exact FC. reflexivity.
Qed.
Lemma items_ok defs s a session : mrel defs s a -> me_items defs s session = Some (am_items defs a session).
Proof.
  intros R. unfold me_items.
  enough (H : forall ds dpre, defs = dpre ++ ds -> forall vs vpre, a = vpre ++ vs -> zlen vpre = zlen dpre ->
            me_items_from defs s session (length ds) (zlen dpre) = Some (am_items ds vs session)).
  { exact (H defs [] eq_refl a [] eq_refl eq_refl). }
  induction ds as [|d ds IH]; intros dpre D vs vpre A L; [reflexivity|].
  assert (G : get defs (zlen dpre) = Some d) by (rewrite D, get_app2 by lia; rewrite Z.sub_diag; reflexivity).
  destruct vs as [|v vs].
  { exfalso. pose proof (mr_len _ _ _ R) as LL. rewrite D, A, !zlen_app, zlen_cons, zlen_nil in LL. pose proof (zlen_nonneg ds). lia. }
  assert (GA : get a (zlen dpre) = Some v) by (rewrite A, get_app2 by lia; rewrite L, Z.sub_diag; reflexivity).
  destruct (item_ok defs s a _ d v R G GA) as (info & F & MD & IT).
  cbn [length me_items_from am_items]. rewrite F. cbn [bind]. rewrite IT. cbn [bind].
  specialize (IH (dpre ++ [d])). rewrite zlen_app in IH. change (zlen [d]) with 1 in IH.
  rewrite (IH ltac:(rewrite <- app_assoc; exact D) vs (vpre ++ [v])).
  - cbn [bind]. rewrite MD. destruct (md_session d =? session); reflexivity.
  - rewrite <- app_assoc. exact A.
  - rewrite !zlen_app. change (zlen [v]) with 1. lia.
Qed.

(** ** Sessions *)
Lemma sess_start_ok defs timers session timer now : step_ok defs timers (OSessStart session timer now).
Proof.
  intros s a res a' R H. cbn [am_step me_step] in *. destruct (0 <=? now) eqn:NN; [|discriminate].
  binv H. destruct (reset_ok defs s a session v R E) as (s1 & F & R1). rewrite F. cbn [bind].
  destruct timer.
  - binv H. rewrite E0. cbn [bind]. destruct (am_timer defs v v0 _) as [(rv & a1)|] eqn:T in H; [|discriminate]. cbn [bind fst snd] in H. injection H as <- <-.
    destruct (timer_ok defs s1 v v0 TStart now (fun v => Some (a_start now v)) rv a1 (a_start_op now) R1 ltac:(lia) T) as (s' & U & R').
    rewrite U. exists s'. split; [reflexivity|exact R'].
  - injection H as <- <-. exists s1. split; [reflexivity|exact R1].
Qed.
Lemma sess_end_ok defs timers session timer now stored : step_ok defs timers (OSessEnd session timer now stored).
Proof.
  intros s a res a' R H. cbn [am_step me_step] in *. destruct (0 <=? now) eqn:NN; [|discriminate].
  binv H. destruct v as (rv & a1). cbn beta iota in H.
  assert (X : exists s1, (if timer then do k <- get timers session; me_timer defs s k TStop now else Some (0, s)) = Some (rv, s1) /\ mrel defs s1 a1).
  { destruct timer.
    - binv E. rewrite E0. cbn [bind]. exact (timer_ok defs s a v TStop now (a_stop now) rv a1 (a_stop_op now) R ltac:(lia) E).
    - injection E as <- <-. exists s. split; [reflexivity|exact R]. }
  destruct X as (s1 & XE & R1). rewrite XE. cbn [bind]. destruct (rv =? 0).
  - injection H as <- <-. rewrite (items_ok defs s1 a1 session R1). cbn [bind]. exists s1. split; [reflexivity|exact R1].
  - injection H as <- <-. exists s1. split; [reflexivity|exact R1].
Qed.

(** ** Histories *)
Lemma me_step_ok defs timers o : mdefs_ok defs -> step_ok defs timers o.
Proof.
  intros D. destruct o.
  - apply set_u_ok.
  - apply set_s_ok.
  - now apply set_str_ok.
  - apply add_ok.
  - apply start_ok.
  - apply stop_ok.
  - apply read_u_ok.
  - apply read_s_ok.
  - apply read_t_ok.
  - apply read_str_ok.
  - apply tally_ok.
  - intros s a res a' R H. cbn [am_step me_step] in *. injection H as <- <-. rewrite (items_ok defs s a session R). exists s. split; [reflexivity|exact R].
  - intros s a res a' R H. cbn [am_step me_step] in *. binv H. injection H as <- <-. destruct (reset_ok defs s a session v R E) as (s' & F & R').
    rewrite F. exists s'. split; [reflexivity|exact R'].
  - intros s a res a' R H. cbn [am_step me_step] in *. injection H as <- <-. destruct (full_reset_ok defs s a R) as (s' & F & R'). rewrite F.
    exists s'. split; [reflexivity|exact R'].
  - apply sess_start_ok.
  - apply sess_end_ok.
Qed.
Lemma me_run_ok defs timers : mdefs_ok defs -> forall ops s a rs a', mrel defs s a -> am_run defs timers a ops = Some (rs, a') ->
  exists s', me_run defs timers s ops = Some (rs, s') /\ mrel defs s' a'.
Proof.
  intros D. induction ops as [|o r IH]; intros s a rs a' R H; cbn [am_run me_run] in *.
  - injection H as <- <-. exists s. split; [reflexivity|exact R].
  - binv H. destruct v as (res & a1). binv H. destruct v as (rs' & a2). injection H as <- <-.
    destruct (me_step_ok defs timers o D s a res a1 R E) as (s1 & F & R1). rewrite F. cbn [bind].
    destruct (IH s1 a1 rs' a2 R1 E0) as (s2 & F2 & R2). rewrite F2. cbn [bind]. exists s2. split; [reflexivity|exact R2].
Qed.

Lemma get_repeat {A} (x : A) n i : 0 <= i < Z.of_nat n -> get (repeat x n) i = Some x.
Proof.
  intros H. destruct (get_some (repeat x n) i) as (y & G); [unfold zlen; rewrite repeat_length; exact H|].
  rewrite G. apply get_in in G. apply repeat_spec in G. subst. reflexivity.
Qed.
Lemma filter_count t defs : zlen (filter t defs) = ms_count t defs.
Proof. induction defs as [|d r IH]; [reflexivity|]. cbn [filter ms_count]. destruct (t d); [rewrite zlen_cons|]; lia. Qed.
Lemma get_filter t defs : forall i d, get defs i = Some d -> t d = true -> get (filter t defs) (pl t defs i) = Some d.
Proof.
  induction defs as [|e r IH]; intros i d G T.
  - apply get_range in G. change (zlen (@nil mdef)) with 0 in G. lia.
  - pose proof (get_range _ _ _ G) as R. destruct (Z.eq_dec i 0) as [->|N].
    + rewrite get_cons_0 in G. injection G as ->. unfold pl. rewrite take_0. cbn [ms_count filter]. rewrite T. reflexivity.
    + rewrite get_cons_S in G by lia. unfold pl. rewrite take_cons by lia. cbn [ms_count filter]. fold (pl t r (i - 1)).
      pose proof (pl_nonneg t r (i - 1)). destruct (t e).
      * rewrite get_cons_S by lia. replace (1 + pl t r (i - 1) - 1) with (pl t r (i - 1)) by lia. now apply IH.
      * now apply IH.
Qed.
Lemma me_init_ok defs : mdefs_ok defs -> mrel defs (ms_init defs) (am_init defs).
Proof.
  intros D. pose proof (ms_count_nonneg is_scalar defs) as N1. pose proof (ms_count_nonneg is_timer defs) as N2.
  assert (N3 : 0 <= (ms_count is_scalar defs + 7) / 8) by (Z.div_mod_to_equations; lia).
  unfold ms_init, am_init. split; cbn [ms_vals ms_flags ms_strs ms_meta].
  - apply zlen_map.
  - now apply zlen_fill.
  - unfold flags_room. cbn [ms_flags]. now apply zlen_fill.
  - rewrite zlen_map. apply filter_count.
  - unfold zlen. rewrite repeat_length. lia.
  - intros i d w G GW. apply get_map_inv in GW as (d' & G' & ->). rewrite G in G'. injection G' as <-.
    assert (SV : is_scalar d = true -> get (fill (ms_count is_scalar defs) 0) (pl is_scalar defs i) = Some 0).
    { intros T. apply get_fill. exact (pl_range _ _ _ _ G T). }
    assert (SF : is_scalar d = true -> me_flag (ms_init defs) (pl is_scalar defs i) = Some false).
    { intros T. apply (flag_zero _ (ms_count is_scalar defs)); [reflexivity|]. exact (pl_range _ _ _ _ G T). }
    unfold m_ok, a_init. cbn [ms_vals ms_flags ms_strs ms_meta]. fold (ms_init defs). destruct (md_type d) eqn:T; cbn [or0 is_set].
    + split; [apply SV; now apply (scalar_of MUnsigned)|]. split; [unfold is_u32; lia|apply SF; now apply (scalar_of MUnsigned)].
    + split; [apply SV; now apply (scalar_of MSigned)|]. split; [unfold is_s32; lia|apply SF; now apply (scalar_of MSigned)].
    + cbn [a_shows run_ok meta_of]. split; [apply SV; now apply (scalar_of MTimer)|]. split; [|exact I].
      apply get_repeat. assert (TT : is_timer d = true) by (unfold is_timer; rewrite T; reflexivity). pose proof (pl_range _ _ _ _ G TT). lia.
    + assert (TT : is_string d = true) by (unfold is_string; rewrite T; reflexivity).
      assert (DR : 0 <= md_range d < 4294967296).
      { unfold mdefs_ok in D. rewrite Forall_forall in D. apply D. exact (get_in _ _ _ G). }
      exists (fill (md_range d) 0). split.
      * rewrite (get_map (fun d => fill (md_range d + 1) 0) _ _ d (get_filter _ _ _ _ G TT)). f_equal. cbn [app]. unfold fill.
        replace (Z.to_nat (md_range d + 1)) with (S (Z.to_nat (md_range d))) by lia. reflexivity.
      * split; [|constructor]. rewrite zlen_nil, zlen_fill by lia. lia.
Qed.

(** ** Main statement *)
Lemma metrics_run defs timers ops rs a : mdefs_ok defs -> am_run defs timers (am_init defs) ops = Some (rs, a) ->
  exists s, me_run defs timers (ms_init defs) ops = Some (rs, s).
Proof.
  intros D H. destruct (me_run_ok defs timers D ops _ _ rs a (me_init_ok defs D) H) as (s & F & _). exists s. exact F.
Qed.

(** ** Consequences stated on the model alone *)
Lemma reach_rel defs timers s : mdefs_ok defs -> reachable defs timers s -> exists a, mrel defs s a.
Proof.
  intros D (ops & rs & a & A & B). destruct (me_run_ok defs timers D ops _ _ rs a (me_init_ok defs D) A) as (s' & F & R).
  rewrite B in F. injection F as ->. exists a. exact R.
Qed.
Lemma item_of_rel defs s a j d v : mrel defs s a -> get defs j = Some d -> get a j = Some v -> item_of defs s j = Some (a_item d v).
Proof.
  intros R G GA. destruct (item_ok defs s a j d v R G GA) as (i & F & _ & I). unfold item_of. rewrite F. exact I.
Qed.
Lemma item_of_none defs s j : get defs j = None -> item_of defs s j = None.
Proof. intros G. unfold item_of. rewrite find_none by exact G. reflexivity. Qed.

Lemma am_put_get a k v j : get a k <> None -> j <> k -> get (am_put a k v) j = get a j.
Proof.
  intros G N. unfold am_put. apply get_upd_other; [|exact N]. destruct (get a k) eqn:E; [|contradiction]. exact (get_range _ _ _ E).
Qed.
Lemma am_get_get defs a k x : am_get defs a k = Some x -> get a k <> None.
Proof. unfold am_get. destruct (get defs k); [|discriminate]. destruct (get a k); [discriminate|intros; discriminate]. Qed.
Lemma am_timer_frame defs a k f rv a' j : am_timer defs a k f = Some (rv, a') -> j <> k -> get a' j = get a j.
Proof.
  unfold am_timer. intros H N. destruct (am_get defs a k) as [(d & w)|] eqn:G; [|injection H as <- <-; reflexivity].
  destruct (mtype_eqb (md_type d) MTimer); [|injection H as <- <-; reflexivity]. binv H. injection H as <- <-.
  apply am_put_get; [exact (am_get_get _ _ _ _ G)|exact N].
Qed.
Lemma am_step_frame defs timers a o k res a' : op_key o = Some k -> am_step defs timers a o = Some (res, a') ->
  forall j, j <> k -> get a' j = get a j.
Proof.
  intros K H j N. destruct o; try discriminate; injection K as ->; cbn [am_step] in H;
    try (destruct (0 <=? now); [|discriminate]; binv H; injection H as <- <-; destruct v as (rv & a1); exact (am_timer_frame _ _ _ _ _ _ _ E N)).
  - destruct (in_u32 v); [|discriminate]. destruct (am_get defs a k) as [(d & w)|] eqn:G; [|injection H as <- <-; reflexivity].
    destruct (mtype_eqb _ _); injection H as <- <-; [|reflexivity]. apply am_put_get; [exact (am_get_get _ _ _ _ G)|exact N].
  - destruct (in_s32 v); [|discriminate]. destruct (am_get defs a k) as [(d & w)|] eqn:G; [|injection H as <- <-; reflexivity].
    destruct (mtype_eqb _ _); injection H as <- <-; [|reflexivity]. apply am_put_get; [exact (am_get_get _ _ _ _ G)|exact N].
  - destruct (forallb is_char c); [|discriminate]. destruct (am_get defs a k) as [(d & w)|] eqn:G; [|injection H as <- <-; reflexivity].
    destruct (mtype_eqb _ _); injection H as <- <-; [|reflexivity]. apply am_put_get; [exact (am_get_get _ _ _ _ G)|exact N].
  - destruct (in_s32 amount); [|discriminate]. destruct (am_get defs a k) as [(d & w)|] eqn:G; [|injection H as <- <-; reflexivity].
    destruct w; injection H as <- <-; try reflexivity. apply am_put_get; [exact (am_get_get _ _ _ _ G)|exact N].
  - destruct (am_get defs a k) as [(d & w)|] eqn:G; [|injection H as <- <-; reflexivity].
    destruct (mtype_eqb _ _); [destruct w as [[n|]|t r|c]|]; injection H as <- <-; reflexivity.
  - destruct (am_get defs a k) as [(d & w)|] eqn:G; [|injection H as <- <-; reflexivity].
    destruct (mtype_eqb _ _); [destruct w as [[n|]|t r|c]|]; injection H as <- <-; reflexivity.
  - destruct (0 <=? now); [|discriminate]. destruct (am_get defs a k) as [(d & w)|] eqn:G; [|injection H as <- <-; reflexivity].
    destruct (mtype_eqb _ _); [|injection H as <- <-; reflexivity]. binv H. injection H as <- <-.
    apply am_put_get; [exact (am_get_get _ _ _ _ G)|exact N].
  - destruct (zlen out =? 0); [injection H as <- <-; reflexivity|]. destruct (am_get defs a k) as [(d & [n|t r|c])|]; injection H as <- <-; reflexivity.
Qed.

(** A call about one metric leaves what the event says of every other as it was. *)
Lemma charz_forallb c : Forall charz c -> forallb is_char c = true.
Proof. intros H. apply forallb_forall. intros x I. rewrite Forall_forall in H. exact (H x I). Qed.
Lemma arg_ok_some defs timers a o : arg_ok o -> exists r, am_step defs timers a o = Some r.
Proof.
  intros H. destruct o; try contradiction; cbn [am_step arg_ok] in *.
  - replace (in_u32 v) with true by (unfold in_u32, is_u32 in *; lia). destruct (am_get defs a key) as [(d & w)|]; [destruct (mtype_eqb _ _)|]; eexists; reflexivity.
  - replace (in_s32 v) with true by (unfold in_s32, is_s32 in *; lia). destruct (am_get defs a key) as [(d & w)|]; [destruct (mtype_eqb _ _)|]; eexists; reflexivity.
  - rewrite charz_forallb by exact H. destruct (am_get defs a key) as [(d & w)|]; [destruct (mtype_eqb _ _)|]; eexists; reflexivity.
  - replace (in_s32 amount) with true by (unfold in_s32, is_s32 in *; lia). destruct (am_get defs a key) as [(d & [x|t r|c])|]; eexists; reflexivity.
  - destruct (am_get defs a key) as [(d & w)|]; [destruct (mtype_eqb _ _); [destruct w as [[x|]|t r|c]|]|]; eexists; reflexivity.
  - destruct (am_get defs a key) as [(d & w)|]; [destruct (mtype_eqb _ _); [destruct w as [[x|]|t r|c]|]|]; eexists; reflexivity.
  - destruct (zlen out =? 0); [eexists; reflexivity|]. destruct (am_get defs a key) as [(d & [x|t r|c])|]; eexists; reflexivity.
Qed.

Lemma others_unchanged_rel defs timers s a o k res s' j : mdefs_ok defs -> mrel defs s a -> op_key o = Some k ->
  (exists r, am_step defs timers a o = Some r) -> me_step defs timers s o = Some (res, s') -> j <> k -> item_of defs s' j = item_of defs s j.
Proof.
  intros D R K ((res' & a') & A) M N. destruct (me_step_ok defs timers o D s a res' a' R A) as (s1 & F & R1).
  rewrite M in F. injection F as <- <-.
  destruct (get defs j) as [d|] eqn:G; [|now rewrite !item_of_none].
  pose proof (get_range _ _ _ G) as RG. destruct (get_some a j) as (v & GA); [rewrite (mr_len _ _ _ R); exact RG|].
  rewrite (item_of_rel _ _ _ _ _ _ R G GA). apply (item_of_rel _ _ _ _ _ _ R1 G).
  rewrite (am_step_frame _ _ _ _ _ _ _ K A j N). exact GA.
Qed.
Lemma others_unchanged defs timers s o k : mdefs_ok defs -> reachable defs timers s -> op_key o = Some k -> arg_ok o ->
  exists res s', me_step defs timers s o = Some (res, s') /\ forall j, j <> k -> item_of defs s' j = item_of defs s j.
Proof.
  intros D RE K AO. destruct (reach_rel _ _ _ D RE) as (a & R). destruct (arg_ok_some defs timers a o AO) as ((res & a') & A).
  destruct (me_step_ok defs timers o D s a res a' R A) as (s1 & F & R1). exists res, s1. split; [exact F|].
  intros j N. eapply others_unchanged_rel; eauto.
Qed.

(** Adding saturates. *)
Lemma add_saturates defs timers s k d n : mdefs_ok defs -> reachable defs timers s -> get defs k = Some d ->
  md_type d = MUnsigned \/ md_type d = MSigned -> is_s32 n ->
  exists s' v, me_add defs s k n = Some (0, s') /\
    (me_read defs s k (md_type d) = Some (0, Some v) \/ me_read defs s k (md_type d) = Some (VALUE_NOT_SET, None) /\ v = 0) /\
    me_read defs s' k (md_type d) = Some (0, Some (match md_type d with
      | MUnsigned => Z.max 0 (Z.min 4294967295 (v + n)) | _ => Z.max (-2147483648) (Z.min 2147483647 (v + n)) end)).
Proof.
  intros D RE G T N. destruct (reach_rel _ _ _ D RE) as (a & R).
  pose proof (get_range _ _ _ G) as RG. destruct (get_some a k) as (w & GA); [rewrite (mr_len _ _ _ R); exact RG|].
  pose proof (mr_each _ _ _ R _ _ _ G GA) as M. assert (W : exists o, w = AInt o).
  { unfold m_ok in M. destruct T as [T|T]; rewrite T in M; destruct w; try contradiction; eexists; reflexivity. }
  destruct W as (o & ->).
  assert (AG : am_get defs a k = Some (d, AInt o)) by (unfold am_get; rewrite G, GA; reflexivity).
  pose proof (read_num defs s a k (md_type d) R T) as RD. rewrite AG in RD.
  assert (TE : mtype_eqb (md_type d) (md_type d) = true) by (destruct (md_type d); reflexivity). rewrite TE in RD.
  destruct (add_ok defs timers k n s a (RRv 0) (am_put a k (AInt (Some (match md_type d with
      | MUnsigned => clamp 0 4294967295 (or0 o + n) | _ => clamp (-2147483648) 2147483647 (or0 o + n) end)))) R) as (s' & F & R').
  { cbn [am_step]. replace (in_s32 n) with true by (unfold in_s32, is_s32 in *; lia). rewrite AG. reflexivity. }
  cbn [me_step] in F. binv F. destruct v as (rv & s1). injection F as F1 F2. cbn [fst snd] in F1, F2. subst rv s'. exists s1, (or0 o).
  assert (GA' : forall x, get (am_put a k x) k = Some x) by (intros x; unfold am_put; apply get_upd_same; exact (get_range _ _ _ GA)).
  assert (AG' : forall x, am_get defs (am_put a k x) k = Some (d, x)) by (intros x; unfold am_get; rewrite G, GA'; reflexivity).
  split; [exact E|]. split.
  - rewrite RD. destruct o as [v|]; [left; reflexivity|right; split; reflexivity].
  - cbn [snd] in R'. rewrite (read_num defs s1 _ k (md_type d) R' T), AG', TE. destruct T as [T|T]; rewrite T; reflexivity.
Qed.
Lemma set_reads_back defs timers s k d v : mdefs_ok defs -> reachable defs timers s -> get defs k = Some d ->
  (md_type d = MUnsigned /\ is_u32 v \/ md_type d = MSigned /\ is_s32 v) ->
  exists s', me_set defs s k (md_type d) (u32 v) = Some (0, s') /\ me_read defs s' k (md_type d) = Some (0, Some v).
Proof.
  intros D RE G T. destruct (reach_rel _ _ _ D RE) as (a & R).
  pose proof (get_range _ _ _ G) as RG. destruct (get_some a k) as (w & GA); [rewrite (mr_len _ _ _ R); exact RG|].
  assert (AG : am_get defs a k = Some (d, w)) by (unfold am_get; rewrite G, GA; reflexivity).
  assert (GA' : forall x, get (am_put a k x) k = Some x) by (intros x; unfold am_put; apply get_upd_same; exact (get_range _ _ _ GA)).
  assert (AG' : forall x, am_get defs (am_put a k x) k = Some (d, x)) by (intros x; unfold am_get; rewrite G, GA'; reflexivity).
  destruct T as [(T & B)|(T & B)]; rewrite T.
  - destruct (set_u_ok defs timers k v s a (RRv 0) (am_put a k (AInt (Some v))) R) as (s' & F & R').
    { cbn [am_step]. replace (in_u32 v) with true by (unfold in_u32, is_u32 in *; lia). rewrite AG, T. reflexivity. }
    cbn [me_step] in F. binv F. destruct v0 as (rv & s1). injection F as F1 F2. cbn [fst snd] in F1, F2. subst rv s'. exists s1. split; [exact E|].
    cbn [snd] in R'. rewrite (read_num defs s1 _ k MUnsigned R') by (left; reflexivity). rewrite AG', T. reflexivity.
  - destruct (set_s_ok defs timers k v s a (RRv 0) (am_put a k (AInt (Some v))) R) as (s' & F & R').
    { cbn [am_step]. replace (in_s32 v) with true by (unfold in_s32, is_s32 in *; lia). rewrite AG, T. reflexivity. }
    cbn [me_step] in F. binv F. destruct v0 as (rv & s1). injection F as F1 F2. cbn [fst snd] in F1, F2. subst rv s'. exists s1. split; [exact E|].
    cbn [snd] in R'. rewrite (read_num defs s1 _ k MSigned R') by (right; reflexivity). rewrite AG', T. reflexivity.
Qed.


Lemma am_run_app defs timers : forall o1 o2 a rs1 a1 rs2 a2, am_run defs timers a o1 = Some (rs1, a1) -> am_run defs timers a1 o2 = Some (rs2, a2) ->
  am_run defs timers a (o1 ++ o2) = Some (rs1 ++ rs2, a2).
Proof.
  induction o1 as [|o r IH]; intros o2 a rs1 a1 rs2 a2 A B; cbn [am_run app] in *.
  - injection A as <- <-. exact B.
  - binv A. destruct v as (res & a3). binv A. destruct v as (rs & a4). injection A as <- <-. rewrite E. cbn [bind].
    rewrite (IH o2 _ _ _ _ _ E0 B). reflexivity.
Qed.
Lemma am_put_put a k x y : 0 <= k < zlen a -> am_put (am_put a k x) k y = am_put a k y.
Proof.
  intros R. unfold am_put. assert (L : zlen (take k a) = k) by (rewrite zlen_take; lia).
  rewrite take_app_exact by lia. f_equal. f_equal.
  replace (take k a ++ x :: drop (k + 1) a) with ((take k a ++ [x]) ++ drop (k + 1) a) by (rewrite <- app_assoc; reflexivity).
  apply drop_app_exact. rewrite zlen_app. change (zlen [x]) with 1. lia.
Qed.
Lemma looks_spec defs timers k d : get defs k = Some d -> md_type d = MTimer ->
  forall looks a t since last stop, 0 <= last -> zlen a = zlen defs -> get a k = Some (ATimer t (Some (since, last))) -> gaps last looks stop ->
  exists rs, am_run defs timers a (map (OReadT k) looks ++ [OStop k stop]) = Some (rs, am_put a k (ATimer (t + (stop - since)) None)).
Proof.
  intros G T. induction looks as [|l r IH]; intros a t since last stop LL L GA GP; cbn [gaps map app am_run] in *.
  - cbn [am_step]. replace (0 <=? stop) with true by lia. unfold am_timer, am_get. rewrite G, GA, T. cbn [mtype_eqb a_stop].
    replace (gap_ok last stop) with true by (unfold gap_ok; lia). cbn [bind fst snd]. eexists. reflexivity.
  - destruct GP as (GP & GR). cbn [am_step]. replace (0 <=? l) with true by lia. unfold am_get. rewrite G, GA, T. cbn [mtype_eqb a_force].
    replace (gap_ok last l) with true by (unfold gap_ok; lia). cbn [bind].
    pose proof (get_range _ _ _ GA) as RG. destruct (IH (am_put a k (ATimer t (Some (since, l)))) t since l stop) as (rs & E).
    + lia.
    + unfold am_put. rewrite zlen_upd by exact RG. exact L.
    + unfold am_put. apply get_upd_same. exact RG.
    + exact GR.
    + rewrite E. cbn [bind]. rewrite am_put_put by exact RG. eexists. reflexivity.
Qed.
Lemma runs_spec defs timers k d : get defs k = Some d -> md_type d = MTimer ->
  forall xs a t, zlen a = zlen defs -> get a k = Some (ATimer t None) -> Forall run_good xs ->
  exists rs, am_run defs timers a (concat (map (run_ops k) xs)) = Some (rs, am_put a k (ATimer (t + fold_right Z.add 0 (map run_time xs)) None)).
Proof.
  intros G T. induction xs as [|((s0 & looks) & e) r IH]; intros a t L GA F; cbn [map concat fold_right].
  - exists []. cbn [am_run]. replace (t + 0) with t by lia. rewrite am_put_same by exact GA. reflexivity.
  - inv F. destruct H1 as (P & GP). pose proof (get_range _ _ _ GA) as RG.
    assert (GA1 : forall x, get (am_put a k x) k = Some x) by (intros x; unfold am_put; apply get_upd_same; exact RG).
    assert (L1 : forall x, zlen (am_put a k x) = zlen defs) by (intros x; unfold am_put; rewrite zlen_upd by exact RG; exact L).
    destruct (looks_spec defs timers k d G T looks (am_put a k (ATimer t (Some (s0, s0)))) t s0 s0 e P (L1 _) (GA1 _) GP) as (rs1 & E1).
    rewrite am_put_put in E1 by exact RG.
    destruct (IH _ _ (L1 _) (GA1 (ATimer (t + (e - s0)) None)) H2) as (rs2 & E2). rewrite am_put_put in E2 by exact RG.
    eexists. cbn [run_ops]. cbn [app am_run am_step].
    replace (0 <=? s0) with true by lia. unfold am_timer, am_get. rewrite G, GA, T. cbn [mtype_eqb bind a_start fst snd].
    rewrite (am_run_app _ _ _ _ _ _ _ _ _ E1 E2). cbn [bind run_time]. do 3 f_equal. f_equal. lia.
Qed.
Lemma me_run_app defs timers : forall o1 o2 s rs1 s1 rs2 s2, me_run defs timers s o1 = Some (rs1, s1) -> me_run defs timers s1 o2 = Some (rs2, s2) ->
  me_run defs timers s (o1 ++ o2) = Some (rs1 ++ rs2, s2).
Proof.
  induction o1 as [|o r IH]; intros o2 a rs1 a1 rs2 a2 A B; cbn [me_run app] in *.
  - injection A as <- <-. exact B.
  - binv A. destruct v as (res & a3). binv A. destruct v as (rs & a4). injection A as <- <-. rewrite E. cbn [bind].
    rewrite (IH o2 _ _ _ _ _ E0 B). reflexivity.
Qed.
Lemma timer_sums_runs defs timers k d xs now : mdefs_ok defs -> get defs k = Some d -> md_type d = MTimer -> Forall run_good xs -> 0 <= now ->
  exists rs s, me_run defs timers (ms_init defs) (concat (map (run_ops k) xs) ++ [OReadT k now]) =
    Some (rs ++ [RVal 0 (Some (fold_right Z.add 0 (map run_time xs) mod 4294967296))], s).
Proof.
  intros D G T F NN. pose proof (get_range _ _ _ G) as RG.
  assert (GA : get (am_init defs) k = Some (ATimer 0 None)).
  { unfold am_init. rewrite (get_map a_init _ _ _ G). unfold a_init. rewrite T. reflexivity. }
  assert (L : zlen (am_init defs) = zlen defs) by apply zlen_map.
  destruct (runs_spec defs timers k d G T xs (am_init defs) 0 L GA F) as (rs & E).
  set (tot := fold_right Z.add 0 (map run_time xs)) in *.
  assert (E2 : am_run defs timers (am_put (am_init defs) k (ATimer (0 + tot) None)) [OReadT k now] =
    Some ([RVal 0 (Some (tot mod 4294967296))], am_put (am_put (am_init defs) k (ATimer (0 + tot) None)) k (ATimer (0 + tot) None))).
  { cbn [am_run am_step]. replace (0 <=? now) with true by lia. unfold am_get. rewrite G. unfold am_put at 1. rewrite get_upd_same by (rewrite L; exact RG).
    rewrite T. cbn [mtype_eqb a_force bind a_shows]. rewrite Z.add_0_l. reflexivity. }
  destruct (metrics_run defs timers _ _ _ D (am_run_app _ _ _ _ _ _ _ _ _ E E2)) as (s & M). exists rs, s. exact M.
Qed.

Lemma get_am_put a k x : 0 <= k < zlen a -> get (am_put a k x) k = Some x.
Proof. intros. unfold am_put. now apply get_upd_same. Qed.
Lemma am_put_cons w a k x : 0 < k -> am_put (w :: a) k x = w :: am_put a (k - 1) x.
Proof.
  intros. unfold am_put. rewrite take_cons by lia. cbn [app]. f_equal. f_equal. f_equal.
  replace (w :: a) with ([w] ++ a) by reflexivity. rewrite drop_app_ge by (change (zlen [w]) with 1; lia).
  change (zlen [w]) with 1. f_equal. lia.
Qed.
Lemma each_init f : (forall d, f d (a_init d) = Some (a_init d)) -> forall defs, am_each f defs (am_init defs) = Some (am_init defs).
Proof. intros F. induction defs as [|d r IH]; [reflexivity|]. cbn [am_init map am_each] in *. rewrite F. cbn [bind]. fold (am_init r). rewrite IH. reflexivity. Qed.
Lemma each_put f v v' : (forall d, f d (a_init d) = Some (a_init d)) ->
  forall defs k d, get defs k = Some d -> f d v = Some v' ->
  am_each f defs (am_put (am_init defs) k v) = Some (am_put (am_init defs) k v').
Proof.
  intros F. induction defs as [|e r IH]; intros k d G V.
  - apply get_range in G. change (zlen (@nil mdef)) with 0 in G. lia.
  - pose proof (get_range _ _ _ G) as R. destruct (Z.eq_dec k 0) as [->|N].
    + rewrite get_cons_0 in G. injection G as ->. change (am_init (d :: r)) with (a_init d :: am_init r).
      change (am_put (a_init d :: am_init r) 0 v) with (v :: am_init r). change (am_put (a_init d :: am_init r) 0 v') with (v' :: am_init r).
      cbn [am_each]. rewrite V. cbn [bind]. rewrite (each_init f F). reflexivity.
    + change (am_init (e :: r)) with (a_init e :: am_init r). rewrite !am_put_cons by lia. rewrite get_cons_S in G by lia.
      cbn [am_each]. rewrite F. cbn [bind]. rewrite (IH _ _ G V). reflexivity.
Qed.
Lemma items_get h : forall defs a k d v, zlen a = zlen defs -> get defs k = Some d -> get a k = Some v -> md_session d = h ->
  get (am_items defs a h) (pl (fun d => md_session d =? h) defs k) = Some (a_item d v).
Proof.
  induction defs as [|e r IH]; intros a k d v L G GA S.
  - apply get_range in G. change (zlen (@nil mdef)) with 0 in G. lia.
  - destruct a as [|w a]; [rewrite zlen_cons, zlen_nil in L; pose proof (zlen_nonneg r); lia|].
    pose proof (get_range _ _ _ G) as R. cbn [am_items]. destruct (Z.eq_dec k 0) as [->|N].
    + rewrite get_cons_0 in G. rewrite get_cons_0 in GA. injection G as ->. injection GA as ->. unfold pl. rewrite take_0. cbn [ms_count].
      rewrite S, Z.eqb_refl. reflexivity.
    + rewrite get_cons_S in G by lia. rewrite get_cons_S in GA by lia. unfold pl. rewrite take_cons by lia. cbn [ms_count]. fold (pl (fun d => md_session d =? h) r (k - 1)).
      rewrite !zlen_cons in L. specialize (IH a (k - 1) d v ltac:(lia) G GA S).
      pose proof (pl_nonneg (fun d => md_session d =? h) r (k - 1)). destruct (md_session e =? h); cbn [app].
      * rewrite get_cons_S by lia. replace (1 + pl (fun d => md_session d =? h) r (k - 1) - 1) with (pl (fun d => md_session d =? h) r (k - 1)) by lia. exact IH.
      * exact IH.
Qed.
Lemma heartbeats_spec defs timers h k d : get defs k = Some d -> md_type d = MTimer -> md_session d = h ->
  forall ts since, 0 <= since -> beats since ts ->
  exists rs a, am_run defs timers (am_put (am_init defs) k (ATimer 0 (Some (since, since)))) (concat (map (heartbeat_ops h) ts)) = Some (rs, a)
    /\ reported (event_index h defs k) rs = map (fun dt => Some (IUnsigned dt)) (diffs since ts).
Proof.
  intros G T S. pose proof (get_range _ _ _ G) as R. assert (L : zlen (am_init defs) = zlen defs) by apply zlen_map.
  induction ts as [|t r IH]; intros since P B; cbn [beats diffs map concat] in *.
  - eexists _, _. split; reflexivity.
  - destruct B as (B & BR). destruct (IH t ltac:(lia) BR) as (rs & a & E & RP).
    unfold heartbeat_ops at 1. cbn [app am_run am_step]. replace (0 <=? t) with true by lia.
    assert (TA : am_each (fun _ => a_force t) defs (am_put (am_init defs) k (ATimer 0 (Some (since, since)))) =
                 Some (am_put (am_init defs) k (ATimer 0 (Some (since, t))))).
    { apply (each_put _ _ _) with (d := d); [|exact G|].
      - intros e. unfold a_init. destruct (md_type e); reflexivity.
      - cbn [a_force]. replace (gap_ok since t) with true by (unfold gap_ok; lia). reflexivity. }
    rewrite TA. cbn [bind].
    assert (TR : am_each (fun d v => Some (if md_session d =? h then a_reset v else v)) defs (am_put (am_init defs) k (ATimer 0 (Some (since, t)))) =
                 Some (am_put (am_init defs) k (ATimer 0 (Some (t, t))))).
    { apply each_put with (d := d); [|exact G|].
      - intros e. unfold a_init. destruct (md_type e), (md_session e =? h); reflexivity.
      - rewrite S, Z.eqb_refl. reflexivity. }
    rewrite TR. cbn [bind]. rewrite E. cbn [bind]. eexists _, _. split; [reflexivity|].
    cbn [reported]. rewrite RP. f_equal. unfold event_index. fold (pl (fun d => md_session d =? h) defs k).
    rewrite (items_get h defs _ k d (ATimer 0 (Some (since, t)))).
    + unfold a_item. rewrite T. cbn [a_shows]. f_equal. f_equal. rewrite Z.mod_small; lia.
    + unfold am_put. rewrite zlen_upd by (rewrite L; exact R). exact L.
    + exact G.
    + apply get_am_put. rewrite L. exact R.
    + exact S.
Qed.
Lemma heartbeats_report defs timers h k d t0 ts : mdefs_ok defs -> get defs k = Some d -> md_type d = MTimer -> md_session d = h ->
  0 <= t0 -> beats t0 ts ->
  exists rs s, me_run defs timers (ms_init defs) (OStart k t0 :: concat (map (heartbeat_ops h) ts)) = Some (rs, s)
    /\ reported (event_index h defs k) rs = map (fun dt => Some (IUnsigned dt)) (diffs t0 ts).
Proof.
  intros D G T S P B. destruct (heartbeats_spec defs timers h k d G T S ts t0 P B) as (rs & a & E & RP).
  assert (E' : am_run defs timers (am_init defs) (OStart k t0 :: concat (map (heartbeat_ops h) ts)) = Some (RRv 0 :: rs, a)).
  { cbn [am_run am_step]. replace (0 <=? t0) with true by lia. unfold am_timer, am_get. rewrite G.
    unfold am_init at 1. rewrite (get_map a_init _ _ _ G). rewrite T. cbn [mtype_eqb]. unfold a_init at 1. rewrite T. cbn [a_start bind fst snd].
    rewrite E. reflexivity. }
  destruct (metrics_run defs timers _ _ _ D E') as (s & M). exists (RRv 0 :: rs), s. split; [exact M|]. exact RP.
Qed.

(** Reading a string gives a C string: as much of the value as fits. *)
Lemma read_string_cstr defs timers s k d c out : mdefs_ok defs -> reachable defs timers s -> get defs k = Some d -> md_type d = MString ->
  Forall charz c -> 0 < zlen out ->
  exists s' out', me_set_string defs s k c = Some (0, s') /\ me_read_string defs s' k out = Some (0, out')
    /\ cstr out' = Some (take (zlen out - 1) (take (md_range d) c)) /\ zlen out' = zlen out.
Proof.
  intros D RE G T FC LO. destruct (reach_rel _ _ _ D RE) as (a & R).
  pose proof (get_range _ _ _ G) as RG. destruct (get_some a k) as (w & GA); [rewrite (mr_len _ _ _ R); exact RG|].
  assert (AG : am_get defs a k = Some (d, w)) by (unfold am_get; rewrite G, GA; reflexivity).
  set (c' := take (md_range d) c). assert (FC' : Forall charz c') by (now apply Forall_take).
  assert (GA' : get (am_put a k (AStr c')) k = Some (AStr c')) by (apply get_am_put; exact (get_range _ _ _ GA)).
  assert (AG' : am_get defs (am_put a k (AStr c')) k = Some (d, AStr c')) by (unfold am_get; rewrite G, GA'; reflexivity).
  destruct (set_str_ok defs timers k c D s a (RRv 0) (am_put a k (AStr c')) R) as (s' & F & R').
  { cbn [am_step]. rewrite charz_forallb by exact FC. rewrite AG, T. reflexivity. }
  cbn [me_step] in F. binv F. destruct v as (rv & s1). injection F as F1 F2. cbn [fst snd] in F1, F2. subst rv s'.
  set (full := c' ++ [0] ++ drop (zlen c' + 1) out).
  destruct (read_str_ok defs timers k out s1 _ (RStr 0 (take (zlen out - 1) full ++ [0])) (am_put a k (AStr c')) R') as (s2 & F & _).
  { cbn [am_step]. replace (zlen out =? 0) with false by lia. rewrite AG'. reflexivity. }
  cbn [me_step] in F. binv F. destruct v as (rv & o'). injection F as F1 F2 F3. cbn [fst snd] in F1, F2. subst rv o' s2.
  pose proof (zlen_nonneg c') as NC.
  exists s1, (take (zlen out - 1) full ++ [0]). split; [exact E|]. split; [exact E0|]. split.
  - destruct (Z.leb_spec (zlen out - 1) (zlen c')).
    + unfold full. rewrite take_app_le by lia. apply (cstr_app (take (zlen out - 1) c') []). now apply Forall_take.
    + unfold full. rewrite take_app_ge by lia. rewrite (take_all _ c') by lia. rewrite <- app_assoc.
      rewrite (take_app_ge _ [0]) by (change (zlen [0]) with 1; lia). change ([0] ++ ?x) with (0 :: x). cbn [app]. now apply cstr_app.
  - rewrite zlen_app, zlen_take. unfold full. rewrite !zlen_app, zlen_drop. change (zlen [0]) with 1. lia.
Qed.
