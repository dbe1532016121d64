(** Proofs about the metrics of the ports. *)
From Verif Require Import Base PortMetrics PortMetricsSpec.

Lemma uw_small w x : 0 <= x < 2^w -> uw w x = x.
Proof. intros H. unfold uw. apply Z.mod_small. exact H. Qed.
Lemma u64_small x : 0 <= x < 2^64 -> u64 x = x.
Proof. intros H. unfold u64. apply Z.mod_small. exact H. Qed.
Lemma u32_small x : 0 <= x < 2^32 -> u32 x = x.
Proof. intros H. unfold u32. apply Z.mod_small. exact H. Qed.
Lemma s32_small x : -2^31 <= x < 2^31 -> s32 x = x.
Proof. intros H. unfold s32. rewrite Z.mod_small; lia. Qed.

(** ** FreeRTOS *)
Lemma delta_seen w a b : 0 <= w -> 0 <= b - a < 2^w -> delta_runtime w (a mod 2^w) (b mod 2^w) = b - a.
Proof.
  intros Hw H. unfold delta_runtime, uw. rewrite <- Zminus_mod. apply Z.mod_small. exact H.
Qed.

Lemma usage_range d t : 0 <= d -> 0 < t -> 0 <= 10000 * Z.min d t / t <= 10000.
Proof.
  intros Hd Ht. split.
  - apply Z.div_pos; lia.
  - apply Z.div_le_upper_bound; lia.
Qed.

Lemma calc_ok w pi i t pt : 0 <= w <= 64 -> 0 <= i - pi < 2^w -> 0 <= t - pt < 2^w ->
  (i - pi) * 10000 < 2^64 ->
  exists p, calc_runtime_percent w (pi mod 2^w) (i mod 2^w) (t mod 2^w) (pt mod 2^w) = Some p /\
    cpu_report p = usage_expected (i - pi) (t - pt).
Proof.
  intros Hw Hi Ht Hs. unfold calc_runtime_percent. rewrite !delta_seen by lia.
  unfold usage_expected. destruct (t - pt =? 0) eqn:E.
  - exists (-1). split; reflexivity.
  - apply Z.eqb_neq in E.
    assert (G : (u64_max - u64_max / 10000 <=? i - pi) = false).
    { apply Z.leb_gt. change (u64_max - u64_max / 10000) with 18444899399302180660. lia. }
    rewrite G.
    replace (t - pt =? 0) with false by (symmetry; apply Z.eqb_neq; exact E).
    set (d := i - pi) in *. set (u := t - pt) in *.
    replace (if u <? d then u else d) with (Z.min d u) by (destruct (u <? d) eqn:K; lia).
    pose proof (usage_range d u ltac:(lia) ltac:(lia)) as R.
    rewrite u64_small by lia. rewrite (Z.mul_comm (Z.min d u)).
    rewrite s32_small by lia.
    eexists. split; [reflexivity|]. unfold cpu_report.
    replace (0 <=? 10000 * Z.min d u / u) with true by (symmetry; apply Z.leb_le; lia).
    rewrite (u32_small (10000 * Z.min d u / u)) by lia. rewrite u32_small by lia. reflexivity.
Qed.

Lemma lim_split w x : 0 <= x < Z.min (2^w) (2^64 / 10000) -> 0 <= x < 2^w /\ x * 10000 < 2^64.
Proof. change (2^64 / 10000) with 1844674407370955. generalize (2^w) as W. intros W H. lia. Qed.

Lemma cpu_run_ok w split : 0 <= w <= 64 -> forall l p0 p1 pt i1, slow3 (Z.min (2^w) (2^64 / 10000)) (p0, p1, pt) l ->
  (split = true -> i1 = p1 mod 2^w) ->
  cpu_run w split (mk_cs (p0 mod 2^w) i1 (pt mod 2^w)) (map (seen w) l) = Some (usages_expected split (p0, p1, pt) l).
Proof.
  intros Hw l. induction l as [|[[a b] c] l IH]; intros p0 p1 pt i1 H I1.
  - reflexivity.
  - destruct H as [(Ha & Hb & Hc) S]. cbn [map seen cpu_run usages_expected].
    destruct (lim_split w _ Ha) as (Ha1 & Ha2). destruct (lim_split w _ Hb) as (Hb1 & Hb2). destruct (lim_split w _ Hc) as (Hc1 & _).
    unfold cpu_step. cbn [cs_idle cs_idle1 cs_total].
    destruct (calc_ok w p0 a c pt Hw Ha1 Hc1 Ha2) as (q0 & E0 & R0).
    rewrite E0. cbn [bind]. destruct split.
    + rewrite (I1 eq_refl). destruct (calc_ok w p1 b c pt Hw Hb1 Hc1 Hb2) as (q1 & E1 & R1).
      rewrite E1. cbn [bind snd fst]. rewrite (IH a b c); [|exact S|reflexivity].
      cbn [bind]. rewrite R0, R1. reflexivity.
    + cbn [bind snd fst]. rewrite (IH a b c); [|exact S|discriminate].
      cbn [bind]. rewrite R0. reflexivity.
Qed.

Lemma cpu_usage_ok w split l : 0 <= w <= 64 -> slow3 (Z.min (2^w) (2^64 / 10000)) (0, 0, 0) l ->
  cpu_run w split cpu_init (map (seen w) l) = Some (usages_expected split (0, 0, 0) l).
Proof.
  intros Hw S. rewrite <- (cpu_run_ok w split Hw l 0 0 0 0 S); [|intros _; now rewrite Z.mod_0_l by (apply Z.pow_nonzero; lia)].
  unfold cpu_init. rewrite Z.mod_0_l by (apply Z.pow_nonzero; lia). reflexivity.
Qed.

Lemma usage_expected_bounds d t v : 0 <= d -> 0 <= t -> usage_expected d t = Some v -> 0 <= v <= 10000.
Proof.
  unfold usage_expected. intros Hd Ht. destruct (t =? 0) eqn:E; [discriminate|]. apply Z.eqb_neq in E.
  intros H. assert (v = 10000 - 10000 * Z.min d t / t) by congruence.
  pose proof (usage_range d t Hd ltac:(lia)). lia.
Qed.

(** ** Zephyr *)
Lemma zdelta_ok a b : 0 <= b - a < 2^64 -> u64 (b mod 2^64 - a mod 2^64) = b - a.
Proof. intros H. unfold u64. rewrite <- Zminus_mod. apply Z.mod_small. exact H. Qed.

Definition zr_is (x : Z * Z * Z) (r : zcpu_report) : Prop :=
  let '(t, a, p) := x in zr_timer r = u32 t /\ zr_all r = u32 a /\ zr_pct r = p.

Lemma zcpu_run_ok : forall l pt pa pb, zsamples_ok (2^64 / 10000) (pt, pa, pb) l ->
  exists rs, zcpu_run (mk_zc (pt mod 2^64) (pa mod 2^64) (pb mod 2^64)) (map (seen 64) l) = Some rs /\
    Forall2 zr_is (zreports_expected (pt, pa, pb) l) rs /\ Forall (fun r => 0 <= zr_pct r <= 10000) rs.
Proof.
  induction l as [|[[t a] b] l IH]; intros pt pa pb H.
  - exists []. repeat split; constructor.
  - destruct H as ((Ht & Ha & Hb) & S). change (2^64 / 10000) with 1844674407370955 in *.
    destruct (IH t a b S) as (rs & E & F & G).
    cbn [map seen zcpu_run zreports_expected]. unfold zcpu_step, cycle_delta. cbn [zc_timer zc_all zc_busy].
    rewrite !zdelta_ok by lia.
    replace (a - pa =? 0) with false by (symmetry; apply Z.eqb_neq; lia).
    cbn [bind snd fst]. rewrite E. cbn [bind].
    assert (P : 0 <= 10000 * (b - pb) / (a - pa) <= 10000).
    { split; [apply Z.div_pos; lia|apply Z.div_le_upper_bound; lia]. }
    rewrite (u64_small ((b - pb) * 10000)) by lia. rewrite (Z.mul_comm (b - pb)).
    rewrite (u32_small (10000 * (b - pb) / (a - pa))) by lia.
    eexists. split; [reflexivity|]. split.
    + constructor; [|exact F]. cbn. split; [reflexivity|split; reflexivity].
    + constructor; [exact P|exact G].
Qed.

Lemma zcpu_usage_ok l : zsamples_ok (2^64 / 10000) (0, 0, 0) l ->
  exists rs, zcpu_run zcpu_init (map (seen 64) l) = Some rs /\
    Forall2 (fun x r => zr_pct r = snd x) (zreports_expected (0, 0, 0) l) rs /\ Forall (fun r => 0 <= zr_pct r <= 10000) rs.
Proof.
  intros H. destruct (zcpu_run_ok l 0 0 0 H) as (rs & E & F & G).
  exists rs. split; [exact E|]. split; [|exact G].
  clear -F. induction F as [|[[t a] p] r x y K F IH]; constructor; [|exact IH]. destruct K as (_ & _ & K). exact K.
Qed.

Lemma zsamples_weaken lim lim' : lim <= lim' -> forall l p, zsamples_ok lim p l -> zsamples_ok lim' p l.
Proof.
  intros L l. induction l as [|[[t a] b] l IH]; intros [[pt pa] pb] H; [exact I|].
  destruct H as (H & S). split; [lia|]. apply IH. exact S.
Qed.

Lemma zexact l : forall p rs, zsamples_ok (2^32) p l -> Forall2 zr_is (zreports_expected p l) rs ->
  map (fun r => (zr_timer r, zr_all r, zr_pct r)) rs = zreports_expected p l.
Proof.
  induction l as [|[[t a] b] l IH]; intros [[pt pa] pb] rs H F.
  - inversion F. reflexivity.
  - destruct H as (H & S). cbn [zreports_expected] in *. inversion F as [|x r xs rs' K F']; subst.
    destruct K as (K1 & K2 & K3). cbn [map]. rewrite (IH _ _ S F'). rewrite K1, K2, K3.
    rewrite !u32_small by lia. reflexivity.
Qed.

Lemma zcycles_ok l : zsamples_ok (2^32) (0, 0, 0) l ->
  exists rs, zcpu_run zcpu_init (map (seen 64) l) = Some rs /\
    map (fun r => (zr_timer r, zr_all r, zr_pct r)) rs = zreports_expected (0, 0, 0) l.
Proof.
  intros H.
  assert (W : zsamples_ok (2^64 / 10000) (0, 0, 0) l).
  { apply (zsamples_weaken (2^32)); [|exact H]. change (2^64 / 10000) with 1844674407370955. lia. }
  destruct (zcpu_run_ok l 0 0 0 W) as (rs & E & F & _). exists rs. split; [exact E|].
  exact (zexact l _ rs H F).
Qed.

(** ** Stacks *)
Lemma is_part_div n part whole : 0 < whole -> is_part n part whole (n * part / whole).
Proof.
  intros H. split; [exact H|].
  pose proof (Z.mul_div_le (n * part) whole H). pose proof (Z.mul_succ_div_gt (n * part) whole H). lia.
Qed.
Lemma is_part_unique n part whole v : is_part n part whole v -> v = n * part / whole.
Proof.
  intros (H & A & B). apply (Z.div_unique_pos _ _ v (n * part - v * whole)); lia.
Qed.

Lemma z_stack_ok scale size free : 0 <= scale -> 0 <= free <= size -> 0 < size -> 100 * scale * size < 2^32 -> size * 100 < 2^32 ->
  exists v, z_stack_pct scale size free = Some v /\ is_part (100 * scale) (size - free) size v.
Proof.
  intros Hs Hf H0 Hb Hc. unfold z_stack_pct.
  replace (size =? 0) with false by (symmetry; apply Z.eqb_neq; lia).
  eexists. split; [reflexivity|].
  rewrite (u32_small (size - free)) by lia. rewrite (u32_small ((size - free) * 100)) by lia.
  rewrite u32_small by nia. replace ((size - free) * 100 * scale) with (100 * scale * (size - free)) by lia.
  apply is_part_div. exact H0.
Qed.

Lemma fr_stack_quarter st scale size words base v : 0 < st -> 0 <= scale -> 0 <= words -> words * st <= size -> 0 < size < 2^32 ->
  100 * scale * words < 2^32 ->
  fr_stack_pct st scale words (base + size - st) base = Some v -> st * v <= 100 * scale /\ is_part (100 * scale) words size v.
Proof.
  intros Hst Hs Hw Hfit H0 Hb E. unfold fr_stack_pct in E.
  replace (base + size - st - base + st) with size in E by lia.
  rewrite (u32_small size) in E by lia.
  replace (size =? 0) with false in E by (symmetry; apply Z.eqb_neq; lia).
  rewrite u32_small in E by nia. assert (V : v = 100 * scale * words / size) by congruence.
  assert (P : is_part (100 * scale) words size v) by (rewrite V; apply is_part_div; lia).
  split; [|exact P]. destruct P as (_ & P & _).
  assert (v * size * st <= 100 * scale * size) by nia.
  nia.
Qed.

Lemma beqs_ok a : forall b, beqs a b = true <-> a = b.
Proof.
  induction a as [|x a IH]; intros [|y b]; cbn [beqs]; split; intros H; try congruence; try discriminate.
  - apply andb_prop in H. destruct H as (H1 & H2). apply Z.eqb_eq in H1. apply IH in H2. congruence.
  - injection H as -> ->. rewrite Z.eqb_refl. cbn [andb]. now apply IH.
Qed.

(** The metrics of threads *)
Lemma left_with_notin k l : ~ In k (map fst l) -> left_with k l = None.
Proof.
  induction l as [|[k' v] l IH]; cbn [map fst left_with]; intros H; [reflexivity|].
  rewrite IH by (intros I; apply H; now right).
  destruct (k' =? k) eqn:E; [|reflexivity]. apply Z.eqb_eq in E. exfalso. apply H. now left.
Qed.

Lemma z_find_some name idx k : z_find name idx = Some k -> In (name, k) idx.
Proof.
  induction idx as [|[n k'] idx IH]; cbn [z_find]; [discriminate|].
  destruct (beqs n name) eqn:E; intros H.
  - apply beqs_ok in E. injection H as <-. left. congruence.
  - right. auto.
Qed.
Lemma z_find_in name k : forall idx, NoDup (map fst idx) -> In (name, k) idx -> z_find name idx = Some k.
Proof.
  induction idx as [|[n k'] idx IH]; cbn [map fst z_find]; intros N H; [destruct H|].
  inversion N as [|x y N1 N2]; subst. destruct H as [H|H].
  - injection H as -> ->. replace (beqs name name) with true by (symmetry; now apply beqs_ok). reflexivity.
  - destruct (beqs n name) eqn:E; [|auto]. apply beqs_ok in E. subst n. exfalso. apply N1. exact (in_map fst _ _ H).
Qed.
Lemma key_inj (idx : list (list Z * Z)) a b k : NoDup (map snd idx) -> In (a, k) idx -> In (b, k) idx -> a = b.
Proof.
  induction idx as [|[n k'] idx IH]; cbn [map snd]; intros N A B; [destruct A|].
  inversion N as [|x y N1 N2]; subst.
  destruct A as [A|A], B as [B|B].
  - congruence.
  - injection A as -> ->. exfalso. apply N1. exact (in_map snd _ _ B).
  - injection B as -> ->. exfalso. apply N1. exact (in_map snd _ _ A).
  - auto.
Qed.

Definition z_sane (scale : Z) (t : z_thread) : Prop :=
  0 <= zt_free t <= zt_size t /\ 0 < zt_size t /\ 100 * scale * zt_size t < 2^32 /\ zt_size t * 100 < 2^32.

Lemma z_keys scale idx : forall ths l, z_thread_metrics scale idx ths = Some l ->
  forall k, In k (map fst l) -> exists t, In t ths /\ In (zt_name t, k) idx.
Proof.
  induction ths as [|t ths IH]; cbn [z_thread_metrics]; intros l E k H.
  - injection E as <-. destruct H.
  - destruct (z_find (zt_name t) idx) as [k0|] eqn:F.
    + destruct (z_stack_pct scale (zt_size t) (zt_free t)) as [v|]; [|discriminate].
      cbn [bind] in E. destruct (z_thread_metrics scale idx ths) as [l'|] eqn:E'; [|discriminate].
      cbn [bind] in E. injection E as <-. cbn [map fst] in H. destruct H as [H|H].
      * subst k0. exists t. split; [now left|]. now apply z_find_some.
      * destruct (IH l' eq_refl k H) as (u & A & B). exists u. split; [now right|exact B].
    + destruct (IH l E k H) as (u & A & B). exists u. split; [now right|exact B].
Qed.

Lemma z_threads_ok scale idx ths : 0 <= scale -> NoDup (map fst idx) -> NoDup (map snd idx) -> NoDup (map zt_name ths) ->
  Forall (z_sane scale) ths ->
  exists l, z_thread_metrics scale idx ths = Some l /\
    (forall t k, In t ths -> In (zt_name t, k) idx ->
       exists v, left_with k l = Some v /\ is_part (100 * scale) (zt_size t - zt_free t) (zt_size t) v) /\
    (forall n k, In (n, k) idx -> (forall t, In t ths -> zt_name t <> n) -> left_with k l = None).
Proof.
  intros Hs N1 N2 N3 F. induction ths as [|t ths IH].
  - exists []. split; [reflexivity|]. split; [intros t k []|]. reflexivity.
  - inversion N3 as [|x y M1 M2]; subst. inversion F as [|x y S F']; subst.
    destruct (IH M2 F') as (l & E & A & B). cbn [z_thread_metrics].
    destruct (z_find (zt_name t) idx) as [k0|] eqn:Z0.
    + destruct S as (S1 & S2 & S3 & S4).
      destruct (z_stack_ok scale (zt_size t) (zt_free t) Hs S1 S2 S3 S4) as (v & V & P).
      rewrite V, E. cbn [bind]. exists ((k0, v) :: l). split; [reflexivity|].
      pose proof (z_find_some _ _ _ Z0) as I0.
      assert (Q : left_with k0 l = None).
      { apply left_with_notin. intros K. destruct (z_keys scale idx ths l E k0 K) as (u & U1 & U2).
        apply M1. rewrite (key_inj idx _ _ k0 N2 I0 U2). now apply in_map. }
      split.
      * intros u k [U|U] K.
        -- subst u. assert (k = k0) by (pose proof (z_find_in _ _ _ N1 K); congruence). subst k.
           exists v. split; [|exact P]. cbn [left_with]. rewrite Q, Z.eqb_refl. reflexivity.
        -- destruct (A u k U K) as (w & W & PW). exists w. split; [|exact PW]. cbn [left_with]. rewrite W. reflexivity.
      * intros n k I NT. cbn [left_with]. rewrite (B n k I) by (intros u U; apply NT; now right).
        destruct (k0 =? k) eqn:EK; [|reflexivity]. apply Z.eqb_eq in EK. subst k.
        exfalso. apply (NT t); [now left|]. exact (key_inj idx _ _ k0 N2 I0 I).
    + exists l. split; [exact E|]. split.
      * intros u k [U|U] K; [|now apply A]. subst u. pose proof (z_find_in _ _ _ N1 K). congruence.
      * intros n k I NT. apply (B n k I). intros u U. apply NT. now right.
Qed.

(** Which task the metric of an entry is about: the one the entry's function gives, else the one of that
    name. *)
Definition fr_about (by_name : list Z -> option fr_task) (e : fr_entry) (t : option fr_task) : Prop :=
  (forall h, fe_handle e = Some h -> t = Some h) /\ (fe_handle e = None -> t = by_name (fe_name e)).

Lemma fr_keys st scale bn : forall idx l, fr_thread_metrics st scale bn idx = Some l ->
  forall k, In k (map fst l) -> In k (map fe_key idx).
Proof.
  induction idx as [|e idx IH]; cbn [fr_thread_metrics map]; intros l E k H.
  - injection E as <-. destruct H.
  - destruct (match fe_handle e with Some h => Some h | None => bn (fe_name e) end) as [t|].
    + destruct (fr_stack_pct st scale (ft_mark t) (ft_end t) (ft_base t)) as [v|]; [|discriminate].
      cbn [bind] in E. destruct (fr_thread_metrics st scale bn idx) as [l'|] eqn:E'; [|discriminate].
      cbn [bind] in E. injection E as <-. cbn [map fst] in H. destruct H as [H|H]; [now left|right; now apply (IH l')].
    + right. now apply (IH l).
Qed.

Lemma fr_threads_ok st scale bn idx l : NoDup (map fe_key idx) -> fr_thread_metrics st scale bn idx = Some l ->
  forall e t, In e idx -> fr_about bn e t ->
    left_with (fe_key e) l = match t with Some t => fr_stack_pct st scale (ft_mark t) (ft_end t) (ft_base t) | None => None end.
Proof.
  revert l. induction idx as [|e0 idx IH]; intros l N E e t I A; [destruct I|].
  inversion N as [|x y N1 N2]; subst. cbn [fr_thread_metrics] in E.
  assert (T : e = e0 -> t = match fe_handle e0 with Some h => Some h | None => bn (fe_name e0) end).
  { intros ->. destruct A as (A1 & A2). destruct (fe_handle e0); auto. }
  destruct (match fe_handle e0 with Some h => Some h | None => bn (fe_name e0) end) as [t0|] eqn:H0.
  - destruct (fr_stack_pct st scale (ft_mark t0) (ft_end t0) (ft_base t0)) as [v|] eqn:V; [|discriminate].
    cbn [bind] in E. destruct (fr_thread_metrics st scale bn idx) as [l'|] eqn:E'; [|discriminate].
    cbn [bind] in E. injection E as <-. cbn [left_with]. destruct I as [I|I].
    + subst e0. rewrite (T eq_refl). rewrite (left_with_notin (fe_key e) l').
      * rewrite Z.eqb_refl. now rewrite V.
      * intros K. apply N1. exact (fr_keys st scale bn idx l' E' _ K).
    + rewrite (IH l' N2 eq_refl e t I A).
      replace (fe_key e0 =? fe_key e) with false.
      * destruct t as [t|]; [destruct (fr_stack_pct st scale (ft_mark t) (ft_end t) (ft_base t)); reflexivity|reflexivity].
      * symmetry. apply Z.eqb_neq. intros K. apply N1. rewrite K. now apply in_map.
  - destruct I as [I|I]; [|now apply IH].
    subst e0. rewrite (T eq_refl). apply left_with_notin. intros K. apply N1. exact (fr_keys st scale bn idx l E _ K).
Qed.

(** ** Heap *)
Lemma f32_near z : 0 <= z -> Z.abs (f32 z - z) * 2^24 <= z.
Proof.
  intros Hz. unfold f32. destruct (z <? 2^24) eqn:E.
  - rewrite Z.sub_diag. cbn. lia.
  - apply Z.ltb_ge in E. set (p := 2 ^ (Z.log2 z - 23)).
    assert (L : 24 <= Z.log2 z) by (apply Z.log2_le_pow2; lia).
    assert (Hp : 0 < p) by (apply Z.pow_pos_nonneg; lia).
    assert (P : p * 2^23 <= z).
    { unfold p. rewrite <- Z.pow_add_r by lia. replace (Z.log2 z - 23 + 23) with (Z.log2 z) by lia.
      apply Z.log2_spec. lia. }
    pose proof (Z.div_mod z p ltac:(lia)) as D. pose proof (Z.mod_pos_bound z p Hp) as M.
    set (q := z / p) in *. set (r := z mod p) in *.
    assert (B : forall x, 2 * Z.abs (x - z) <= p -> Z.abs (x - z) * 2^24 <= z) by (intros; lia).
    destruct (2 * r <? p) eqn:E1; [apply B; nia|]. apply Z.ltb_ge in E1.
    destruct (p <? 2 * r) eqn:E2; [apply Z.ltb_lt in E2; apply B; nia|]. apply Z.ltb_ge in E2.
    destruct (Z.even q); apply B; nia.
Qed.

Lemma times_ok m : 0 <= m <= 429496 -> exists f, times_10000f m = Some f /\ Z.abs (f - 10000 * m) * 2^24 <= 10000 * m.
Proof.
  intros H. unfold times_10000f. replace (f32 m) with m.
  2:{ unfold f32. replace (m <? 2^24) with true by (symmetry; apply Z.ltb_lt; lia). reflexivity. }
  rewrite (Z.mul_comm m). pose proof (f32_near (10000 * m) ltac:(lia)) as N.
  replace (f32 (10000 * m) <? 2^32) with true by (symmetry; apply Z.ltb_lt; lia).
  eexists. split; [reflexivity|]. exact N.
Qed.

Lemma near_part f m t : 0 <= m <= t -> 0 < t -> Z.abs (f - 10000 * m) * 2^24 <= 10000 * m ->
  exists v, is_part 10000 m t v /\ Z.abs (f / t - v) <= 1 /\ 0 <= f / t <= 10000.
Proof.
  intros H H0 N. exists (10000 * m / t). split; [now apply is_part_div|].
  pose proof (Z.mul_div_le (10000 * m) t H0). pose proof (Z.mul_succ_div_gt (10000 * m) t H0).
  pose proof (Z.mul_div_le f t H0). pose proof (Z.mul_succ_div_gt f t H0).
  assert (0 <= f) by lia. assert (f < 10000 * m + m + 1) by lia.
  split.
  - apply Z.abs_le. split; nia.
  - split; [apply Z.div_pos; lia|]. assert (f / t < 10001); [|lia]. apply Z.div_lt_upper_bound; lia.
Qed.

Lemma z_heap_ok max_alloc free alloc : 0 <= free -> 0 <= alloc -> 0 < free + alloc < 2^32 -> 0 <= max_alloc <= free + alloc -> max_alloc <= 429496 ->
  exists r v, z_heap_pct max_alloc free alloc = Some r /\ is_part 10000 max_alloc (free + alloc) v /\ Z.abs (r - v) <= 1 /\ 0 <= r <= 10000.
Proof.
  intros H1 H2 H3 H4 H5. unfold z_heap_pct. destruct (times_ok max_alloc ltac:(lia)) as (f & E & N).
  rewrite E. cbn [bind]. rewrite u32_small by lia.
  replace (free + alloc =? 0) with false by (symmetry; apply Z.eqb_neq; lia).
  destruct (near_part f max_alloc (free + alloc)) as (v & A & B & D); [lia|lia|exact N|].
  exists (f / (free + alloc)), v. split; [reflexivity|]. auto.
Qed.

Lemma e_heap_ok min_free free alloc : 0 <= min_free <= free -> 0 <= alloc -> 0 < free + alloc < 2^32 -> free + alloc - min_free <= 429496 ->
  exists r v, e_heap_pct min_free free alloc = Some r /\ is_part 10000 (free + alloc - min_free) (free + alloc) v /\ Z.abs (r - v) <= 1 /\ 0 <= r <= 10000.
Proof.
  intros H1 H2 H3 H4. unfold e_heap_pct. rewrite (u32_small (free + alloc)) by lia. rewrite u32_small by lia.
  destruct (times_ok (free + alloc - min_free) ltac:(lia)) as (f & E & N).
  rewrite E. cbn [bind].
  replace (free + alloc =? 0) with false by (symmetry; apply Z.eqb_neq; lia).
  destruct (near_part f (free + alloc - min_free) (free + alloc)) as (v & A & B & D); [lia|lia|exact N|].
  exists (f / (free + alloc)), v. split; [reflexivity|]. auto.
Qed.

(** From 429497 bytes on the product does not fit into 32 bits. *)
Lemma times_overflow m : 429497 <= m < 2^32 -> times_10000f m = None.
Proof.
  intros H. unfold times_10000f. pose proof (f32_near m ltac:(lia)) as N1.
  assert (A : 429497 <= f32 m).
  { destruct (Z_lt_le_dec m (2^24)) as [K|K].
    - unfold f32. replace (m <? 2^24) with true by (symmetry; apply Z.ltb_lt; lia). lia.
    - lia. }
  pose proof (f32_near (f32 m * 10000) ltac:(lia)) as N2.
  destruct (Z_lt_le_dec (f32 m) 500000) as [K|K].
  - assert (B : 4294970000 - 257 <= f32 (f32 m * 10000)) by lia.
    replace (f32 (f32 m * 10000) <? 2^32) with false; [reflexivity|]. symmetry. apply Z.ltb_ge. lia.
  - replace (f32 (f32 m * 10000) <? 2^32) with false; [reflexivity|]. symmetry. apply Z.ltb_ge. lia.
Qed.

(** ** Temperature *)
Lemma z_temp_ok v1 v2 : -214748363 <= v1 <= 214748363 -> -1000000 < v2 < 1000000 -> 0 <= v1 * v2 ->
  exists rest, v1 * 1000000 + v2 = 100000 * z_temp v1 v2 + rest /\ Z.abs rest < 100000 /\ 0 <= rest * (v1 * 1000000 + v2).
Proof.
  intros H1 H2 H3. unfold z_temp.
  assert (Q : -10 < Z.quot v2 100000 < 10).
  { destruct (Z_lt_le_dec v2 0).
    - pose proof (Z.quot_opp_l v2 100000 ltac:(lia)). pose proof (Z.quot_div_nonneg (- v2) 100000 ltac:(lia) ltac:(lia)).
      assert (0 <= - v2 / 100000 < 10) by (split; [apply Z.div_pos; lia|apply Z.div_lt_upper_bound; lia]). lia.
    - pose proof (Z.quot_div_nonneg v2 100000 ltac:(lia) ltac:(lia)).
      assert (0 <= v2 / 100000 < 10) by (split; [apply Z.div_pos; lia|apply Z.div_lt_upper_bound; lia]). lia. }
  rewrite s32_small by lia.
  exists (Z.rem v2 100000). pose proof (Z.quot_rem v2 100000 ltac:(lia)) as D.
  split; [lia|].
  pose proof (Z.rem_bound_abs v2 100000 ltac:(lia)) as B.
  split; [lia|].
  pose proof (Z.rem_sign_mul v2 100000 ltac:(lia)) as SG. clear Q.
  destruct (Z.eq_dec (Z.rem v2 100000) 0) as [Z0|Z0]; [rewrite Z0; lia|].
  destruct (Z_lt_le_dec v2 0) as [N|N].
  - assert (Z.rem v2 100000 < 0) by nia. assert (v1 <= 0) by nia. nia.
  - assert (0 <= Z.rem v2 100000) by nia. assert (0 < v2 \/ v2 = 0) as [K|K] by lia.
    + assert (0 <= v1) by nia. nia.
    + subst v2. exfalso. apply Z0. reflexivity.
Qed.
