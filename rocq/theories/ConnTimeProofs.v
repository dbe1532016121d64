(** The connection metrics of the ports. *)
From Verif Require Import Base Metrics MetricsSpec MetricsProofs MetricsBuiltin MetricsBuiltinSpec MetricsBuiltinProofs ConnTime ConnTimeSpec.

Lemma am_run_cons defs timers a o ops rs a' : am_run defs timers a (o :: ops) = Some (rs, a') ->
  exists res a1 rs1, am_step defs timers a o = Some (res, a1) /\ am_run defs timers a1 ops = Some (rs1, a') /\ rs = res :: rs1.
Proof. intros H. cbn [am_run] in H. binv H. destruct v as [res a1]. binv H. destruct v as [rs1 a2]. injection H as <- <-. eauto 10. Qed.

Section Gen.
  Variables (defs : list mdef) (timers : list Z) (x : Z) (d : mdef) (h : Z).
  Hypothesis GX : get defs x = Some d.
  Hypothesis SX : md_session d = h.
  Variables (E S : Type) (ops : E -> Z -> list mop) (next : S -> E -> S) (P : S -> E -> Prop).

  (** ** Timers *)
  Definition on_timer (now : Z) (o : mop) : Prop := exists j, op_key o = Some j /\ (j = x -> o = OStart x now \/ o = OStop x now).
  Fixpoint tfold (b : bool) (l : list mop) : bool :=
    match l with
    | [] => b
    | OStart k _ :: r => tfold (if k =? x then true else b) r
    | OStop k _ :: r => tfold (if k =? x then false else b) r
    | _ :: r => tfold b r
    end.
  Lemma ops_timer (TX : md_type d = MTimer) now l : forall a rs a' run last acc v, Forall (on_timer now) l ->
    am_run defs timers a l = Some (rs, a') -> get a x = Some v -> trel run last acc v -> last <= now ->
    exists v', get a' x = Some v' /\ trel (tfold run l) now (acc + (if run then now - last else 0)) v'.
  Proof.
    induction l as [|o r IH]; intros a rs a' run last acc v F H G R L.
    { cbn in H. injection H as <- <-. exists v. split; [exact G|]. exact (trel_wait _ _ _ _ _ R L). }
    apply am_run_cons in H as (res & a1 & rs1 & E1 & E2 & ->). inv F. destruct H1 as (j & K & J). destruct (Z.eq_dec j x) as [->|N].
    - destruct (J eq_refl) as [-> | ->].
      + pose proof (step_start defs timers x d GX TX _ _ _ _ _ E1 G) as G1. pose proof (trel_start _ _ _ _ _ R L) as R1.
        destruct (IH _ _ _ _ _ _ _ H2 E2 G1 R1 (Z.le_refl _)) as (v' & G' & R'). exists v'. split; [exact G'|].
        cbn [tfold]. rewrite Z.eqb_refl. replace (acc + (if run then now - last else 0)) with (acc + (if run then now - last else 0) + (now - now)) by lia. exact R'.
      + destruct (step_stop defs timers x d GX TX _ _ _ _ _ E1 G) as (rv & v1 & ST & G1). pose proof (trel_stop _ _ _ _ _ _ _ R L ST) as R1.
        destruct (IH _ _ _ _ _ _ _ H2 E2 G1 R1 (Z.le_refl _)) as (v' & G' & R'). exists v'. split; [exact G'|].
        cbn [tfold]. rewrite Z.eqb_refl. replace (acc + (if run then now - last else 0)) with (acc + (if run then now - last else 0) + 0) by lia. exact R'.
    - assert (G1 : get a1 x = Some v) by (rewrite (am_frame _ _ _ _ _ _ _ x E1 K); [exact G|congruence]).
      destruct (IH _ _ _ _ _ _ _ H2 E2 G1 R L) as (v' & G' & R'). exists v'. split; [exact G'|].
      replace (tfold run (o :: r)) with (tfold run r); [exact R'|]. destruct o; try reflexivity; cbn in K; injection K as ->; cbn [tfold]; now replace (j =? x) with false by lia.
  Qed.
  Lemma keyed_all now l : Forall (on_timer now) l -> Forall (fun o => op_key o <> None) l.
  Proof. apply Forall_impl. intros o (j & K & _). congruence. Qed.
  Lemma timer_run (TX : md_type d = MTimer) good : mdefs_ok defs ->
    (forall e now, Forall (on_timer now) (ops e now)) ->
    (forall s e now, P s e -> tfold (good s) (ops e now) = good (next s e)) ->
    forall l s a st last acc rs a' v, mrel defs st a -> others [x] l -> in_order last l -> always next P s (events l) ->
    get a x = Some v -> trel (good s) last acc v -> am_run defs timers a (flat_map (hev_ops ops h) l) = Some (rs, a') ->
    reported (event_index h defs x) rs = shows (time_while next good s last acc l).
  Proof.
    intros MD OK ST. induction l as [|e l IH]; intros s a st last acc rs a' v M OT T AL G R H; cbn [flat_map] in H.
    { cbn in H. injection H as <- <-. reflexivity. }
    destruct (am_run_split _ _ _ _ _ _ _ H) as (r1 & a1 & r2 & E1 & E2 & ->). rewrite reported_app.
    destruct (me_run_ok defs timers MD _ _ _ _ _ M E1) as (s1 & _ & M1).
    assert (OT' : others [x] l) by (intros o IN; apply OT; right; exact IN).
    destruct e as [e now|now|o]; cbn [hev_ops in_order time_while events always] in *.
    - destruct T as [T1 T2]. destruct AL as [A1 A2].
      destruct (ops_timer TX now _ _ _ _ _ _ _ _ (OK e now) E1 G R T1) as (v' & G' & R').
      rewrite (keyed_run defs timers a (ops e now) r1 a1 _ (keyed_all _ _ (OK e now)) E1). cbn [app].
      rewrite (ST s e now A1) in R'. exact (IH _ _ _ _ _ _ _ _ M1 OT' T2 A2 G' R' E2).
    - destruct T as [T1 T2]. destruct (beat_inv _ _ _ _ _ _ _ E1) as (b & ET & EF & -> & ER).
      destruct (each_get _ _ _ _ _ _ _ EF GX G) as (v1 & V1 & G1).
      destruct (each_get _ _ _ _ _ _ _ ER GX G1) as (v2 & V2 & G2). rewrite SX, Z.eqb_refl in V2. injection V2 as <-.
      destruct (trel_force _ _ _ _ _ _ R T1 V1) as (R1 & SH & R2).
      destruct (me_run_ok defs timers MD _ _ _ _ _ M ET) as (sb & _ & MB).
      cbn [reported app]. unfold shows. cbn [map]. unfold event_index at 1. fold (pl (fun d => md_session d =? h) defs x).
      rewrite (items_get h defs b x d v1 (mr_len _ _ _ MB) GX G1 SX). unfold a_item. rewrite TX, SH. f_equal.
      exact (IH s a1 s1 now 0 r2 a' _ M1 OT' T2 AL G2 R2 E2).
    - destruct (OT o (or_introl eq_refl)) as (j & K & N). apply run1 in E1 as (res & E1 & ->).
      rewrite (keyed_no_items defs timers _ _ _ _ _ _ K E1). cbn [app].
      assert (G' : get a1 x = Some v) by (rewrite (am_frame _ _ _ _ _ _ _ x E1 K); [exact G|intros ->; apply N; left; reflexivity]).
      exact (IH s a1 s1 last acc r2 a' _ M1 OT' T AL G' R E2).
  Qed.

  (** ** Counters *)
  Definition on_count (o : mop) : Prop := exists j, op_key o = Some j /\ (j = x -> o = OAdd x 1).
  Fixpoint nfold (l : list mop) : Z := match l with [] => 0 | OAdd k _ :: r => (if k =? x then 1 else 0) + nfold r | _ :: r => nfold r end.
  Definition crel (n : Z) (v : aval) : Prop := 0 <= n /\ v = AInt (if n =? 0 then None else Some (Z.min n 4294967295)).
  Lemma ops_count (TX : md_type d = MUnsigned) l : forall a rs a' n v, Forall on_count l ->
    am_run defs timers a l = Some (rs, a') -> get a x = Some v -> crel n v -> exists v', get a' x = Some v' /\ crel (n + nfold l) v'.
  Proof.
    induction l as [|o r IH]; intros a rs a' n v F H G R.
    { cbn in H. injection H as <- <-. exists v. split; [exact G|]. cbn. now rewrite Z.add_0_r. }
    apply am_run_cons in H as (res & a1 & rs1 & E1 & E2 & ->). inv F. destruct H1 as (j & K & J). destruct (Z.eq_dec j x) as [->|N].
    - rewrite (J eq_refl) in E1 |- *. cbn [am_step in_s32] in E1. change (in_s32 1) with true in E1. cbv iota in E1.
      unfold am_get in E1. rewrite GX, G in E1. destruct R as [R0 ->]. rewrite TX in E1. injection E1 as <- <-.
      destruct (IH _ _ _ (n + 1) _ H2 E2 (am_put_here _ _ _ _ G)) as (v' & G' & R').
      { split; [lia|]. replace (n + 1 =? 0) with false by lia. unfold clamp. do 2 f_equal. destruct (n =? 0) eqn:Z0; unfold or0; lia. }
      exists v'. split; [exact G'|]. cbn [nfold]. rewrite Z.eqb_refl. replace (n + (1 + nfold r)) with (n + 1 + nfold r) by lia. exact R'.
    - assert (G1 : get a1 x = Some v) by (rewrite (am_frame _ _ _ _ _ _ _ x E1 K); [exact G|congruence]).
      destruct (IH _ _ _ _ _ H2 E2 G1 R) as (v' & G' & R'). exists v'. split; [exact G'|].
      replace (nfold (o :: r)) with (nfold r); [exact R'|]. destruct o; try reflexivity; cbn in K; injection K as ->; cbn [nfold]; now replace (j =? x) with false by lia.
  Qed.
  Lemma keyed_count l : Forall on_count l -> Forall (fun o => op_key o <> None) l.
  Proof. apply Forall_impl. intros o (j & K & _). congruence. Qed.
  Lemma count_run (TX : md_type d = MUnsigned) (counts : S -> E -> bool) : mdefs_ok defs ->
    (forall e now, Forall on_count (ops e now)) ->
    (forall s e now, P s e -> nfold (ops e now) = if counts s e then 1 else 0) ->
    forall l s a st n rs a' v, mrel defs st a -> others [x] l -> always next P s (events l) ->
    get a x = Some v -> crel n v -> am_run defs timers a (flat_map (hev_ops ops h) l) = Some (rs, a') ->
    reported (event_index h defs x) rs = counted (times_that next counts s n l).
  Proof.
    intros MD OK ST. induction l as [|e l IH]; intros s a st n rs a' v M OT AL G R H; cbn [flat_map] in H.
    { cbn in H. injection H as <- <-. reflexivity. }
    destruct (am_run_split _ _ _ _ _ _ _ H) as (r1 & a1 & r2 & E1 & E2 & ->). rewrite reported_app.
    destruct (me_run_ok defs timers MD _ _ _ _ _ M E1) as (s1 & _ & M1).
    assert (OT' : others [x] l) by (intros o IN; apply OT; right; exact IN).
    destruct e as [e now|now|o]; cbn [hev_ops times_that events always] in *.
    - destruct AL as [A1 A2]. destruct (ops_count TX _ _ _ _ _ _ (OK e now) E1 G R) as (v' & G' & R').
      rewrite (keyed_run defs timers a (ops e now) r1 a1 _ (keyed_count _ (OK e now)) E1). cbn [app].
      rewrite (ST s e now A1) in R'. refine (IH _ _ _ _ _ _ _ M1 OT' A2 G' _ E2). destruct (counts s e); [exact R'|]. now rewrite Z.add_0_r in R'.
    - destruct (beat_inv _ _ _ _ _ _ _ E1) as (b & ET & EF & -> & ER).
      destruct (each_get _ _ _ _ _ _ _ EF GX G) as (v1 & V1 & G1).
      destruct (each_get _ _ _ _ _ _ _ ER GX G1) as (v2 & V2 & G2). rewrite SX, Z.eqb_refl in V2. injection V2 as <-.
      destruct R as [R0 ->]. cbn [a_force] in V1. injection V1 as <-.
      destruct (me_run_ok defs timers MD _ _ _ _ _ M ET) as (sb & _ & MB).
      cbn [reported app]. unfold counted. cbn [map]. unfold event_index at 1. fold (pl (fun d => md_session d =? h) defs x).
      rewrite (items_get h defs b x d _ (mr_len _ _ _ MB) GX G1 SX). unfold a_item. rewrite TX. f_equal; [destruct (n =? 0); reflexivity|].
      refine (IH s a1 s1 0 r2 a' _ M1 OT' AL G2 _ E2). split; [lia|reflexivity].
    - destruct (OT o (or_introl eq_refl)) as (j & K & N). apply run1 in E1 as (res & E1 & ->).
      rewrite (keyed_no_items defs timers _ _ _ _ _ _ K E1). cbn [app].
      assert (G' : get a1 x = Some v) by (rewrite (am_frame _ _ _ _ _ _ _ x E1 K); [exact G|intros ->; apply N; left; reflexivity]).
      exact (IH s a1 s1 n r2 a' _ M1 OT' AL G' R E2).
  Qed.
End Gen.

Lemma timer_init defs i d : get defs i = Some d -> md_type d = MTimer -> get (am_init defs) i = Some (ATimer 0 None).
Proof. intros G TY. unfold am_init. rewrite (get_map a_init _ _ _ G). unfold a_init. now rewrite TY. Qed.
Lemma count_init defs i d : get defs i = Some d -> md_type d = MUnsigned -> get (am_init defs) i = Some (AInt None).
Proof. intros G TY. unfold am_init. rewrite (get_map a_init _ _ _ G). unfold a_init. now rewrite TY. Qed.
Lemma others_one {E} keys x (l : list (hev E)) : others keys l -> In x keys -> others [x] l.
Proof. intros O I o IN. destruct (O o IN) as (j & K & N). exists j. split; [exact K|]. intros [<-|[]]. exact (N I). Qed.

(** What is said of a metric from boot. *)
Definition says_time {E S} (defs : list mdef) (timers : list Z) (h : Z) (ops : E -> Z -> list mop) (next : S -> E -> S) (P : S -> E -> Prop) (good : S -> bool) (s0 : S) (x : Z) : Prop :=
  forall l rs a, others [x] l -> in_order 0 l -> always next P s0 (events l) ->
  am_run defs timers (am_init defs) (flat_map (hev_ops ops h) l) = Some (rs, a) ->
  reported (event_index h defs x) rs = shows (time_while next good s0 0 0 l).
Lemma timer_boot {E S} defs timers h x d (ops : E -> Z -> list mop) (next : S -> E -> S) (P : S -> E -> Prop) (good : S -> bool) s0 : mdefs_ok defs ->
  get defs x = Some d -> md_type d = MTimer -> md_session d = h -> good s0 = false ->
  (forall e now, Forall (on_timer x now) (ops e now)) ->
  (forall s e now, P s e -> tfold x (good s) (ops e now) = good (next s e)) -> says_time defs timers h ops next P good s0 x.
Proof.
  intros MD G T SX G0 OK ST l rs a OT IO AL H.
  refine (timer_run defs timers x d h G SX E S ops next P T good MD OK ST l s0 _ _ 0 0 rs a _ (me_init_ok defs MD) OT IO AL (timer_init _ _ _ G T) _ H).
  rewrite G0. cbn. auto.
Qed.
Definition says_count {E S} (defs : list mdef) (timers : list Z) (h : Z) (ops : E -> Z -> list mop) (next : S -> E -> S) (P : S -> E -> Prop) (counts : S -> E -> bool) (s0 : S) (x : Z) : Prop :=
  forall l rs a, others [x] l -> always next P s0 (events l) ->
  am_run defs timers (am_init defs) (flat_map (hev_ops ops h) l) = Some (rs, a) ->
  reported (event_index h defs x) rs = counted (times_that next counts s0 0 l).
Lemma count_boot {E S} defs timers h x d (ops : E -> Z -> list mop) (next : S -> E -> S) (P : S -> E -> Prop) (counts : S -> E -> bool) s0 : mdefs_ok defs ->
  get defs x = Some d -> md_type d = MUnsigned -> md_session d = h ->
  (forall e now, Forall (on_count x) (ops e now)) ->
  (forall s e now, P s e -> nfold x (ops e now) = if counts s e then 1 else 0) -> says_count defs timers h ops next P counts s0 x.
Proof.
  intros MD G T SX OK ST l rs a OT AL H.
  refine (count_run defs timers x d h G SX E S ops next P T counts MD OK ST l s0 _ _ 0 rs a _ (me_init_ok defs MD) OT AL (count_init _ _ _ G T) _ H).
  split; [lia|reflexivity].
Qed.

Ltac keyed := repeat (apply Forall_cons; [eexists; split; [reflexivity|let Y := fresh in intros Y; first [reflexivity | left; reflexivity | right; reflexivity | now (left; rewrite Y) | now (right; rewrite Y) | now rewrite Y | exfalso; intuition congruence]]|]); apply Forall_nil.
Ltac eqbs := repeat match goal with |- context [?a =? ?a] => rewrite (Z.eqb_refl a) | H : ?a <> ?b |- context [?a =? ?b] => rewrite (proj2 (Z.eqb_neq a b) H) | H : ?b <> ?a |- context [?a =? ?b] => rewrite (proj2 (Z.eqb_neq a b) (not_eq_sym H)) end.

(** ** LTE *)
Lemma lte_keyed cfun k x : bk_expected k = x \/ bk_connected k = x -> bk_expected k <> bk_connected k -> forall e now, Forall (on_timer x now) (lte_ops cfun k e now).
Proof.
  intros X N e now. unfold lte_ops. destruct (lte_state cfun e) as [[]|]; cbn [conn_change]; [| | | |constructor];
  repeat (constructor; [eexists; split; [reflexivity|]; intros <-; auto|]); constructor.
Qed.
Section Lte.
  Variables (defs : list mdef) (timers : list Z) (k : bkeys) (h : Z) (d1 d2 : mdef).
  Hypothesis MD : mdefs_ok defs.
  Hypothesis N : bk_expected k <> bk_connected k.
  Hypothesis G1 : get defs (bk_expected k) = Some d1.
  Hypothesis T1 : md_type d1 = MTimer.
  Hypothesis S1 : md_session d1 = h.
  Hypothesis G2 : get defs (bk_connected k) = Some d2.
  Hypothesis T2 : md_type d2 = MTimer.
  Hypothesis S2 : md_session d2 = h.
  Lemma lte_connected : says_time defs timers h (lte_ops true k) modem_next no_uicc_on registered modem0 (bk_connected k).
  Proof.
    apply (timer_boot _ _ _ _ d2); try assumption; try reflexivity; [apply lte_keyed; auto|].
    intros s e now A. destruct e as [[]|[]]; cbn -[Z.eqb]; eqbs; try reflexivity. elim A. reflexivity.
  Qed.
  Lemma lte_expected : says_time defs timers h (lte_ops true k) modem_next (fun s e => no_uicc_on s e /\ silent_off s e) on modem0 (bk_expected k).
  Proof.
    apply (timer_boot _ _ _ _ d1); try assumption; try reflexivity; [apply lte_keyed; auto|].
    intros s e now [A B]. destruct e as [[]|[]]; cbn -[Z.eqb] in *; eqbs; try reflexivity; try (symmetry; exact B). elim A. reflexivity.
  Qed.
  Lemma lte_old_expected : says_time defs timers h (lte_ops false k) news (fun _ _ => True) (fun b => b) false (bk_expected k).
  Proof.
    apply (timer_boot _ _ _ _ d1); try assumption; try reflexivity; [apply lte_keyed; auto|].
    intros s e now _. destruct e as [[]|[]]; cbn -[Z.eqb] in *; eqbs; reflexivity.
  Qed.
End Lte.

(** ** Wi-Fi *)
Section Wifi.
  Variables (defs : list mdef) (timers : list Z) (w : wkeys) (k : bkeys) (h : Z) (d1 d2 d3 d4 : mdef).
  Hypothesis MD : mdefs_ok defs.
  Hypothesis N : NoDup [wk_time w; wk_count w; bk_expected k; bk_connected k].
  Hypothesis G1 : get defs (bk_expected k) = Some d1.
  Hypothesis T1 : md_type d1 = MTimer.
  Hypothesis S1 : md_session d1 = h.
  Hypothesis G2 : get defs (bk_connected k) = Some d2.
  Hypothesis T2 : md_type d2 = MTimer.
  Hypothesis S2 : md_session d2 = h.
  Hypothesis G3 : get defs (wk_time w) = Some d3.
  Hypothesis T3 : md_type d3 = MTimer.
  Hypothesis S3 : md_session d3 = h.
  Hypothesis G4 : get defs (wk_count w) = Some d4.
  Hypothesis T4 : md_type d4 = MUnsigned.
  Hypothesis S4 : md_session d4 = h.
  Lemma wifi_ne : wk_time w <> wk_count w /\ wk_time w <> bk_expected k /\ wk_time w <> bk_connected k /\ wk_count w <> bk_expected k /\
    wk_count w <> bk_connected k /\ bk_expected k <> bk_connected k.
  Proof using N. clear - N. inv N. inv H2. inv H4. cbn in *. intuition congruence. Qed.
  Lemma wifi_time_keyed conn x : x = wk_time w \/ x = bk_expected k \/ x = bk_connected k -> forall e now, Forall (on_timer x now) (wifi_ops conn w k e now).
  Proof using N. clear - N.
    intros X e now. destruct wifi_ne as (N1 & N2 & N3 & N4 & N5 & N6). destruct e, conn; cbn [wifi_ops conn_change]; keyed.
  Qed.
  Lemma wifi_connected : says_time defs timers h (wifi_ops true w k) station_next driver associated station0 (bk_connected k).
  Proof using MD N G2 T2 S2. clear - MD N G2 T2 S2.
    destruct wifi_ne as (N1 & N2 & N3 & N4 & N5 & N6).
    apply (timer_boot _ _ _ _ d2); try assumption; try reflexivity; [apply wifi_time_keyed; auto|].
    intros s e now A. destruct e; cbn -[Z.eqb] in *; eqbs; try reflexivity. exact A.
  Qed.
  Lemma wifi_time conn : says_time defs timers h (wifi_ops conn w k) station_next driver associated station0 (wk_time w).
  Proof using MD N G3 T3 S3. clear - MD N G3 T3 S3.
    destruct wifi_ne as (N1 & N2 & N3 & N4 & N5 & N6).
    apply (timer_boot _ _ _ _ d3); try assumption; try reflexivity; [apply wifi_time_keyed; auto|].
    intros s e now A. destruct e, conn; cbn -[Z.eqb] in *; eqbs; try reflexivity; exact A.
  Qed.
  Lemma wifi_expected : says_time defs timers h (wifi_ops true w k) station_next (fun s e => driver s e /\ never_stops s e) started station0 (bk_expected k).
  Proof using MD N G1 T1 S1. clear - MD N G1 T1 S1.
    destruct wifi_ne as (N1 & N2 & N3 & N4 & N5 & N6).
    apply (timer_boot _ _ _ _ d1); try assumption; try reflexivity; [apply wifi_time_keyed; auto|].
    intros s e now [A B]. destruct e; cbn -[Z.eqb] in *; eqbs; try reflexivity; try (symmetry; exact A). elim B. reflexivity.
  Qed.
  Lemma wifi_count conn : says_count defs timers h (wifi_ops conn w k) station_next (fun _ _ => True) disconnected station0 (wk_count w).
  Proof using MD N G4 T4 S4. clear - MD N G4 T4 S4.
    destruct wifi_ne as (N1 & N2 & N3 & N4 & N5 & N6).
    apply (count_boot _ _ _ _ d4); try assumption.
    - intros e now. destruct e, conn; cbn [wifi_ops conn_change]; keyed.
    - intros s e now _. destruct e, conn; cbn -[Z.eqb] in *; eqbs; reflexivity.
  Qed.
End Wifi.

(** ** Particle *)
Section Cloud.
  Variables (defs : list mdef) (timers : list Z) (k : pkeys) (h : Z) (d1 d2 d3 d4 : mdef).
  Hypothesis MD : mdefs_ok defs.
  Hypothesis N : NoDup [pk_connecting k; pk_connected k; pk_connects k; pk_disconnects k].
  Hypothesis G1 : get defs (pk_connecting k) = Some d1.
  Hypothesis T1 : md_type d1 = MTimer.
  Hypothesis S1 : md_session d1 = h.
  Hypothesis G2 : get defs (pk_connected k) = Some d2.
  Hypothesis T2 : md_type d2 = MTimer.
  Hypothesis S2 : md_session d2 = h.
  Hypothesis G3 : get defs (pk_connects k) = Some d3.
  Hypothesis T3 : md_type d3 = MUnsigned.
  Hypothesis S3 : md_session d3 = h.
  Hypothesis G4 : get defs (pk_disconnects k) = Some d4.
  Hypothesis T4 : md_type d4 = MUnsigned.
  Hypothesis S4 : md_session d4 = h.
  Lemma cloud_ne : pk_connecting k <> pk_connected k /\ pk_connecting k <> pk_connects k /\ pk_connecting k <> pk_disconnects k /\
    pk_connected k <> pk_connects k /\ pk_connected k <> pk_disconnects k /\ pk_connects k <> pk_disconnects k.
  Proof using N. clear - N. inv N. inv H2. inv H4. cbn in *. intuition congruence. Qed.
  Lemma cloud_connecting : says_time defs timers h (cloud_ops k) link_next (fun _ _ => True) is_connecting Off (pk_connecting k).
  Proof using MD N G1 T1 S1. clear - MD N G1 T1 S1.
    destruct cloud_ne as (N1 & N2 & N3 & N4 & N5 & N6). apply (timer_boot _ _ _ _ d1); try assumption; try reflexivity.
    - intros e now. destruct e; cbn [cloud_ops]; keyed.
    - intros s e now _. destruct e; cbn -[Z.eqb] in *; eqbs; reflexivity.
  Qed.
  Lemma cloud_connected : says_time defs timers h (cloud_ops k) link_next no_reconnect is_online Off (pk_connected k).
  Proof using MD N G2 T2 S2. clear - MD N G2 T2 S2.
    destruct cloud_ne as (N1 & N2 & N3 & N4 & N5 & N6). apply (timer_boot _ _ _ _ d2); try assumption; try reflexivity.
    - intros e now. destruct e; cbn [cloud_ops]; keyed.
    - intros s e now A. destruct e; cbn -[Z.eqb] in *; eqbs; try reflexivity. destruct s; try reflexivity. elim (A eq_refl eq_refl).
  Qed.
  Lemma cloud_connects : says_count defs timers h (cloud_ops k) link_next (fun _ _ => True) connects Off (pk_connects k).
  Proof using MD N G3 T3 S3. clear - MD N G3 T3 S3.
    destruct cloud_ne as (N1 & N2 & N3 & N4 & N5 & N6). apply (count_boot _ _ _ _ d3); try assumption.
    - intros e now. destruct e; cbn [cloud_ops]; keyed.
    - intros s e now _. destruct e; cbn -[Z.eqb] in *; eqbs; reflexivity.
  Qed.
  Lemma cloud_disconnects : says_count defs timers h (cloud_ops k) link_next (fun _ _ => True) disconnects Off (pk_disconnects k).
  Proof using MD N G4 T4 S4. clear - MD N G4 T4 S4.
    destruct cloud_ne as (N1 & N2 & N3 & N4 & N5 & N6). apply (count_boot _ _ _ _ d4); try assumption.
    - intros e now. destruct e; cbn [cloud_ops]; keyed.
    - intros s e now _. destruct e; cbn -[Z.eqb] in *; eqbs; reflexivity.
  Qed.
End Cloud.

(** ** In the words of the specification *)
Lemma reports_time {E S} defs timers h (ops : E -> Z -> list mop) (next : S -> E -> S) P good s0 x keys l : mdefs_ok defs ->
  says_time defs timers h ops next P good s0 x -> others keys l -> In x keys -> in_order 0 l -> always next P s0 (events l) ->
  reports defs timers h ops l x (shows (time_while next good s0 0 0 l)).
Proof.
  intros MD SY OT IN IO AL rs a H. destruct (metrics_run defs timers _ _ _ MD H) as (s & R). exists s. split; [exact R|].
  exact (SY l rs a (others_one _ _ _ OT IN) IO AL H).
Qed.
Lemma reports_count {E S} defs timers h (ops : E -> Z -> list mop) (next : S -> E -> S) P counts s0 x keys l : mdefs_ok defs ->
  says_count defs timers h ops next P counts s0 x -> others keys l -> In x keys -> always next P s0 (events l) ->
  reports defs timers h ops l x (counted (times_that next counts s0 0 l)).
Proof.
  intros MD SY OT IN AL rs a H. destruct (metrics_run defs timers _ _ _ MD H) as (s & R). exists s. split; [exact R|].
  exact (SY l rs a (others_one _ _ _ OT IN) AL H).
Qed.
Lemma always_true {E S} (next : S -> E -> S) (l : list E) : forall s, always next (fun _ _ => True) s l.
Proof. induction l as [|e r IH]; intros s; cbn; auto. Qed.
Lemma always_and {E S} (next : S -> E -> S) (P Q : S -> E -> Prop) (l : list E) : forall s, always next P s l -> always next Q s l -> always next (fun s e => P s e /\ Q s e) s l.
Proof. induction l as [|e r IH]; intros s; cbn; auto. intros [] []. auto. Qed.

Lemma lte_metrics defs timers k h l : mdefs_ok defs -> bk_expected k <> bk_connected k ->
  is_timer defs h (bk_expected k) -> is_timer defs h (bk_connected k) ->
  others [bk_expected k; bk_connected k] l -> in_order 0 l -> always modem_next no_uicc_on modem0 (events l) ->
  reports defs timers h (lte_ops true k) l (bk_connected k) (shows (time_while modem_next registered modem0 0 0 l)) /\
  (always modem_next silent_off modem0 (events l) ->
   reports defs timers h (lte_ops true k) l (bk_expected k) (shows (time_while modem_next on modem0 0 0 l))).
Proof.
  intros MD N (d1 & G1 & T1 & S1) (d2 & G2 & T2 & S2) OT IO A. split; [|intros B].
  - exact (reports_time _ _ _ _ _ _ _ _ _ _ l MD (lte_connected defs timers k h d2 MD N G2 T2 S2) OT (or_intror (or_introl eq_refl)) IO A).
  - exact (reports_time _ _ _ _ _ _ _ _ _ _ l MD (lte_expected defs timers k h d1 MD N G1 T1 S1) OT (or_introl eq_refl) IO (always_and _ _ _ _ _ A B)).
Qed.
Lemma lte_old defs timers k h l : mdefs_ok defs -> bk_expected k <> bk_connected k -> is_timer defs h (bk_expected k) ->
  others [bk_expected k; bk_connected k] l -> in_order 0 l ->
  reports defs timers h (lte_ops false k) l (bk_expected k) (shows (time_while news (fun b => b) false 0 0 l)).
Proof.
  intros MD N (d1 & G1 & T1 & S1) OT IO.
  exact (reports_time _ _ _ _ _ _ _ _ _ _ l MD (lte_old_expected defs timers k h d1 MD N G1 T1 S1) OT (or_introl eq_refl) IO (always_true _ _ _)).
Qed.
Lemma wifi_metrics defs timers w k h l : mdefs_ok defs -> NoDup [wk_time w; wk_count w; bk_expected k; bk_connected k] ->
  is_timer defs h (wk_time w) -> is_counter defs h (wk_count w) -> is_timer defs h (bk_expected k) -> is_timer defs h (bk_connected k) ->
  others [wk_time w; wk_count w; bk_expected k; bk_connected k] l -> in_order 0 l ->
  reports defs timers h (wifi_ops true w k) l (wk_count w) (counted (times_that station_next disconnected station0 0 l)) /\
  (always station_next driver station0 (events l) ->
   reports defs timers h (wifi_ops true w k) l (wk_time w) (shows (time_while station_next associated station0 0 0 l)) /\
   reports defs timers h (wifi_ops true w k) l (bk_connected k) (shows (time_while station_next associated station0 0 0 l)) /\
   (always station_next never_stops station0 (events l) ->
    reports defs timers h (wifi_ops true w k) l (bk_expected k) (shows (time_while station_next started station0 0 0 l)))).
Proof.
  intros MD N (d3 & G3 & T3 & S3) (d4 & G4 & T4 & S4) (d1 & G1 & T1 & S1) (d2 & G2 & T2 & S2) OT IO.
  split; [|intros A; split; [|split; [|intros B]]].
  - exact (reports_count _ _ _ _ _ _ _ _ _ _ l MD (wifi_count defs timers w k h d4 MD N G4 T4 S4 true) OT (or_intror (or_introl eq_refl)) (always_true _ _ _)).
  - exact (reports_time _ _ _ _ _ _ _ _ _ _ l MD (wifi_time defs timers w k h d3 MD N G3 T3 S3 true) OT (or_introl eq_refl) IO A).
  - exact (reports_time _ _ _ _ _ _ _ _ _ _ l MD (wifi_connected defs timers w k h d2 MD N G2 T2 S2) OT (or_intror (or_intror (or_intror (or_introl eq_refl)))) IO A).
  - exact (reports_time _ _ _ _ _ _ _ _ _ _ l MD (wifi_expected defs timers w k h d1 MD N G1 T1 S1) OT (or_intror (or_intror (or_introl eq_refl))) IO (always_and _ _ _ _ _ A B)).
Qed.
Lemma wifi_alone defs timers w k h l : mdefs_ok defs -> NoDup [wk_time w; wk_count w; bk_expected k; bk_connected k] ->
  is_timer defs h (wk_time w) -> is_counter defs h (wk_count w) ->
  others [wk_time w; wk_count w] l -> in_order 0 l ->
  reports defs timers h (wifi_ops false w k) l (wk_count w) (counted (times_that station_next disconnected station0 0 l)) /\
  (always station_next driver station0 (events l) ->
   reports defs timers h (wifi_ops false w k) l (wk_time w) (shows (time_while station_next associated station0 0 0 l))).
Proof.
  intros MD N (d3 & G3 & T3 & S3) (d4 & G4 & T4 & S4) OT IO. split; [|intros A].
  - exact (reports_count _ _ _ _ _ _ _ _ _ _ l MD (wifi_count defs timers w k h d4 MD N G4 T4 S4 false) OT (or_intror (or_introl eq_refl)) (always_true _ _ _)).
  - exact (reports_time _ _ _ _ _ _ _ _ _ _ l MD (wifi_time defs timers w k h d3 MD N G3 T3 S3 false) OT (or_introl eq_refl) IO A).
Qed.
Lemma cloud_metrics defs timers k h l : mdefs_ok defs -> NoDup [pk_connecting k; pk_connected k; pk_connects k; pk_disconnects k] ->
  is_timer defs h (pk_connecting k) -> is_timer defs h (pk_connected k) -> is_counter defs h (pk_connects k) -> is_counter defs h (pk_disconnects k) ->
  others [pk_connecting k; pk_connected k; pk_connects k; pk_disconnects k] l -> in_order 0 l ->
  reports defs timers h (cloud_ops k) l (pk_connecting k) (shows (time_while link_next is_connecting Off 0 0 l)) /\
  (always link_next no_reconnect Off (events l) ->
   reports defs timers h (cloud_ops k) l (pk_connected k) (shows (time_while link_next is_online Off 0 0 l))) /\
  reports defs timers h (cloud_ops k) l (pk_connects k) (counted (times_that link_next connects Off 0 l)) /\
  reports defs timers h (cloud_ops k) l (pk_disconnects k) (counted (times_that link_next disconnects Off 0 l)).
Proof.
  intros MD N (d1 & G1 & T1 & S1) (d2 & G2 & T2 & S2) (d3 & G3 & T3 & S3) (d4 & G4 & T4 & S4) OT IO.
  split; [|split; [intros A|split]].
  - exact (reports_time _ _ _ _ _ _ _ _ _ _ l MD (cloud_connecting defs timers k h d1 MD N G1 T1 S1) OT (or_introl eq_refl) IO (always_true _ _ _)).
  - exact (reports_time _ _ _ _ _ _ _ _ _ _ l MD (cloud_connected defs timers k h d2 MD N G2 T2 S2) OT (or_intror (or_introl eq_refl)) IO A).
  - exact (reports_count _ _ _ _ _ _ _ _ _ _ l MD (cloud_connects defs timers k h d3 MD N G3 T3 S3) OT (or_intror (or_intror (or_introl eq_refl))) (always_true _ _ _)).
  - exact (reports_count _ _ _ _ _ _ _ _ _ _ l MD (cloud_disconnects defs timers k h d4 MD N G4 T4 S4) OT (or_intror (or_intror (or_intror (or_introl eq_refl)))) (always_true _ _ _)).
Qed.
