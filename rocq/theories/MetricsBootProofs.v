From Verif Require Import Base Metrics MetricsSpec MetricsProofs Reboot RebootSpec RebootProofs MetricsBoot MetricsBootSpec.

(** ** The device of two systems related step by step *)
Section Sim.
Context {M1 M2 R1 R2 : Type} (m1 : M1 -> mop -> option (mres * M1)) (m2 : M2 -> mop -> option (mres * M2))
  (r1 : R1 -> rt_op -> option (rt_res * R1)) (r2 : R2 -> rt_op -> option (rt_res * R2))
  (RM : M1 -> M2 -> Prop) (RR : R1 -> R2 -> Prop)
  (MS : forall o s a r a', RM s a -> m2 a o = Some (r, a') -> exists s', m1 s o = Some (r, s') /\ RM s' a')
  (RS : forall o s v r v', rt_op_ok o -> RR s v -> r2 v o = Some (r, v') -> exists s', r1 s o = Some (r, s') /\ RR s' v')
  (cfg : mb_cfg).
Definition both (s : M1 * R1) (a : M2 * R2) : Prop := RM (fst s) (fst a) /\ RR (snd s) (snd a).

Lemma met_sim o s a r a' : both s a -> mb_met m2 a o = Some (r, a') -> exists s', mb_met m1 s o = Some (r, s') /\ both s' a'.
Proof.
  intros (A & B) H. unfold mb_met in *. destruct (m2 (fst a) o) as [(x & y)|] eqn:E; [|discriminate].
  cbn [bind fst snd] in H. injection H as <- <-. destruct (MS _ _ _ _ _ A E) as (s' & F & K). rewrite F. cbn [bind fst snd].
  exists (s', snd s). split; [reflexivity|split; assumption].
Qed.
Lemma trk_sim o s a r a' : rt_op_ok o -> both s a -> mb_trk r2 a o = Some (r, a') -> exists s', mb_trk r1 s o = Some (r, s') /\ both s' a'.
Proof.
  intros O (A & B) H. unfold mb_trk in *. destruct (r2 (snd a) o) as [(x & y)|] eqn:E; [|discriminate].
  cbn [bind fst snd] in H. injection H as <- <-. destruct (RS _ _ _ _ _ O B E) as (s' & F & K). rewrite F. cbn [bind fst snd].
  exists (fst s, s'). split; [reflexivity|split; assumption].
Qed.
Lemma start_sim s a k t now r a' : both s a -> mb_start m2 r2 a k t now = Some (r, a') ->
  exists s', mb_start m1 r1 s k t now = Some (r, s') /\ both s' a'.
Proof.
  intros B H. unfold mb_start in *. destruct (mb_met m2 a _) as [(x & y)|] eqn:E in H; [|discriminate]. cbn [bind fst snd] in H.
  destruct (met_sim _ _ _ _ _ B E) as (s1 & F1 & B1). rewrite F1. cbn [bind fst snd].
  destruct (mb_trk r2 y _) as [(u & w)|] eqn:E2 in H; [|discriminate]. cbn [bind fst snd] in H. injection H as <- <-.
  destruct (trk_sim (TSession true k) s1 _ _ _ I B1 E2) as (s2 & F2 & B2). rewrite F2. exists s2. split; [reflexivity|exact B2].
Qed.
Lemma end_sim s a k t now st r a' : both s a -> mb_end m2 r2 a k t now st = Some (r, a') ->
  exists s', mb_end m1 r1 s k t now st = Some (r, s') /\ both s' a'.
Proof.
  intros B H. unfold mb_end in *. destruct (mb_met m2 a _) as [(x & y)|] eqn:E in H; [|discriminate]. cbn [bind fst snd] in H.
  destruct (met_sim _ _ _ _ _ B E) as (s1 & F1 & B1). rewrite F1. cbn [bind fst snd].
  destruct (mb_trk r2 y _) as [(u & w)|] eqn:E2 in H; [|discriminate]. cbn [bind fst snd] in H. injection H as <- <-.
  destruct (trk_sim (TSession false k) s1 _ _ _ I B1 E2) as (s2 & F2 & B2). rewrite F2. exists s2. split; [reflexivity|exact B2].
Qed.
Lemma check_sim now st : forall n k asked s a ev a', both s a -> mb_check m2 r2 cfg n k asked now st a = Some (ev, a') ->
  exists s', mb_check m1 r1 cfg n k asked now st s = Some (ev, s') /\ both s' a'.
Proof.
  induction n as [|n IH]; intros k asked s a ev a' B H.
  - injection H as <- <-. exists s. split; [reflexivity|exact B].
  - cbn [mb_check] in *.
    assert (X : exists u a1, (if asked then Some (TBool true, a) else mb_trk r2 a TUnexpected) = Some (u, a1)).
    { destruct (if asked then _ else _) as [(u & a1)|]; [eauto|discriminate]. }
    destruct X as (u & a1 & X). rewrite X in H. cbn [bind fst snd] in H.
    assert (Y : exists s1, (if asked then Some (TBool true, s) else mb_trk r1 s TUnexpected) = Some (u, s1) /\ both s1 a1).
    { destruct asked; [injection X as <- <-; exists s; split; [reflexivity|exact B]|]. exact (trk_sim TUnexpected _ _ _ _ I B X). }
    destruct Y as (s1 & Y & B1). rewrite Y. cbn [bind fst snd].
    destruct u as [| | |[]|]; try (injection H as <- <-; exists s1; split; [reflexivity|exact B1]).
    destruct (mb_trk r2 a1 _) as [(w & a2)|] eqn:E in H; [|discriminate]. cbn [bind fst snd] in H.
    destruct (trk_sim (TWasActive k) _ _ _ _ I B1 E) as (s2 & F2 & B2). rewrite F2. cbn [bind fst snd].
    destruct w as [| | |[]|]; try (exact (IH _ _ _ _ _ _ B2 H)).
    destruct (mb_start m2 r2 a2 k false now) as [(x & a3)|] eqn:E3; [|discriminate]. cbn [bind fst snd] in H.
    destruct (start_sim _ _ _ _ _ _ _ B2 E3) as (s3 & F3 & B3). rewrite F3. cbn [bind fst snd].
    destruct (get (mb_crash cfg) k) as [key|]; [|discriminate]. cbn [bind] in *.
    destruct (mb_met m2 a3 _) as [(y & a4)|] eqn:E4 in H; [|discriminate]. cbn [bind fst snd] in H.
    destruct (met_sim _ _ _ _ _ B3 E4) as (s4 & F4 & B4). rewrite F4. cbn [bind fst snd].
    destruct (mb_end m2 r2 a4 k false now (st k)) as [(z & a5)|] eqn:E5; [|discriminate]. cbn [bind fst snd] in H.
    destruct (end_sim _ _ _ _ _ _ _ _ B4 E5) as (s5 & F5 & B5). rewrite F5. cbn [bind fst snd].
    destruct (mb_check m2 r2 cfg n (k + 1) true now st a5) as [(q & a6)|] eqn:E6; [|discriminate]. cbn [bind fst snd] in H. injection H as <- <-.
    destruct (IH _ _ _ _ _ _ B5 E6) as (s6 & F6 & B6). rewrite F6. cbn [bind fst snd]. exists s6. split; [reflexivity|exact B6].
Qed.
Lemma boot_sim t z c now st s a rv ev a' : both s a -> mb_boot m2 r2 cfg t z c now st a = Some (rv, ev, a') ->
  exists s', mb_boot m1 r1 cfg t z c now st s = Some (rv, ev, s') /\ both s' a'.
Proof.
  intros B H. unfold mb_boot in *. destruct (mb_met m2 a _) as [(x & a1)|] eqn:E in H; [|discriminate]. cbn [bind fst snd] in H.
  destruct (met_sim _ _ _ _ _ B E) as (s1 & F1 & B1). rewrite F1. cbn [bind fst snd].
  destruct (negb t); [injection H as <- <- <-; exists s1; split; [reflexivity|exact B1]|].
  destruct (negb z); [injection H as <- <- <-; exists s1; split; [reflexivity|exact B1]|].
  destruct (mb_met m2 a1 _) as [(y & a2)|] eqn:E2 in H; [|discriminate]. cbn [bind fst snd] in H.
  destruct (met_sim _ _ _ _ _ B1 E2) as (s2 & F2 & B2). rewrite F2. cbn [bind fst snd].
  destruct y as [rv1| | | | |]; try discriminate.
  destruct rv1; try (injection H as <- <- <-; exists s2; split; [reflexivity|exact B2]).
  destruct (mb_met m2 a2 _) as [(w & a3)|] eqn:E3 in H; [|discriminate]. cbn [bind fst snd] in H.
  destruct (met_sim _ _ _ _ _ B2 E3) as (s3 & F3 & B3). rewrite F3. cbn [bind fst snd].
  destruct w as [rv1| | | | |]; try discriminate.
  destruct rv1; try (injection H as <- <- <-; exists s3; split; [reflexivity|exact B3]).
  destruct (mb_check m2 r2 cfg _ _ _ _ _ _) as [(q & a4)|] eqn:E4 in H; [|discriminate]. cbn [bind fst snd] in H.
  destruct (check_sim _ _ _ _ _ _ _ _ _ B3 E4) as (s4 & F4 & B4). rewrite F4. cbn [bind fst snd].
  destruct (mb_trk r2 a4 _) as [(u & a5)|] eqn:E5 in H; [|discriminate]. cbn [bind fst snd] in H. injection H as <- <- <-.
  destruct (trk_sim TClearSessions _ _ _ _ I B4 E5) as (s5 & F5 & B5). rewrite F5. exists s5. split; [reflexivity|exact B5].
Qed.
End Sim.

(** ** The kind of each value is its metric's *)
Definition kind (d : mdef) (v : aval) : Prop :=
  match md_type d, v with MUnsigned, AInt _ | MSigned, AInt _ | MTimer, ATimer _ _ | MString, AStr _ => True | _, _ => False end.
Lemma get_succ {A} (x : A) l i : 0 < i -> get (x :: l) i = get l (i - 1).
Proof. intros H. change (x :: l) with ([x] ++ l). rewrite get_app2 by (change (zlen [x]) with 1; lia). reflexivity. Qed.
Lemma mrel_kinds defs s a : mrel defs s a -> Forall2 kind defs a.
Proof.
  intros R. assert (E : forall i d v, get defs i = Some d -> get a i = Some v -> kind d v).
  { intros i d v G GA. pose proof (mr_each _ _ _ R _ _ _ G GA) as X. unfold m_ok in X. unfold kind. destruct (md_type d), v; try exact I; contradiction. }
  pose proof (mr_len _ _ _ R) as L. clear R. revert a E L. induction defs as [|d ds IH]; intros [|v vs] E L.
  - constructor.
  - rewrite zlen_cons in L. change (zlen (@nil mdef)) with 0 in L. pose proof (zlen_nonneg vs). lia.
  - rewrite zlen_cons in L. change (zlen (@nil aval)) with 0 in L. pose proof (zlen_nonneg ds). lia.
  - constructor.
    + exact (E 0 d v eq_refl eq_refl).
    + apply IH; [|rewrite !zlen_cons in L; lia]. intros i d' v' G GA.
      assert (0 <= i) by (apply get_range in G; lia).
      apply (E (i + 1)); [rewrite get_succ by lia|rewrite get_succ by lia]; replace (i + 1 - 1) with i by lia; assumption.
Qed.

(** ** One session *)
Fixpoint wipe (k : Z) (defs : list mdef) (a : list aval) : list aval :=
  match defs, a with
  | d :: ds, v :: vs => (if md_session d =? k then a_reset v else v) :: wipe k ds vs
  | _, _ => []
  end.
Lemma each_wipe k : forall defs a, Forall2 kind defs a ->
  am_each (fun d v => Some (if md_session d =? k then a_reset v else v)) defs a = Some (wipe k defs a).
Proof. induction 1 as [|d v ds vs K F IH]; [reflexivity|]. cbn [am_each wipe bind]. rewrite IH. reflexivity. Qed.
Lemma kinds_get defs a i d v : Forall2 kind defs a -> get defs i = Some d -> get a i = Some v -> kind d v.
Proof.
  intros F. revert i. induction F as [|d0 v0 ds vs K F IH]; intros i G GA; [apply get_range in G; change (zlen (@nil mdef)) with 0 in G; lia|].
  destruct (Z.eq_dec i 0) as [->|N]; [rewrite get_cons_0 in G; rewrite get_cons_0 in GA; injection G as ->; injection GA as ->; first [exact K|reflexivity]|].
  assert (0 < i) by (apply get_range in G; lia). rewrite get_succ in G by lia. rewrite get_succ in GA by lia. exact (IH _ G GA).
Qed.
Lemma kinds_len defs a : Forall2 kind defs a -> zlen a = zlen defs.
Proof. induction 1; [reflexivity|]. rewrite !zlen_cons. lia. Qed.
Lemma wipe_get k : forall defs a i d v, Forall2 kind defs a -> get defs i = Some d -> get a i = Some v ->
  get (wipe k defs a) i = Some (if md_session d =? k then a_reset v else v).
Proof.
  intros defs a i d v F. revert i. induction F as [|d0 v0 ds vs K F IH]; intros i G GA; [apply get_range in G; change (zlen (@nil mdef)) with 0 in G; lia|].
  cbn [wipe]. destruct (Z.eq_dec i 0) as [->|N]; [rewrite get_cons_0 in G; rewrite get_cons_0 in GA; injection G as ->; injection GA as ->; first [exact K|reflexivity]|].
  assert (0 < i) by (apply get_range in G; lia). rewrite get_succ in G by lia. rewrite get_succ in GA by lia. rewrite get_succ by lia. exact (IH _ G GA).
Qed.
Lemma put_succ x l i v : 0 < i -> am_put (x :: l) i v = x :: am_put l (i - 1) v.
Proof.
  intros H. unfold am_put. change (x :: l) with ([x] ++ l).
  rewrite take_app_ge by (change (zlen [x]) with 1; lia). rewrite drop_app_ge by (change (zlen [x]) with 1; lia).
  change (zlen [x]) with 1. replace (i + 1 - 1) with (i - 1 + 1) by lia. reflexivity.
Qed.
Lemma put_0 x l v : am_put (x :: l) 0 v = v :: l.
Proof. reflexivity. Qed.
Definition one (k : Z) : list Z := [k].
Lemma in_one d k : existsb (Z.eqb (md_session d)) (one k) = (md_session d =? k).
Proof. cbn. now rewrite orb_false_r. Qed.
Lemma settle_past cfg k key : get (mb_crash cfg) k = Some key -> forall defs a i, Forall2 kind defs a -> key < i ->
  settle i defs cfg (one k) a = wipe k defs a.
Proof.
  intros C defs a i F. revert i. induction F as [|d v ds vs K F IH]; intros i L; [reflexivity|]. cbn [settle wipe]. rewrite in_one.
  rewrite IH by lia. destruct (md_session d =? k) eqn:E; [|reflexivity]. assert (md_session d = k) as -> by lia. rewrite C.
  now replace (i =? key) with false by lia.
Qed.
Lemma settle_put cfg k key : get (mb_crash cfg) k = Some key -> forall defs a i d, Forall2 kind defs a -> i <= key ->
  get defs (key - i) = Some d -> md_session d = k ->
  settle i defs cfg (one k) a = am_put (wipe k defs a) (key - i) (AInt (Some 1)).
Proof.
  intros C defs a i d F. revert i. induction F as [|d0 v ds vs K F IH]; intros i L G S0; [apply get_range in G; change (zlen (@nil mdef)) with 0 in G; lia|].
  cbn [settle wipe]. rewrite in_one. destruct (Z.eq_dec i key) as [->|N].
  - rewrite Z.sub_diag in *. rewrite get_cons_0 in G. injection G as ->. rewrite S0, C, !Z.eqb_refl. rewrite put_0. f_equal.
    apply settle_past with (key := key); [exact C|exact F|lia].
  - rewrite put_succ by lia. rewrite get_succ in G by lia. f_equal.
    + destruct (md_session d0 =? k) eqn:E; [|reflexivity]. assert (md_session d0 = k) as -> by lia. rewrite C. now replace (i =? key) with false by lia.
    + replace (key - i - 1) with (key - (i + 1)) in * by lia. apply IH; [lia|exact G|exact S0].
Qed.
Lemma settle_none defs cfg a : Forall2 kind defs a -> forall i, settle i defs cfg [] a = a.
Proof. induction 1 as [|d v ds vs K F IH]; intros i; [reflexivity|]. cbn [settle existsb]. now rewrite IH. Qed.
Lemma settle_more defs cfg k c a : ~ In k c -> Forall2 kind defs a -> forall i,
  settle i defs cfg c (settle i defs cfg (one k) a) = settle i defs cfg (k :: c) a.
Proof.
  intros N F. induction F as [|d v ds vs K F IH]; intros i; [reflexivity|]. cbn [settle]. rewrite IH. f_equal. rewrite in_one. cbn [existsb].
  destruct (md_session d =? k) eqn:E; [|reflexivity]. cbn [orb].
  replace (existsb (Z.eqb (md_session d)) c) with false; [reflexivity|].
  symmetry. apply not_true_is_false. intros X. apply existsb_exists in X. destruct X as (y & I & Y). apply N. replace k with y by lia. exact I.
Qed.

Definition keyed (cfg : mb_cfg) (i : Z) (defs : list mdef) : Prop :=
  forall k key d, get (mb_crash cfg) k = Some key -> get defs (key - i) = Some d -> md_type d = MUnsigned.
Lemma keyed_tail cfg i d ds : keyed cfg i (d :: ds) -> keyed cfg (i + 1) ds.
Proof.
  intros H k key d' C G. apply (H k key d' C). rewrite get_succ by (apply get_range in G; lia). now replace (key - i - 1) with (key - (i + 1)) by lia.
Qed.
Lemma kind_reset d v : kind d v -> kind d (a_reset v).
Proof. unfold kind. destruct (md_type d), v as [|t [(since & last)|]|]; cbn; tauto. Qed.
Lemma settle_kinds cfg c : forall defs a i, keyed cfg i defs -> Forall2 kind defs a -> Forall2 kind defs (settle i defs cfg c a).
Proof.
  intros defs a i H F. revert i H. induction F as [|d v ds vs K F IH]; intros i H; [constructor|]. cbn [settle]. constructor; [|apply IH; exact (keyed_tail _ _ _ _ H)].
  destruct (existsb _ c); [|exact K]. destruct (get (mb_crash cfg) (md_session d)) as [key|] eqn:C; [|exact (kind_reset _ _ K)].
  destruct (i =? key) eqn:E; [|exact (kind_reset _ _ K)].
  assert (T : md_type d = MUnsigned). { apply (H _ _ d C). replace (key - i) with 0 by lia. reflexivity. }
  unfold kind. rewrite T. exact I.
Qed.
Lemma item_reset d v : kind d v -> a_item d (a_reset v) = blank d.
Proof.
  unfold kind, a_item, blank. destruct (md_type d), v as [|t [(since & last)|]|]; cbn; try tauto. rewrite Z.sub_diag. reflexivity.
Qed.
Lemma settle_items cfg k key : get (mb_crash cfg) k = Some key -> forall defs a i, keyed cfg i defs -> Forall2 kind defs a ->
  am_items defs (settle i defs cfg (one k) a) k = crash_items i defs k key.
Proof.
  intros C defs a i H F. revert i H. induction F as [|d v ds vs K F IH]; intros i H; [reflexivity|]. cbn [settle am_items crash_items].
  rewrite (IH _ (keyed_tail _ _ _ _ H)). f_equal. rewrite in_one. destruct (md_session d =? k) eqn:E; [|reflexivity].
  assert (md_session d = k) as E' by lia. rewrite E', C. f_equal. destruct (i =? key) eqn:X; [|exact (item_reset _ _ K)].
  assert (T : md_type d = MUnsigned). { apply (H _ _ d C). replace (key - i) with 0 by lia. reflexivity. }
  unfold a_item. now rewrite T.
Qed.
Lemma put_kinds defs a i d x : Forall2 kind defs a -> get defs i = Some d -> kind d x -> Forall2 kind defs (am_put a i x).
Proof.
  intros F. revert i. induction F as [|d0 v ds vs K F IH]; intros i G KX; [apply get_range in G; change (zlen (@nil mdef)) with 0 in G; lia|].
  destruct (Z.eq_dec i 0) as [->|N].
  - rewrite get_cons_0 in G. injection G as ->. rewrite put_0. constructor; assumption.
  - assert (0 < i) by (apply get_range in G; lia). rewrite get_succ in G by lia. rewrite put_succ by lia. constructor; [exact K|]. now apply IH.
Qed.
Lemma reset_kinds defs a : Forall2 kind defs a -> Forall2 kind defs (map a_reset a).
Proof. induction 1; [constructor|]. cbn [map]. constructor; [now apply kind_reset|assumption]. Qed.

Lemma crash_keyed defs cfg : tables_ok defs cfg -> keyed cfg 0 defs.
Proof.
  intros T k key d C G. rewrite Z.sub_0_r in G. destruct (t_crash _ _ T _ _ C) as (d' & G' & Y & _). congruence.
Qed.
Lemma in_numbers k : forall n from, In k (numbers n from) <-> from <= k < from + Z.of_nat n.
Proof.
  induction n as [|n IH]; intros from; [cbn; lia|]. cbn [numbers In]. rewrite IH. lia.
Qed.

Section Abs.
Variables (defs : list mdef) (timers : list Z) (cfg : mb_cfg) (T : tables_ok defs cfg).
Notation am := (am_step defs timers).

Lemma one_session a v k now st key : Forall2 kind defs a -> r_up v = true -> 0 <= now -> 0 <= k < 31 -> get (mb_crash cfg) k = Some key ->
  exists f, (forall j, j <> k -> f j = k_active (r_k v) j) /\
  (do x <- mb_start am rv_step (a, v) k false now;
   do y <- mb_met am (snd x) (OAdd key 1);
   mb_end am rv_step (snd y) k false now st) =
  Some (REnd (if st : bool then 0 else STORAGE_TOO_SMALL) (Some (crash_items 0 defs k key)),
        (settle 0 defs cfg (one k) a, upd v (with_active (r_k v) f))).
Proof.
  intros F U N K C. destruct (t_crash _ _ T _ _ C) as (d & G & TY & SE).
  assert (X : exists x, get a key = Some x). { apply get_some. apply get_range in G. rewrite (kinds_len _ _ F). exact G. }
  destruct X as (x & GA). pose proof (kinds_get _ _ _ _ _ F G GA) as KX. unfold kind in KX. rewrite TY in KX. destruct x as [o| |]; try contradiction.
  exists (fun j => if j =? k then false else if j =? k then true else k_active (r_k v) j). split.
  { intros j J. now replace (j =? k) with false by lia. }
  unfold mb_start, mb_met, mb_trk, mb_end, mb_met, mb_trk. cbn [fst snd].
  unfold am_step at 1. replace (0 <=? now) with true by lia. rewrite (each_wipe _ _ _ F). cbn [bind fst snd].
  unfold rv_step at 1. rewrite U. replace ((0 <=? k) && (k <? 31)) with true by lia. cbn [bind fst snd].
  unfold am_step at 1. replace (in_s32 1) with true by reflexivity. unfold am_get. rewrite G, (wipe_get _ _ _ _ _ _ F G GA). rewrite SE, Z.eqb_refl.
  cbn [a_reset]. rewrite TY. cbn [bind fst snd or0]. change (clamp 0 4294967295 (0 + 1)) with 1.
  assert (P : am_put (wipe k defs a) key (AInt (Some 1)) = settle 0 defs cfg (one k) a).
  { rewrite (settle_put cfg k key C defs a 0 d F); [now rewrite Z.sub_0_r|apply get_range in G; lia|now rewrite Z.sub_0_r|exact SE]. }
  rewrite P. unfold am_step at 1. replace (0 <=? now) with true by lia. cbn [bind]. change (0 =? 0) with true. cbv iota.
  rewrite (settle_items cfg k key C defs a 0 (crash_keyed _ _ T) F). cbn [bind fst snd].
  unfold rv_step. unfold upd at 1. cbn [r_up]. rewrite U. replace ((0 <=? k) && (k <? 31)) with true by lia. cbn [bind fst snd].
  reflexivity.
Qed.

Lemma check_up now st : 0 <= now -> forall n k a v, Forall2 kind defs a -> r_up v = true -> 0 <= k -> k + Z.of_nat n = zlen (mb_crash cfg) ->
  exists f, mb_check am rv_step cfg n k true now st (a, v) =
    Some (map (crash_event defs cfg st) (filter (k_active (r_k v)) (numbers n k)),
          (settle 0 defs cfg (filter (k_active (r_k v)) (numbers n k)) a, upd v (with_active (r_k v) f))).
Proof.
  intros N. pose proof (t_few _ _ T) as FEW. induction n as [|n IH]; intros k a v F U K0 L.
  - exists (k_active (r_k v)). cbn [mb_check numbers filter map]. rewrite (settle_none _ _ _ F).
    f_equal. f_equal. f_equal. destruct v as [u k0 b]. destruct k0. reflexivity.
  - cbn [mb_check bind fst snd numbers filter]. unfold mb_trk at 1. cbn [snd fst]. unfold rv_step at 1. rewrite U.
    replace ((0 <=? k) && (k <? 31)) with true by lia. cbn [bind fst snd].
    destruct (k_active (r_k v) k) eqn:A.
    + destruct (get_some (mb_crash cfg) k ltac:(lia)) as (key & C).
      destruct (one_session a v k now (st k) key F U N ltac:(lia) C) as (f & FJ & E).
      destruct (mb_start am rv_step (a, v) k false now) as [(x & s1)|]; [|discriminate]. cbn [bind fst snd] in *. rewrite C. cbn [bind].
      destruct (mb_met am s1 (OAdd key 1)) as [(y & s2)|]; [|discriminate]. cbn [bind fst snd] in *.
      rewrite E. cbn [bind fst snd ended].
      destruct (IH (k + 1) (settle 0 defs cfg (one k) a) (upd v (with_active (r_k v) f))) as (f2 & E2).
      * apply settle_kinds; [now apply crash_keyed|exact F].
      * exact U.
      * lia.
      * lia.
      * rewrite E2. cbn [bind fst snd].
        assert (FE : filter (k_active (r_k (upd v (with_active (r_k v) f)))) (numbers n (k + 1)) = filter (k_active (r_k v)) (numbers n (k + 1))).
        { apply filter_ext_in. intros j J. apply in_numbers in J. cbn. apply FJ. lia. }
        rewrite FE. exists f2. cbn [map]. unfold crash_event at 2. rewrite C. cbn [app]. f_equal. f_equal.
        rewrite settle_more; [reflexivity| |exact F]. intros J. apply filter_In in J. destruct J as (J & _). apply in_numbers in J. lia.
    + destruct (IH (k + 1) a v F U ltac:(lia) ltac:(lia)) as (f & E). rewrite E. exists f. reflexivity.
Qed.
Lemma check_down now st : forall n k a v, r_up v = false -> mb_check am rv_step cfg n k true now st (a, v) = Some ([], (a, v)).
Proof.
  induction n as [|n IH]; intros k a v U; [reflexivity|]. cbn [mb_check bind fst snd]. unfold mb_trk. cbn [snd fst]. unfold rv_step. rewrite U.
  cbn [bind fst snd]. exact (IH _ _ _ U).
Qed.
Lemma check_asked now st n k a v : mb_check am rv_step cfg n k false now st (a, v) =
  if crashed_boot v then mb_check am rv_step cfg n k true now st (a, v) else Some ([], (a, v)).
Proof.
  destruct n as [|n]; [cbn; now destruct (crashed_boot v)|]. cbn [mb_check]. unfold mb_trk at 1. cbn [rv_step snd fst bind].
  unfold crashed_boot. destruct (r_boot v) as [(r & f)|]; [|reflexivity]. destruct (crash f); reflexivity.
Qed.

Lemma length_z {A} (l : list A) : Z.of_nat (length l) = zlen l. Proof. reflexivity. Qed.
Lemma boot_abs t z c now st a v res : Forall2 kind defs a -> dv_boot defs cfg t z c now st (a, v) = Some res ->
  mb_boot am rv_step cfg t z c now st (a, v) = Some res.
Proof.
  intros F H. unfold dv_boot in H. unfold mb_boot. unfold mb_met at 1. cbn [fst snd am_step bind].
  destruct (negb t); [exact H|]. destruct (negb z); [exact H|].
  destruct (0 <=? now) eqn:N; [|discriminate]. cbn [negb] in H.
  pose proof (reset_kinds _ _ F) as F1. set (a1 := map a_reset a) in *. clearbody a1.
  destruct (t_interval _ _ T) as (d & G & TY & SE). destruct (t_count _ _ T) as (dc & GC & TYC & SEC).
  assert (X : exists x, get a1 (mb_interval cfg) = Some x). { apply get_some. apply get_range in G. rewrite (kinds_len _ _ F1). exact G. }
  destruct X as (x & GA). rewrite GA in H.
  pose proof (kinds_get _ _ _ _ _ F1 G GA) as KX. unfold kind in KX. rewrite TY in KX. destruct x as [|tm run|]; try contradiction.
  unfold mb_met at 1. cbn [fst snd am_step]. rewrite N. unfold am_timer, am_get. rewrite G, GA, TY. cbn [mtype_eqb bind fst snd].
  destruct run as [r|].
  { cbn [a_start fst snd bind]. rewrite am_put_same by exact GA. injection H as <-. reflexivity. }
  cbn [a_start fst snd bind]. set (a2 := am_put a1 (mb_interval cfg) (ATimer tm (Some (now, now)))) in *.
  assert (F2 : Forall2 kind defs a2). { apply put_kinds with (d := d); [exact F1|exact G|]. unfold kind. now rewrite TY. }
  clearbody a2. destruct (in_u32 c) eqn:IC; [|discriminate]. cbn [negb] in H.
  assert (X : exists x, get a2 (mb_count cfg) = Some x). { apply get_some. apply get_range in GC. rewrite (kinds_len _ _ F2). exact GC. }
  destruct X as (x & GCA).
  unfold mb_met at 1. cbn [fst snd am_step]. rewrite IC. unfold am_get. rewrite GC, GCA, TYC. cbn [mtype_eqb bind fst snd].
  set (a3 := am_put a2 (mb_count cfg) (AInt (Some c))) in *.
  assert (F3 : Forall2 kind defs a3). { apply put_kinds with (d := dc); [exact F2|exact GC|]. unfold kind. now rewrite TYC. }
  clearbody a3. rewrite check_asked. unfold cut_off in H. destruct (crashed_boot v) eqn:CB; cbn [andb] in H.
  - destruct (r_up v) eqn:U.
    + destruct (check_up now st ltac:(lia) (length (mb_crash cfg)) 0 a3 v F3 U ltac:(lia) ltac:(rewrite length_z; lia)) as (f & E).
      rewrite E. unfold sessions in H. cbn [bind fst snd]. unfold mb_trk. cbn [fst snd rv_step bind]. unfold upd at 1. cbn [r_up]. rewrite U.
      injection H as <-. reflexivity.
    + rewrite (check_down now st _ _ _ _ U). cbn [bind fst snd]. unfold mb_trk. cbn [fst snd rv_step bind]. rewrite U.
      cbn [map] in H. rewrite (settle_none _ _ _ F3) in H. injection H as <-. reflexivity.
  - cbn [bind fst snd]. unfold mb_trk. cbn [fst snd rv_step bind].
    cbn [map] in H. rewrite (settle_none _ _ _ F3) in H. destruct (r_up v); injection H as <-; reflexivity.
Qed.

Hypothesis D : mdefs_ok defs.
Definition dsim (s : mstate * rt) (a : dview) : Prop := mrel defs (fst s) (fst a) /\ rsim (snd s) (snd a).
Lemma msim : forall o s a r a', mrel defs s a -> am a o = Some (r, a') -> exists s', me_step defs timers s o = Some (r, s') /\ mrel defs s' a'.
Proof. intros o s a r a' R H. exact (me_step_ok defs timers o D s a r a' R H). Qed.
Lemma tsim : forall o s v r v', rt_op_ok o -> rsim s v -> rv_step v o = Some (r, v') -> exists s', rt_step s o = Some (r, s') /\ rsim s' v'.
Proof. intros o s v r v' O S0 H. exact (rt_step_ok s v o r v' S0 O H). Qed.

Lemma dev_step_ok o s a r a' : dop_ok o -> dsim s a -> dv_step defs timers cfg a o = Some (r, a') ->
  exists s', dev_step defs timers cfg s o = Some (r, s') /\ dsim s' a'.
Proof.
  intros O S0 H. destruct a as (a & v). unfold dev_step. destruct o as [o|k now|k now st|o|t z c now st]; cbn [dv_step mb_step] in *.
  - destruct (am a o) as [(x & a1)|] eqn:E; [|discriminate]. cbn [bind fst snd] in H. injection H as <- <-.
    destruct (met_sim (me_step defs timers) am (mrel defs) rsim msim o s (a, v) x (a1, v) S0) as (s' & F & S').
    { unfold mb_met. cbn [fst snd]. rewrite E. reflexivity. }
    rewrite F. exists s'. split; [reflexivity|exact S'].
  - destruct (am a _) as [(x & a1)|] eqn:E in H; [|discriminate]. cbn [bind fst snd] in H.
    destruct (rv_step v _) as [(y & v1)|] eqn:E1 in H; [|discriminate]. cbn [bind fst snd] in H. injection H as <- <-.
    destruct (start_sim (me_step defs timers) am rt_step rv_step (mrel defs) rsim msim tsim s (a, v) k true now x (a1, v1) S0) as (s' & F & S').
    { unfold mb_start, mb_met, mb_trk. cbn [fst snd]. rewrite E. cbn [bind fst snd]. rewrite E1. reflexivity. }
    rewrite F. exists s'. split; [reflexivity|exact S'].
  - destruct (am a _) as [(x & a1)|] eqn:E in H; [|discriminate]. cbn [bind fst snd] in H.
    destruct (rv_step v _) as [(y & v1)|] eqn:E1 in H; [|discriminate]. cbn [bind fst snd] in H. injection H as <- <-.
    destruct (end_sim (me_step defs timers) am rt_step rv_step (mrel defs) rsim msim tsim s (a, v) k true now st x (a1, v1) S0) as (s' & F & S').
    { unfold mb_end, mb_met, mb_trk. cbn [fst snd]. rewrite E. cbn [bind fst snd]. rewrite E1. reflexivity. }
    rewrite F. exists s'. split; [reflexivity|exact S'].
  - destruct (rv_step v _) as [(y & v1)|] eqn:E1 in H; [|discriminate]. cbn [bind fst snd] in H. injection H as <- <-.
    destruct (trk_sim rt_step rv_step (mrel defs) rsim tsim o s (a, v) y (a, v1) O S0) as (s' & F & S').
    { unfold mb_trk. cbn [fst snd]. rewrite E1. reflexivity. }
    rewrite F. cbn [bind fst snd]. destruct S' as (S1 & S2). cbn [fst snd] in *.
    destruct o; try (exists s'; split; [reflexivity|split; assumption]).
    exists (ms_init defs, snd s'). split; [reflexivity|]. split; [exact (me_init_ok defs D)|exact S2].
  - destruct (dv_boot _ _ _ _ _ _ _ _) as [((rv & ev) & s1)|] eqn:E in H; [|discriminate]. cbn [bind] in H. injection H as <- <-.
    pose proof (boot_abs _ _ _ _ _ _ _ _ (mrel_kinds _ _ _ (proj1 S0)) E) as B.
    destruct (boot_sim (me_step defs timers) am rt_step rv_step (mrel defs) rsim msim tsim cfg t z c now st s (a, v) rv ev s1 S0 B) as (s' & F & S').
    rewrite F. exists s'. split; [reflexivity|exact S'].
Qed.
Lemma dev_run_ok : forall ops s a rs a', Forall dop_ok ops -> dsim s a -> dv_run defs timers cfg a ops = Some (rs, a') ->
  exists s', dev_run defs timers cfg s ops = Some (rs, s') /\ dsim s' a'.
Proof.
  induction ops as [|o r IH]; intros s a rs a' O S0 H; cbn [dv_run] in H.
  - injection H as <- <-. exists s. split; [reflexivity|exact S0].
  - destruct (dv_step defs timers cfg a o) as [(x & a1)|] eqn:E; [|discriminate]. cbn [bind fst snd] in H.
    destruct (dv_run defs timers cfg a1 r) as [(y & a2)|] eqn:E2; [|discriminate]. cbn [bind fst snd] in H. injection H as <- <-.
    destruct (dev_step_ok o s a x a1 (Forall_inv O) S0 E) as (s1 & F1 & S1).
    destruct (IH _ _ _ _ (Forall_inv_tail O) S1 E2) as (s2 & F2 & S2).
    exists s2. split; [|exact S2]. unfold dev_run in *. cbn [mb_run]. unfold dev_step in F1. rewrite F1. cbn [bind fst snd]. rewrite F2. reflexivity.
Qed.
End Abs.

Theorem device_refines defs timers cfg m ops rs a : mdefs_ok defs -> tables_ok defs cfg -> rinfo_ok m -> Forall dop_ok ops ->
  dv_run defs timers cfg (dv_init defs m) ops = Some (rs, a) ->
  exists s, dev_run defs timers cfg (dev_init defs m) ops = Some (rs, s).
Proof.
  intros D T M O H. destruct (dev_run_ok defs timers cfg T D ops (dev_init defs m) (dv_init defs m) rs a O) as (s & F & _).
  - split; [exact (me_init_ok defs D)|exact (init_sim m M)].
  - exact H.
  - exists s. exact F.
Qed.

(** ** From the outside *)
Lemma dv_run_app defs timers cfg x : forall y s, dv_run defs timers cfg s (x ++ y) =
  do p <- dv_run defs timers cfg s x; do q <- dv_run defs timers cfg (snd p) y; Some (fst p ++ fst q, snd q).
Proof.
  induction x as [|o r IH]; intros y s.
  - cbn [app dv_run bind fst snd]. destruct (dv_run defs timers cfg s y) as [(? & ?)|]; reflexivity.
  - cbn [app dv_run]. destruct (dv_step defs timers cfg s o) as [(e & s1)|]; [|reflexivity]. cbn [bind fst snd]. rewrite IH.
    destruct (dv_run defs timers cfg s1 r) as [(e1 & s2)|]; [|reflexivity]. cbn [bind fst snd].
    destruct (dv_run defs timers cfg s2 y) as [(e2 & s3)|]; reflexivity.
Qed.
Lemma running_step defs timers cfg o a v r a' v' : running o = true -> r_up v = true -> dv_step defs timers cfg (a, v) o = Some (r, (a', v')) ->
  r_up v' = true /\ k_first (r_k v') = marked (k_first (r_k v)) [o] /\ forall k, k_active (r_k v') k = open_after k (k_active (r_k v) k) [o].
Proof.
  intros RO U H. destruct o as [o|k now|k now st|o|t z c now st]; cbn [dv_step] in H.
  - destruct (am_step defs timers a o) as [(x & a1)|]; [|discriminate]. cbn [bind fst snd] in H. injection H as <- <- <-. split; [exact U|]. split; reflexivity.
  - destruct (am_step defs timers a _) as [(x & a1)|] in H; [|discriminate]. cbn [bind fst snd rv_step] in H. rewrite U in H.
    destruct ((0 <=? k) && (k <? 31)); [|discriminate]. cbn [bind fst snd] in H. injection H as <- <- <-. split; [exact U|]. split; [reflexivity|].
    intros j. cbn. rewrite Z.eqb_sym. reflexivity.
  - destruct (am_step defs timers a _) as [(x & a1)|] in H; [|discriminate]. cbn [bind fst snd rv_step] in H. rewrite U in H.
    destruct ((0 <=? k) && (k <? 31)); [|discriminate]. cbn [bind fst snd] in H. injection H as <- <- <-. split; [exact U|]. split; [reflexivity|].
    intros j. cbn. rewrite Z.eqb_sym. reflexivity.
  - destruct o; try discriminate; cbn [rv_step] in H; rewrite ?U in H; cbn [bind fst snd] in H.
    all: try (destruct (_ && _) in H; [|discriminate]; cbn [bind fst snd] in H).
    all: injection H as <- <- <-; (split; [try exact U; reflexivity|]); try (split; reflexivity).
    cbn. unfold note. destruct (k_first (r_k v)) eqn:FE; [split; [exact FE|reflexivity]|]. destruct reg as [(? & ?)|]; split; reflexivity.
  - discriminate.
Qed.
Lemma marked_cons o r f : marked f (o :: r) = marked (marked f [o]) r.
Proof. destruct o as [| | |[]|]; reflexivity. Qed.
Lemma open_cons k o r f : open_after k f (o :: r) = open_after k (open_after k f [o]) r.
Proof. destruct o; reflexivity. Qed.
Lemma running_run defs timers cfg : forall ops a v rs a' v', forallb running ops = true -> r_up v = true -> dv_run defs timers cfg (a, v) ops = Some (rs, (a', v')) ->
  r_up v' = true /\ k_first (r_k v') = marked (k_first (r_k v)) ops /\ forall k, k_active (r_k v') k = open_after k (k_active (r_k v) k) ops.
Proof.
  induction ops as [|o r IH]; intros a v rs a' v' RO U H.
  - injection H as <- <- <-. split; [exact U|]. split; reflexivity.
  - cbn [forallb] in RO. apply andb_true_iff in RO. destruct RO as (R1 & R2). cbn [dv_run] in H.
    destruct (dv_step defs timers cfg (a, v) o) as [(x & (a1 & v1))|] eqn:E; [|discriminate]. cbn [bind fst snd] in H.
    destruct (dv_run defs timers cfg (a1, v1) r) as [(y & (a2 & v2))|] eqn:E2; [|discriminate]. cbn [bind fst snd] in H. injection H as <- <- <-.
    destruct (running_step _ _ _ _ _ _ _ _ _ R1 U E) as (U1 & F1 & A1). destruct (IH _ _ _ _ _ R2 U1 E2) as (U2 & F2 & A2).
    split; [exact U2|]. split; [rewrite F2, F1, <- marked_cons; reflexivity|]. intros k. rewrite A2, A1, <- open_cons. reflexivity.
Qed.

Lemma reset_init defs : map a_reset (am_init defs) = am_init defs.
Proof. unfold am_init. rewrite map_map. apply map_ext. intros d. unfold a_init. destruct (md_type d); reflexivity. Qed.
Lemma reboot_run defs timers cfg a v info c now st : tables_ok defs cfg -> 0 <= now -> is_u32 c ->
  exists a', dv_run defs timers cfg (a, v) (reboot_ops info c now st) =
    Some ([DRTrack TOk; DRTrack TOk;
           DRBoot 0 (if crash (boot_reason (k_first (r_k v)) info)
                     then map (crash_event defs cfg st) (filter (k_active (r_k v)) (sessions cfg)) else [])], a').
Proof.
  intros T N C. unfold reboot_ops. cbn [dv_run dv_step rv_step bind fst snd]. unfold dv_boot. cbn [negb]. rewrite reset_init.
  replace (0 <=? now) with true by lia. cbn [negb].
  destruct (t_interval _ _ T) as (d & G & TY & SE).
  assert (GA : get (am_init defs) (mb_interval cfg) = Some (ATimer 0 None)).
  { unfold am_init. rewrite (get_map a_init _ _ _ G). unfold a_init. now rewrite TY. }
  rewrite GA. replace (in_u32 c) with true by (unfold in_u32, is_u32 in *; lia). cbn [negb bind fst snd].
  eexists. f_equal. f_equal. f_equal. f_equal. f_equal. f_equal.
  unfold cut_off, crashed_boot, boot. cbn [r_boot r_up r_k]. rewrite andb_true_r.
  assert (X : or_first (match info with Some (_, reg) => with_reg (r_k v) reg | None => r_k v end) (match info with Some (r, _) => r | None => 0 end)
    = boot_reason (k_first (r_k v)) info).
  { unfold or_first, boot_reason. destruct info as [(r & reg)|]; destruct (r_k v) as [f]; destruct f; reflexivity. }
  rewrite X. destruct (crash _); [|reflexivity].
  f_equal. apply filter_ext. intros k. cbn. unfold note. destruct info as [(r & reg)|]; destruct (r_k v) as [f]; destruct f; reflexivity.
Qed.

Theorem crash_reports_open_sessions defs timers cfg m before rs a v ops rs1 s1 info c now st :
  mdefs_ok defs -> tables_ok defs cfg -> rinfo_ok m ->
  Forall dop_ok before -> Forall dop_ok ops -> match info with Some (r, _) => is_u16 r | None => True end ->
  dv_run defs timers cfg (dv_init defs m) before = Some (rs, (a, v)) -> r_up v = true -> (forall k, k_active (r_k v) k = false) ->
  forallb running ops = true -> dv_run defs timers cfg (a, v) ops = Some (rs1, s1) -> 0 <= now -> is_u32 c ->
  exists s, dev_run defs timers cfg (dev_init defs m) (before ++ ops ++ reboot_ops info c now st) =
    Some (rs ++ rs1 ++ [DRTrack TOk; DRTrack TOk;
            DRBoot 0 (if crash (boot_reason (marked (k_first (r_k v)) ops) info)
                      then map (crash_event defs cfg st) (filter (fun k => open_after k false ops) (sessions cfg)) else [])], s).
Proof.
  intros D T M OB OO OI HB U AC RO HO N C. destruct s1 as (a1 & v1).
  destruct (running_run _ _ _ _ _ _ _ _ _ RO U HO) as (U1 & F1 & A1).
  destruct (reboot_run defs timers cfg a1 v1 info c now st T N C) as (a2 & E).
  apply device_refines with (a := a2); try assumption.
  - apply Forall_app; split; [exact OB|]. apply Forall_app; split; [exact OO|].
    apply Forall_cons; [exact I|]. apply Forall_cons; [split; [exact I|exact OI]|]. apply Forall_cons; [exact I|apply Forall_nil].
  - rewrite dv_run_app, HB. cbn [bind fst snd]. rewrite dv_run_app, HO. cbn [bind fst snd]. rewrite E. cbn [bind fst snd].
    rewrite F1. rewrite (filter_ext (k_active (r_k v1)) (fun k => open_after k false ops)); [reflexivity|]. intros k. rewrite A1, AC. reflexivity.
Qed.
