From Coq Require Import Permutation.
From Verif Require Import Base HeapStats HeapStatsSpec.

Lemma nth_lupd {A} (f : A -> A) : forall l i j,
  nth_error (lupd l i f) j = if Nat.eqb j i then option_map f (nth_error l j) else nth_error l j.
Proof.
  induction l as [|x r IH]; intros i j; cbn.
  - destruct i, j; cbn; try reflexivity. destruct (Nat.eqb j i); reflexivity.
  - destruct i, j; cbn; try reflexivity. apply IH.
Qed.
Lemma len_lupd {A} (f : A -> A) : forall l i, length (lupd l i f) = length l.
Proof. induction l as [|x r IH]; intros [|i]; cbn; congruence. Qed.

Lemma prev_ok : forall l k idx, 0 <= k -> k + zlen l <= 65535 ->
  (exists j e, nth_error l j = Some e /\ he_used e = true /\ he_next e = idx /\ prev_from l k idx = k + Z.of_nat j) \/
  (prev_from l k idx = list_end /\ forall j e, nth_error l j = Some e -> he_used e = true -> he_next e <> idx).
Proof.
  induction l as [|e r IH]; intros k idx H0 H; cbn.
  - right. split; [reflexivity|]. intros [|j]; discriminate.
  - rewrite zlen_cons in H. pose proof (zlen_nonneg r). destruct (he_used e && (he_next e =? idx)) eqn:E.
    + left. exists 0%nat, e. repeat split; try lia. change (Z.of_nat 0) with 0. rewrite Z.add_0_r. apply u16_id. unfold is_u16; lia.
    + destruct (IH (k + 1) idx) as [(j & e' & A & B & C & D)|[A B]]; [lia|lia| |].
      * left. exists (S j), e'. repeat split; try assumption. lia.
      * right. split; [exact A|]. intros [|j] e' N U; cbn in N; [inv N|now apply (B j)].
        intros X. rewrite U, X, Z.eqb_refl in E. discriminate.
Qed.
Lemma new_ok : forall l k u i b, 0 <= k -> k + zlen l <= 65535 -> new_from l k u = (i, b) ->
  (exists j e, nth_error l j = Some e /\ he_used e = false /\ i = k + Z.of_nat j) \/
  (b = false /\ i = u /\ (u = list_end -> forall j e, nth_error l j = Some e -> he_used e = true)).
Proof.
  induction l as [|e r IH]; intros k u i b H0 H E; cbn in E.
  - inv E. right. repeat split; try reflexivity. intros _ [|j]; discriminate.
  - rewrite zlen_cons in H. pose proof (zlen_nonneg r). destruct (he_used e) eqn:U.
    + destruct (IH (k + 1) u i b) as [(j & e' & A & B & C)|(A & B & C)]; [lia|lia|exact E| |].
      * left. exists (S j), e'. repeat split; try assumption. lia.
      * right. repeat split; try assumption. intros X [|j] e' N; cbn in N; [now inv N|now apply (C X j)].
    + assert (UI : u16 k = k) by (apply u16_id; unfold is_u16; lia).
      destruct (he_size e =? 0).
      * inv E. left. exists 0%nat, e. repeat split; try assumption. lia.
      * destruct (IH (k + 1) (if u =? list_end then u16 k else u) i b) as [(j & e' & A & B & C)|(A & B & C)]; [lia|lia|exact E| |].
        -- left. exists (S j), e'. repeat split; try assumption. lia.
        -- destruct (u =? list_end) eqn:X.
           ++ left. exists 0%nat, e. repeat split; try assumption. lia.
           ++ right. repeat split; try assumption. intros Y. lia.
Qed.

(** The path from [h] through the entries [L], holding the blocks [T], to [t]. *)
Fixpoint seg (pool : list hentry) (h : Z) (L : list nat) (T : list block) (t : Z) : Prop :=
  match L, T with
  | [], [] => h = t
  | i :: L, b :: T => h = Z.of_nat i /\ exists e, nth_error pool i = Some e /\ he_used e = true /\ block_of e = b /\ seg pool (he_next e) L T t
  | _, _ => False
  end.
Lemma seg_app pool t : forall L1 T1 L2 T2 h, length L1 = length T1 ->
  (seg pool h (L1 ++ L2) (T1 ++ T2) t <-> exists m, seg pool h L1 T1 m /\ seg pool m L2 T2 t).
Proof.
  induction L1 as [|i L1 IH]; intros [|b T1] L2 T2 h E; cbn in E; try discriminate; cbn [seg app].
  - split; [intros H; exists h; auto|intros (m & -> & H); exact H].
  - split.
    + intros (A & e & B & C & D & H). apply IH in H; [|lia]. destruct H as (m & H1 & H2). exists m. split; [|exact H2]. split; [exact A|exists e; auto].
    + intros (m & (A & e & B & C & D & H) & H2). split; [exact A|]. exists e. repeat split; try assumption. apply IH; [lia|]. eauto.
Qed.
Lemma seg_frame pool pool' t : forall L T h, seg pool h L T t -> (forall i, In i L -> nth_error pool' i = nth_error pool i) -> seg pool' h L T t.
Proof.
  induction L as [|i L IH]; intros [|b T] h H F; cbn [seg] in *; try assumption.
  destruct H as (A & e & B & C & D & H). split; [exact A|]. exists e. rewrite F by now left. repeat split; try assumption.
  apply IH; [exact H|]. intros j Hj. apply F. now right.
Qed.
Lemma seg_len pool t : forall L T h, seg pool h L T t -> length L = length T.
Proof. induction L as [|i L IH]; intros [|b T] h H; cbn in *; try contradiction; [reflexivity|]. destruct H as (_ & e & _ & _ & _ & H). f_equal. eauto. Qed.
Lemma seg_used pool t : forall L T h i, seg pool h L T t -> In i L -> exists e, nth_error pool i = Some e /\ he_used e = true.
Proof.
  induction L as [|j L IH]; intros [|b T] h i H HI; cbn in *; try contradiction.
  destruct H as (_ & e & A & B & _ & H). destruct HI as [->|HI]; [eauto|]. eauto.
Qed.
(** Where an entry of the path leads: to an entry of the path after the first, or to the end. *)
Lemma seg_next pool t : forall L T h j e, seg pool h L T t -> In j L -> nth_error pool j = Some e ->
  exists A B, L = A ++ j :: B /\ he_next e = match B with [] => t | k :: _ => Z.of_nat k end.
Proof.
  induction L as [|i L IH]; intros [|b T] h j e H HI N; cbn in *; try contradiction.
  destruct H as (_ & e0 & A & B & _ & H). destruct (Nat.eq_dec i j) as [->|D].
  - exists [], L. split; [reflexivity|]. rewrite N in A. inv A. destruct L as [|k L]; destruct T as [|b0 T]; cbn in H; try contradiction; [exact H|apply H].
  - destruct HI as [HI|HI]; [congruence|]. destruct (IH T _ j e H HI N) as (A0 & B0 & E0 & F0). exists (i :: A0), B0. split; [now rewrite E0|exact F0].
Qed.
Lemma seg_follow pool : forall L T h fuel, seg pool h L T list_end -> (length L <= fuel)%nat -> Z.of_nat (length pool) <= 65535 ->
  exists es, follow fuel pool h = Some es /\ map block_of es = T /\ Forall (fun e => he_used e = true) es.
Proof.
  induction L as [|i L IH]; intros [|b T] h fuel H F Q; cbn in H; try contradiction.
  - subst h. exists []. destruct fuel; cbn; auto.
  - destruct H as (-> & e & A & B & C & H). cbn in F. destruct fuel as [|fuel]; [lia|].
    assert (i < length pool)%nat by (apply nth_error_Some; congruence).
    destruct (IH T _ fuel H) as (es & E1 & E2 & E3); [lia|lia|].
    exists (e :: es). cbn [follow]. replace (Z.of_nat i =? 65535) with false by lia. replace (Z.of_nat i <? 0) with false by lia.
    rewrite Nat2Z.id, A, E1. split; [reflexivity|]. split; [cbn; congruence|]. now constructor.
Qed.

Record hinv (n : nat) (s : heap) (v : hview) (L : list nat) : Prop := {
  hi_n : 1 <= Z.of_nat n < 65535;
  hi_pool : length (hp_pool s) = n;
  hi_nodup : NoDup L;
  hi_seg : seg (hp_pool s) (hp_head s) L (v_track v) list_end;
  hi_used : forall i e, nth_error (hp_pool s) i = Some e -> he_used e = true -> In i L;
  hi_live : NoDup (v_live v);
  hi_track : NoDup (map b_ptr (v_track v));
  hi_incl : incl (map b_ptr (v_track v)) (v_live v);
  hi_big : zlen (v_live v) < 4294967296;
  hi_count : hp_count s = zlen (v_live v);
  hi_max : hp_max s = v_most v;
  hi_most : zlen (v_live v) <= v_most v }.

Lemma hi_lt n s v L : hinv n s v L -> forall i, In i L -> (i < n)%nat.
Proof. intros H i HI. destruct (seg_used _ _ _ _ _ i (hi_seg _ _ _ _ H) HI) as (e & A & _). rewrite <- (hi_pool _ _ _ _ H). apply nth_error_Some. congruence. Qed.

Lemma init_nth n i e : nth_error (repeat (mk_he 0 0 0 false 0) n) i = Some e -> e = mk_he 0 0 0 false 0.
Proof. intros H. apply nth_error_In in H. now apply repeat_spec in H. Qed.
Lemma init_inv n : 1 <= Z.of_nat n < 65535 -> hinv n (heap_init n) (mk_hv [] [] 0) [].
Proof.
  intros H. constructor; cbn; try reflexivity; try constructor; try lia.
  - apply repeat_length.
  - intros i e E U. rewrite (init_nth _ _ _ E) in U. discriminate.
  - intros x [].
Qed.

Lemma new_index_ok pool : Z.of_nat (length pool) < 65535 ->
  (exists j e, nth_error pool j = Some e /\ he_used e = false /\ new_index pool = Z.of_nat j) \/
  ((forall j e, nth_error pool j = Some e -> he_used e = true) /\ new_index pool = prev_entry pool list_end).
Proof.
  intros H. unfold new_index. destruct (new_from pool 0 list_end) as [i b] eqn:E.
  destruct (new_ok pool 0 list_end i b) as [(j & e & A & B & C)|(A & B & C)]; [lia|unfold zlen; lia|exact E| |].
  - left. exists j, e. repeat split; try assumption.
    assert (j < length pool)%nat by (apply nth_error_Some; congruence). unfold list_end.
    destruct b; [lia|]. destruct (i =? 65535) eqn:X; [lia|cbn; lia].
  - right. subst b i. split; [exact (C eq_refl)|reflexivity].
Qed.

(** The entry before one of the path. *)
Lemma prev_in_path pool h L T x : Z.of_nat (length pool) < 65535 -> NoDup L -> seg pool h L T list_end ->
  (forall i e, nth_error pool i = Some e -> he_used e = true -> In i L) ->
  forall A B, L = A ++ x :: B -> prev_entry pool (Z.of_nat x) = match rev A with [] => list_end | j :: _ => Z.of_nat j end.
Proof.
  intros HP ND H US A B E. unfold prev_entry.
  assert (XL : (x < length pool)%nat).
  { destruct (seg_used _ _ _ _ _ x H) as (e & N & _); [rewrite E; apply in_or_app; right; now left|]. apply nth_error_Some. congruence. }
  destruct (prev_ok pool 0 (Z.of_nat x)) as [(j & e & N & U & X & R)|[R X]]; [lia|unfold zlen; lia| |].
  - rewrite R. pose proof (US _ _ N U) as HI. destruct (seg_next _ _ _ _ _ _ _ H HI N) as (A1 & B1 & E1 & F1). rewrite X in F1.
    destruct B1 as [|k B1]; [unfold list_end in F1; lia|]. assert (k = x) by lia. subst k.
    (* L = A1 ++ j :: x :: B1 = A ++ x :: B *)
    assert (A = A1 ++ [j]).
    { rewrite E1 in E. replace (A1 ++ j :: x :: B1) with ((A1 ++ [j]) ++ x :: B1) in E by (rewrite <- app_assoc; reflexivity).
      assert (ND1 : NoDup ((A1 ++ [j]) ++ x :: B1)) by (rewrite <- app_assoc; cbn; now rewrite <- E1).
      clear -E ND1. revert E ND1. generalize (A1 ++ [j]). intros P E ND. revert A E ND. induction P as [|p P IH]; intros A E ND.
      - destruct A as [|a A]; [reflexivity|]. cbn in E. inversion E; subst. inversion ND; subst. exfalso. apply H1. apply in_or_app. right. now left.
      - destruct A as [|a A]; cbn in E; inversion E; subst.
        + inversion ND; subst. exfalso. apply H1. apply in_or_app. right. now left.
        + f_equal. apply IH; [assumption|]. now inversion ND. }
    subst A. rewrite rev_app_distr. cbn. lia.
  - rewrite R. destruct (rev A) as [|j RA] eqn:RE; [reflexivity|].
    assert (EA : A = rev RA ++ [j]) by (rewrite <- (rev_involutive A), RE; reflexivity). exfalso.
    subst A L. rewrite <- app_assoc in H. cbn in H.
    assert (LT : exists T1 T2, T = T1 ++ T2 /\ length T1 = length (rev RA)).
    { pose proof (seg_len _ _ _ _ _ H) as LN. exists (firstn (length (rev RA)) T), (skipn (length (rev RA)) T).
      split; [now rewrite firstn_skipn|]. rewrite firstn_length. rewrite app_length in LN. lia. }
    destruct LT as (T1 & T2 & -> & LT). apply seg_app in H; [|now rewrite LT]. destruct H as (m & _ & H).
    destruct T2 as [|b T2]; cbn in H; [contradiction|]. destruct H as (_ & e & N & U & _ & H). destruct T2 as [|b2 T2]; [contradiction|].
    destruct H as (NX & _). exact (X j e N U NX).
Qed.
Lemma prev_of_end pool h L T : Z.of_nat (length pool) < 65535 -> NoDup L -> seg pool h L T list_end ->
  (forall i e, nth_error pool i = Some e -> he_used e = true -> In i L) ->
  prev_entry pool list_end = match rev L with [] => list_end | j :: _ => Z.of_nat j end.
Proof.
  intros HP ND H US. unfold prev_entry.
  destruct (prev_ok pool 0 list_end) as [(j & e & N & U & X & R)|[R X]]; [lia|unfold zlen; lia| |].
  - rewrite R. pose proof (US _ _ N U) as HI. destruct (seg_next _ _ _ _ _ _ _ H HI N) as (A1 & B1 & E1 & F1). rewrite X in F1.
    destruct B1 as [|k B1].
    + rewrite E1, rev_app_distr. cbn. lia.
    + exfalso. assert (In k L) by (rewrite E1; apply in_or_app; right; right; now left).
      destruct (seg_used _ _ _ _ _ k H H0) as (e2 & N2 & _). assert (k < length pool)%nat by (apply nth_error_Some; congruence). unfold list_end in F1. lia.
  - rewrite R. destruct (rev L) as [|j RL] eqn:RE; [reflexivity|]. exfalso.
    assert (EL : L = rev RL ++ [j]) by (rewrite <- (rev_involutive L), RE; reflexivity). subst L.
    destruct (seg_used _ _ _ _ _ j H) as (e & N & U); [apply in_or_app; right; now left|].
    destruct (seg_next _ _ _ _ _ j e H) as (A & B & E & F); [apply in_or_app; right; now left|exact N|].
    destruct B as [|k B]; [exact (X j e N U F)|].
    (* j occurs twice *)
    assert (In j (k :: B)).
    { destruct (@exists_last _ (k :: B)) as (B' & y & EB); [discriminate|]. rewrite EB in E |- *.
      replace (A ++ j :: B' ++ [y]) with ((A ++ j :: B') ++ [y]) in E by (rewrite <- app_assoc; reflexivity).
      apply app_inj_tail in E. destruct E as [_ <-]. apply in_or_app. right. now left. }
    rewrite E in ND. apply NoDup_remove_2 in ND. apply ND. apply in_or_app. now right.
Qed.

Lemma nodup_split {A} (x : A) : forall P Q R S, NoDup (P ++ x :: Q) -> P ++ x :: Q = R ++ x :: S -> P = R /\ Q = S.
Proof.
  induction P as [|p P IH]; intros Q R S ND E.
  - destruct R as [|r R]; cbn in E; inversion E; subst; [auto|]. inversion ND; subst. exfalso. apply H1. apply in_or_app. right. now left.
  - destruct R as [|r R]; cbn in E; inversion E; subst.
    + inversion ND; subst. exfalso. apply H1. apply in_or_app. right. now left.
    + inversion ND; subst. destruct (IH Q R S H3 H1) as [-> ->]. auto.
Qed.
Lemma seg_retarget pool pool' t t' j : forall P T h, seg pool h (P ++ [j]) T t ->
  (forall i, In i P -> nth_error pool' i = nth_error pool i) ->
  nth_error pool' j = option_map (set_next t') (nth_error pool j) ->
  seg pool' h (P ++ [j]) T t'.
Proof.
  induction P as [|i P IH]; intros [|b T] h H F J; cbn [app seg] in *; try contradiction.
  - destruct H as (A & e & B & C & D & H). split; [exact A|]. rewrite J, B. cbn. eexists. split; [reflexivity|]. destruct e; cbn in *.
    repeat split; try assumption. destruct T; [reflexivity|contradiction].
  - destruct H as (A & e & B & C & D & H). split; [exact A|]. exists e. rewrite F by now left. repeat split; try assumption.
    apply IH; [exact H| |exact J]. intros k Hk. apply F. now right.
Qed.
Lemma seg_split pool t A i B T h : seg pool h (A ++ i :: B) T t -> exists TA b TB e, T = TA ++ b :: TB /\ length A = length TA /\
  seg pool h A TA (Z.of_nat i) /\ nth_error pool i = Some e /\ he_used e = true /\ block_of e = b /\ seg pool (he_next e) B TB t.
Proof.
  intros H. pose proof (seg_len _ _ _ _ _ H) as LN. rewrite app_length in LN. cbn in LN.
  rewrite <- (firstn_skipn (length A) T) in H. apply seg_app in H; [|rewrite firstn_length; lia].
  destruct H as (m & H1 & H2). destruct (skipn (length A) T) as [|b TB] eqn:ET; [contradiction|]. destruct H2 as (-> & e & X1 & X2 & X3 & X4).
  exists (firstn (length A) T), b, TB, e. repeat split; try assumption; [now rewrite <- ET, firstn_skipn|rewrite firstn_length; lia].
Qed.
Lemma seg_head pool t i L T h : seg pool h (i :: L) T t -> h = Z.of_nat i.
Proof. destruct T; cbn; [contradiction|]. intros (H & _). exact H. Qed.

(** The used entries of a pool that differs from one holding a path. *)
Lemma pred_in pool h L T x j e : NoDup L -> seg pool h L T list_end -> Z.of_nat (length pool) < 65535 -> In j L -> In x L ->
  nth_error pool j = Some e -> he_next e = Z.of_nat x -> forall A B, L = A ++ x :: B -> exists A1, A = A1 ++ [j].
Proof.
  intros ND H HP HJ HX N X A B E. destruct (seg_next _ _ _ _ _ _ _ H HJ N) as (A1 & B1 & E1 & F1). rewrite X in F1.
  assert (x < length pool)%nat. { destruct (seg_used _ _ _ _ _ x H HX) as (e2 & N2 & _). apply nth_error_Some. congruence. }
  destruct B1 as [|k B1]; [unfold list_end in F1; lia|]. assert (k = x) by lia. subst k.
  exists A1. replace (A1 ++ j :: x :: B1) with ((A1 ++ [j]) ++ x :: B1) in E1 by (rewrite <- app_assoc; reflexivity).
  rewrite E in E1, ND. apply (nodup_split x A B (A1 ++ [j]) B1 ND E1).
Qed.

Lemma inc_u32 x : 0 <= x < 4294967295 -> u32 (x + 1) = x + 1.
Proof. intros. apply u32_id. unfold is_u32. lia. Qed.

Lemma live_not_in p l : existsb (Z.eqb p) l = false -> ~ In p l.
Proof. intros H HI. assert (existsb (Z.eqb p) l = true) by (apply existsb_exists; exists p; split; [exact HI|apply Z.eqb_refl]). congruence. Qed.
Lemma land31 size : Z.land size 2147483647 = size mod 2147483648.
Proof. exact (Z.land_ones size 31 ltac:(lia)). Qed.

Lemma path_len n s v L : hinv n s v L -> zlen (v_track v) = Z.of_nat (length L) /\ (length L <= n)%nat.
Proof.
  intros H. pose proof (seg_len _ _ _ _ _ (hi_seg _ _ _ _ H)) as E. split; [unfold zlen; lia|].
  rewrite <- (seq_length n 0). apply NoDup_incl_length; [exact (hi_nodup _ _ _ _ H)|].
  intros i HI. apply in_seq. pose proof (hi_lt _ _ _ _ H i HI). lia.
Qed.

Lemma removelast_tail {A} (l : list A) x : removelast (l ++ [x]) = l.
Proof. now rewrite removelast_app, app_nil_r by discriminate. Qed.


Lemma nodup_app_l {A} (l m : list A) : NoDup (l ++ m) -> NoDup l.
Proof. induction l as [|x l IH]; intros H; [constructor|]. inversion H; subst. constructor; [|auto]. intros X. apply H2. apply in_or_app. now left. Qed.

Lemma store_common n s v L lr ptr size s2 L2 T2 : hinv n s v L -> ~ In ptr (v_live v) -> zlen (v_live v) < 4294967295 ->
  length (hp_pool s2) = n -> NoDup L2 -> seg (hp_pool s2) (hp_head s2) L2 ((lr, ptr, size mod 2147483648) :: T2) list_end ->
  (forall i e, nth_error (hp_pool s2) i = Some e -> he_used e = true -> In i L2) ->
  (exists R, v_track v = T2 ++ R) ->
  hp_count s2 = 1 + zlen (v_live v) -> hp_max s2 = Z.max (v_most v) (1 + zlen (v_live v)) ->
  hinv n s2 (mk_hv (ptr :: v_live v) ((lr, ptr, size mod 2147483648) :: T2) (Z.max (v_most v) (1 + zlen (v_live v)))) L2.
Proof.
  intros H C1 CB A1 A2 A3 A4 (R & A5) A6 A7.
  pose proof (hi_track _ _ _ _ H) as TT. pose proof (hi_incl _ _ _ _ H) as II. rewrite A5, map_app in TT, II.
  assert (IN2 : incl (map b_ptr T2) (v_live v)) by (intros x Hx; apply II; apply in_or_app; now left).
  constructor; cbn [v_live v_track v_most]; try assumption.
  - exact (hi_n _ _ _ _ H).
  - constructor; [exact C1|exact (hi_live _ _ _ _ H)].
  - cbn. constructor; [intros X; apply C1, IN2, X|]. exact (nodup_app_l _ _ TT).
  - intros x [<-|Hx]; [now left|right; apply IN2, Hx].
  - rewrite zlen_cons. lia.
  - rewrite zlen_cons. exact A6.
  - rewrite zlen_cons. lia.
Qed.

Lemma count_up_ok n s v L : hinv n s v L -> zlen (v_live v) < 4294967295 ->
  count_up s = mk_hp (1 + zlen (v_live v)) (Z.max (v_most v) (1 + zlen (v_live v))) (hp_head s) (hp_pool s).
Proof.
  intros H C. pose proof (zlen_nonneg (v_live v)). unfold count_up. cbn zeta. rewrite (hi_count _ _ _ _ H), inc_u32 by lia.
  rewrite (hi_max _ _ _ _ H). f_equal; [lia|]. destruct (v_most v <? zlen (v_live v) + 1) eqn:X; lia.
Qed.

Lemma malloc_ok n s v L lr ptr size v' : hinv n s v L -> hv_step (Z.of_nat n) v (HMalloc lr ptr size) = Some v' ->
  exists s' L', heap_malloc s lr ptr size = Some s' /\ hinv n s' v' L'.
Proof.
  intros H E. cbn [hv_step] in E. unfold heap_malloc. destruct (ptr =? 0) eqn:P0; [inv E; eauto|].
  destruct (existsb (Z.eqb ptr) (v_live v) || (4294967295 <=? zlen (v_live v))) eqn:C; [discriminate|].
  apply orb_false_iff in C. destruct C as [C1 C2]. apply live_not_in in C1. assert (C3 : zlen (v_live v) < 4294967295) by lia. clear C2.
  inversion E; subst v'; clear E.
  rewrite (count_up_ok _ _ _ _ H C3). cbn zeta. cbn [hp_pool hp_head hp_count hp_max]. rewrite land31.
  pose proof (hi_n _ _ _ _ H) as HN. destruct (path_len _ _ _ _ H) as [PT PN]. pose proof (hi_pool _ _ _ _ H) as PL.
  pose proof (hi_seg _ _ _ _ H) as SG. pose proof (hi_nodup _ _ _ _ H) as ND.
  remember (mk_he lr ptr (size mod 2147483648) true (hp_head s)) as e eqn:Ee.
  assert (BE : block_of e = (lr, ptr, size mod 2147483648)) by (subst e; reflexivity).
  assert (UE : he_used e = true) by (subst e; reflexivity). assert (NE : he_next e = hp_head s) by (subst e; reflexivity). clear Ee.
  destruct (new_index_ok (hp_pool s)) as [(j & e0 & N & U & NI)|[AU NI]]; [lia| |].
  - assert (JN : (j < n)%nat) by (rewrite <- PL; apply nth_error_Some; congruence).
    assert (JL : ~ In j L) by (intros X; destruct (seg_used _ _ _ _ _ j SG X) as (e1 & N1 & U1); congruence).
    rewrite NI. replace (Z.of_nat j =? list_end) with false by (unfold list_end; lia).
    replace (in_pool (hp_pool s) (Z.of_nat j)) with true by (unfold in_pool, zlen; lia). cbn [orb negb]. rewrite Nat2Z.id.
    remember (lupd (hp_pool s) j (fun _ => e)) as pool1 eqn:EP.
    assert (L1 : length pool1 = n) by (subst pool1; now rewrite len_lupd).
    assert (NJ : nth_error pool1 j = Some e) by (subst pool1; rewrite nth_lupd, Nat.eqb_refl, N; reflexivity).
    assert (NO : forall i, i <> j -> nth_error pool1 i = nth_error (hp_pool s) i).
    { intros i D. subst pool1. rewrite nth_lupd. destruct (Nat.eqb_spec i j); [congruence|reflexivity]. }
    assert (ND1 : NoDup (j :: L)) by now constructor.
    assert (SG1 : seg pool1 (Z.of_nat j) (j :: L) ((lr, ptr, size mod 2147483648) :: v_track v) list_end).
    { cbn. split; [reflexivity|]. exists e. rewrite NE. repeat split; try assumption. apply (seg_frame (hp_pool s)); [exact SG|].
      intros i HI. apply NO. congruence. }
    assert (US1 : forall i e, nth_error pool1 i = Some e -> he_used e = true -> In i (j :: L)).
    { intros i e1 N1 U1. destruct (Nat.eq_dec i j) as [->|D]; [now left|]. right. rewrite NO in N1 by exact D. exact (hi_used _ _ _ _ H i e1 N1 U1). }
    assert (HP1 : Z.of_nat (length pool1) < 65535) by lia. rewrite (prev_in_path pool1 _ _ _ j HP1 ND1 SG1 US1 [] L eq_refl). cbn [rev]. change (list_end =? list_end) with true. cbn iota.
    assert (LN : (length (j :: L) <= n)%nat).
    { rewrite <- (seq_length n 0). apply NoDup_incl_length; [exact ND1|]. intros i HI. apply in_seq.
      destruct HI as [<-|HI]; [lia|]. pose proof (hi_lt _ _ _ _ H i HI). lia. }
    cbn [length] in LN. replace (zlen (v_track v) =? Z.of_nat n) with false by lia.
    eexists _, _. split; [reflexivity|]. apply (store_common n s v L) with (L2 := j :: L); try assumption; try reflexivity.
    exists []. now rewrite app_nil_r.
  - assert (LN : length L = n).
    { apply Nat.le_antisymm; [exact PN|]. rewrite <- (seq_length n 0). apply NoDup_incl_length; [apply seq_NoDup|].
      intros i HI. apply in_seq in HI. destruct (nth_error (hp_pool s) i) as [e1|] eqn:N1; [exact (hi_used _ _ _ _ H i e1 N1 (AU _ _ N1))|].
      apply nth_error_None in N1. lia. }
    destruct (@exists_last _ L) as (L0 & i & EL); [intros X; subst L; cbn in LN; lia|].
    assert (HPL : Z.of_nat (length (hp_pool s)) < 65535) by lia.
    rewrite (prev_of_end _ _ _ _ HPL ND SG (hi_used _ _ _ _ H)) in NI. rewrite EL, rev_app_distr in NI. cbn in NI.
    assert (IL : In i L) by (rewrite EL; apply in_or_app; right; now left). pose proof (hi_lt _ _ _ _ H i IL) as IN.
    rewrite NI. replace (Z.of_nat i =? list_end) with false by (unfold list_end; lia).
    replace (in_pool (hp_pool s) (Z.of_nat i)) with true by (unfold in_pool, zlen; lia). cbn [orb negb]. rewrite Nat2Z.id.
    replace (zlen (v_track v) =? Z.of_nat n) with true by lia.
    pose proof SG as SG'. rewrite EL in SG'. apply seg_split in SG'. destruct SG' as (T0 & b & TB & e1 & ET & LT & SA & N1 & U1 & B1 & SB).
    destruct TB as [|? ?]; [|destruct SB]. cbn in SB. rewrite ET, removelast_tail.
    remember (lupd (hp_pool s) i (fun _ => e)) as pool1 eqn:EP.
    assert (L1 : length pool1 = n) by (subst pool1; now rewrite len_lupd).
    assert (NJ : nth_error pool1 i = Some e) by (subst pool1; rewrite nth_lupd, Nat.eqb_refl, N1; reflexivity).
    assert (NO : forall k, k <> i -> nth_error pool1 k = nth_error (hp_pool s) k).
    { intros k D. subst pool1. rewrite nth_lupd. destruct (Nat.eqb_spec k i); [congruence|reflexivity]. }
    assert (NIL : ~ In i L0). { intros X. rewrite EL in ND. apply NoDup_remove_2 in ND. apply ND. rewrite app_nil_r. exact X. }
    assert (PV : prev_entry pool1 (Z.of_nat i) = Z.of_nat (match rev L0 with [] => i | j :: _ => j end)).
    { unfold prev_entry. destruct (prev_ok pool1 0 (Z.of_nat i)) as [(j & ej & Nj & Uj & Xj & Rj)|[R X]]; [lia|unfold zlen; lia| |].
      - rewrite Rj. destruct (Nat.eq_dec j i) as [->|D].
        + rewrite NJ in Nj. inversion Nj; subst ej. rewrite NE in Xj. destruct L0 as [|x L0]; [cbn; lia|].
          rewrite EL in SG. apply seg_head in SG. exfalso. apply NIL. left. lia.
        + rewrite NO in Nj by exact D. pose proof (hi_used _ _ _ _ H _ _ Nj Uj) as HJ.
          destruct (pred_in _ _ _ _ i j ej ND SG HPL HJ IL Nj Xj L0 [] EL) as (A1 & ->). rewrite rev_app_distr. cbn. lia.
      - exfalso. destruct (rev L0) as [|j R0] eqn:RE.
        + assert (L0 = []) by (rewrite <- (rev_involutive L0), RE; reflexivity). subst L0. rewrite EL in SG. apply seg_head in SG.
          apply (X i e NJ UE). congruence.
        + assert (EA : L0 = rev R0 ++ [j]) by (rewrite <- (rev_involutive L0), RE; reflexivity).
          assert (JI : In j L0) by (rewrite EA; apply in_or_app; right; now left).
          rewrite EA in SA. destruct (seg_split _ _ _ _ _ _ _ SA) as (TA' & b' & TB' & ej & _ & _ & _ & Nj & Uj & _ & SJ).
          destruct TB' as [|? ?]; [|destruct SJ]. cbn in SJ. apply (X j ej); [rewrite NO by congruence; exact Nj|exact Uj|exact SJ]. }
    rewrite PV. set (j := match rev L0 with [] => i | j :: _ => j end) in *.
    assert (JN : (j < n)%nat).
    { unfold j. destruct (rev L0) as [|k R0] eqn:RE; [exact IN|]. apply (hi_lt _ _ _ _ H). rewrite EL. apply in_or_app. left.
      apply in_rev. rewrite RE. now left. }
    replace (Z.of_nat j =? list_end) with false by (unfold list_end; lia).
    replace (in_pool pool1 (Z.of_nat j)) with true by (unfold in_pool, zlen; lia). rewrite Nat2Z.id.
    eexists _, _. split; [reflexivity|]. apply (store_common n s v L) with (L2 := i :: L0); cbn [hp_pool hp_head hp_count hp_max]; try assumption; try reflexivity.
    + now rewrite len_lupd.
    + constructor; [exact NIL|]. rewrite EL in ND. apply NoDup_remove_1 in ND. now rewrite app_nil_r in ND.
    + cbn [seg]. split; [reflexivity|]. destruct (rev L0) as [|k R0] eqn:RE.
      * assert (L0 = []) by (rewrite <- (rev_involutive L0), RE; reflexivity). subst L0. destruct T0; [|cbn in LT; discriminate].
        exists (set_next list_end e). rewrite nth_lupd. subst j. rewrite Nat.eqb_refl, NJ. cbn [option_map]. repeat split; [exact UE|exact BE].
      * assert (EA : L0 = rev R0 ++ [k]) by (rewrite <- (rev_involutive L0), RE; reflexivity). subst j.
        assert (KI : In k L0) by (rewrite EA; apply in_or_app; right; now left).
        exists e. rewrite nth_lupd. destruct (Nat.eqb_spec i k) as [<-|D]; [contradiction|]. split; [exact NJ|]. split; [exact UE|]. split; [exact BE|].
        rewrite NE, EA. rewrite EA in SA. apply (seg_retarget (hp_pool s)) with (t := Z.of_nat i); [exact SA| |].
        -- intros m Hm. rewrite nth_lupd. destruct (Nat.eqb_spec m k) as [->|D2].
           ++ exfalso. rewrite EL, EA, <- app_assoc in ND. apply NoDup_remove_2 in ND. apply ND. apply in_or_app. now left.
           ++ apply NO. intros ->. apply NIL. rewrite EA. apply in_or_app. now left.
        -- rewrite nth_lupd, Nat.eqb_refl. f_equal. apply NO. congruence.
    + intros k ek Nk Uk. rewrite nth_lupd in Nk. destruct (Nat.eq_dec k i) as [->|D]; [now left|]. right.
      assert (exists e2, nth_error (hp_pool s) k = Some e2 /\ he_used e2 = true) as (e2 & N2 & U2).
      { rewrite NO in Nk by exact D. destruct (Nat.eqb k j); [|eauto]. destruct (nth_error (hp_pool s) k) as [e2|]; [|discriminate]. cbn in Nk. inversion Nk; subst ek. eauto. }
      pose proof (hi_used _ _ _ _ H _ _ N2 U2) as HI. rewrite EL in HI. apply in_app_or in HI. destruct HI as [HI|[HI|[]]]; [exact HI|congruence].
    + exists [b]. exact ET.
Qed.

Lemma find_ok ptr : forall l k, match find_ptr l k ptr with
  | Some i => exists j e, i = (k + j)%nat /\ nth_error l j = Some e /\ he_used e = true /\ he_ptr e = ptr
  | None => forall j e, nth_error l j = Some e -> he_used e = true -> he_ptr e <> ptr
  end.
Proof.
  induction l as [|e r IH]; intros k; cbn; [intros [|j]; discriminate|].
  destruct ((he_ptr e =? ptr) && he_used e) eqn:E.
  - apply andb_true_iff in E. exists 0%nat, e. split; [lia|]. split; [reflexivity|]. split; [apply E|lia].
  - specialize (IH (S k)). destruct (find_ptr r (S k) ptr) as [i|].
    + destruct IH as (j & e1 & A & B & C). exists (S j), e1. split; [lia|]. auto.
    + intros [|j] e1 N U; cbn in N; [|now apply (IH j)]. inversion N; subst e1. rewrite U, andb_true_r in E. lia.
Qed.

Lemma remove_len (x : Z) : forall l, NoDup l -> In x l -> zlen (remove Z.eq_dec x l) = zlen l - 1.
Proof.
  induction l as [|y l IH]; intros ND HI; [destruct HI|]. inversion ND; subst. cbn. rewrite zlen_cons. destruct (Z.eq_dec x y) as [->|D].
  - rewrite notin_remove by assumption. lia.
  - destruct HI as [HI|HI]; [congruence|]. rewrite zlen_cons, IH by assumption. lia.
Qed.
Lemma remove_nodup (x : Z) : forall l, NoDup l -> NoDup (remove Z.eq_dec x l).
Proof.
  induction l as [|y l IH]; intros ND; [constructor|]. inversion ND; subst. cbn. destruct (Z.eq_dec x y); [auto|]. constructor; [|auto].
  intros X. apply in_remove in X. tauto.
Qed.
Lemma filter_other ptr : forall T : list block, ~ In ptr (map b_ptr T) -> filter (fun b => negb (b_ptr b =? ptr)) T = T.
Proof.
  induction T as [|b T IH]; intros H; [reflexivity|]. cbn in *. destruct (b_ptr b =? ptr) eqn:E; [exfalso; apply H; left; lia|].
  cbn. f_equal. apply IH. tauto.
Qed.

Lemma free_common n s v L ptr s2 L2 T2 : hinv n s v L -> In ptr (v_live v) ->
  length (hp_pool s2) = n -> NoDup L2 -> seg (hp_pool s2) (hp_head s2) L2 T2 list_end ->
  (forall i e, nth_error (hp_pool s2) i = Some e -> he_used e = true -> In i L2) ->
  NoDup (map b_ptr T2) -> incl (map b_ptr T2) (map b_ptr (v_track v)) -> ~ In ptr (map b_ptr T2) ->
  hp_count s2 = zlen (v_live v) - 1 -> hp_max s2 = v_most v ->
  hinv n s2 (mk_hv (remove Z.eq_dec ptr (v_live v)) T2 (v_most v)) L2.
Proof.
  intros H HI A1 A2 A3 A4 A5 A6 A7 A8 A9. pose proof (remove_len ptr _ (hi_live _ _ _ _ H) HI) as RL.
  pose proof (hi_big _ _ _ _ H). pose proof (hi_most _ _ _ _ H).
  constructor; cbn [v_live v_track v_most]; try assumption; try lia.
  - exact (hi_n _ _ _ _ H).
  - apply remove_nodup, (hi_live _ _ _ _ H).
  - intros x Hx. apply in_in_remove; [congruence|]. apply (hi_incl _ _ _ _ H), A6, Hx.
Qed.

Lemma seg_ptr pool t : forall L T h b, seg pool h L T t -> In b T -> exists i e, In i L /\ nth_error pool i = Some e /\ he_used e = true /\ block_of e = b.
Proof.
  induction L as [|i L IH]; intros [|b0 T] h b H HI; cbn in *; try contradiction.
  destruct H as (_ & e & A & B & C & H). destruct HI as [<-|HI]; [eauto 7|]. destruct (IH _ _ _ H HI) as (k & e1 & X1 & X2). eauto 7.
Qed.

Lemma free_ok n s v L ptr v' : hinv n s v L -> hv_step (Z.of_nat n) v (HFree ptr) = Some v' ->
  exists s' L', heap_free s ptr = Some s' /\ hinv n s' v' L'.
Proof.
  intros H E. cbn [hv_step] in E. unfold heap_free. destruct (ptr =? 0) eqn:P0; [inv E; eauto|].
  destruct (existsb (Z.eqb ptr) (v_live v)) eqn:C; [|discriminate]. inversion E; subst v'; clear E.
  apply existsb_exists in C. destruct C as (p & HP & X). assert (p = ptr) by lia. subst p. clear X.
  pose proof (hi_big _ _ _ _ H) as HB. 
  assert (ZP : 1 <= zlen (v_live v)). { destruct (v_live v); [destruct HP|]. rewrite zlen_cons. znn. lia. }
  assert (CD : count_down s = mk_hp (zlen (v_live v) - 1) (v_most v) (hp_head s) (hp_pool s)).
  { unfold count_down. rewrite (hi_count _ _ _ _ H), (hi_max _ _ _ _ H). f_equal. apply u32_id. unfold is_u32. lia. }
  rewrite CD. cbn zeta. cbn [hp_pool hp_head hp_count hp_max].
  pose proof (hi_n _ _ _ _ H) as HN. pose proof (hi_pool _ _ _ _ H) as PL.
  pose proof (hi_seg _ _ _ _ H) as SG. pose proof (hi_nodup _ _ _ _ H) as ND. pose proof (hi_track _ _ _ _ H) as TT.
  pose proof (find_ok ptr (hp_pool s) 0) as F. destruct (find_ptr (hp_pool s) 0 ptr) as [i|].
  - destruct F as (j & e & EI & N & U & PE). cbn in EI. subst j. rewrite N. cbn [bind].
    pose proof (hi_used _ _ _ _ H _ _ N U) as IL. pose proof (hi_lt _ _ _ _ H i IL) as IN.
    rewrite u16_id by (unfold is_u16; lia).
    remember (lupd (hp_pool s) i (fun e0 => mk_he (he_lr e0) (he_ptr e0) (he_size e0) false (he_next e0))) as pool1 eqn:EP.
    assert (L1 : length pool1 = n) by (subst pool1; now rewrite len_lupd).
    assert (NJ : exists e1, nth_error pool1 i = Some e1 /\ he_used e1 = false) by (subst pool1; rewrite nth_lupd, Nat.eqb_refl, N; cbn; eauto).
    assert (NO : forall k, k <> i -> nth_error pool1 k = nth_error (hp_pool s) k).
    { intros k D. subst pool1. rewrite nth_lupd. destruct (Nat.eqb_spec k i); [congruence|reflexivity]. }
    clear EP. destruct NJ as (e1 & NJ & UJ).
    destruct (in_split _ _ IL) as (A & B & EL).
    pose proof SG as SG'. rewrite EL in SG'. apply seg_split in SG'. destruct SG' as (TA & b & TB & e2 & ET & LT & SA & N2 & U2 & B2 & SB).
    rewrite N in N2. inversion N2; subst e2; clear N2.
    assert (PB : b_ptr b = ptr) by (rewrite <- B2; exact PE).
    rewrite ET, map_app in TT. cbn [map] in TT. rewrite PB in TT.
    pose proof (NoDup_remove_2 _ _ _ TT) as NPT. pose proof (NoDup_remove_1 _ _ _ TT) as TT2.
    assert (FT : filter (fun b => negb (b_ptr b =? ptr)) (v_track v) = TA ++ TB).
    { rewrite ET, filter_app. cbn. rewrite PB, Z.eqb_refl. cbn. rewrite !filter_other; [reflexivity| |]; intros X; apply NPT; apply in_or_app; auto. }
    rewrite FT. rewrite EL in ND. pose proof (NoDup_remove_2 _ _ _ ND) as NIL. pose proof (NoDup_remove_1 _ _ _ ND) as ND2.
    assert (PV : prev_entry pool1 (Z.of_nat i) = match rev A with [] => list_end | j :: _ => Z.of_nat j end).
    { unfold prev_entry. destruct (prev_ok pool1 0 (Z.of_nat i)) as [(j & ej & Nj & Uj & Xj & Rj)|[R X]]; [lia|unfold zlen; lia| |].
      - rewrite Rj. assert (D : j <> i) by (intros ->; congruence).
        rewrite NO in Nj by exact D. pose proof (hi_used _ _ _ _ H _ _ Nj Uj) as HJ.
        assert (HPL : Z.of_nat (length (hp_pool s)) < 65535) by lia.
        destruct (pred_in _ _ _ _ i j ej (hi_nodup _ _ _ _ H) SG HPL HJ IL Nj Xj A B EL) as (A1 & ->). rewrite rev_app_distr. cbn. lia.
      - rewrite R. destruct (rev A) as [|j R0] eqn:RE; [reflexivity|]. exfalso.
        assert (EA : A = rev R0 ++ [j]) by (rewrite <- (rev_involutive A), RE; reflexivity).
        rewrite EA in SA. destruct (seg_split _ _ _ _ _ _ _ SA) as (TA' & b' & TB' & ej & _ & _ & _ & Nj & Uj & _ & SJ).
        destruct TB' as [|? ?]; [|destruct SJ]. cbn in SJ. apply (X j ej); [rewrite NO; [exact Nj|]|exact Uj|exact SJ].
        intros ->. apply NIL. rewrite EA. apply in_or_app. left. apply in_or_app. right. now left. }
    rewrite PV.
    assert (USED : forall pool3, (forall k ek, nth_error pool3 k = Some ek -> he_used ek = true -> exists e3, nth_error pool1 k = Some e3 /\ he_used e3 = true) ->
      forall k ek, nth_error pool3 k = Some ek -> he_used ek = true -> In k (A ++ B)).
    { intros pool3 F3 k ek Nk Uk. destruct (F3 _ _ Nk Uk) as (e3 & N3 & U3). assert (D : k <> i) by (intros ->; congruence).
      rewrite NO in N3 by exact D. pose proof (hi_used _ _ _ _ H _ _ N3 U3) as HI. rewrite EL in HI. apply in_app_or in HI. apply in_or_app.
      destruct HI as [HI|[HI|HI]]; [auto|congruence|auto]. }
    assert (INC : incl (map b_ptr (TA ++ TB)) (map b_ptr (v_track v))).
    { rewrite ET, !map_app. intros x Hx. apply in_app_or in Hx. apply in_or_app. destruct Hx; [auto|right; now right]. }
    destruct (rev A) as [|j R0] eqn:RE.
    + assert (A = []) by (rewrite <- (rev_involutive A), RE; reflexivity). subst A. destruct TA; [|cbn in LT; discriminate].
      change (list_end =? list_end) with true. cbn [bind]. cbn in SA. rewrite SA, Z.eqb_refl.
      eexists _, B. split; [reflexivity|]. apply (free_common n s v L); cbn [hp_pool hp_head hp_count hp_max app]; try assumption; try reflexivity.
      * now rewrite len_lupd.
      * apply (seg_frame (hp_pool s)); [exact SB|]. intros k Hk. assert (k <> i) by (intros ->; apply NIL; exact Hk).
        rewrite nth_lupd. destruct (Nat.eqb_spec k i); [contradiction|]. now apply NO.
      * apply USED. intros k ek Nk Uk. rewrite nth_lupd in Nk. destruct (Nat.eqb k i); [|eauto].
        destruct (nth_error pool1 k) as [e3|]; [|discriminate]. cbn in Nk. inversion Nk; subst ek. eauto.
    + assert (EA : A = rev R0 ++ [j]) by (rewrite <- (rev_involutive A), RE; reflexivity).
      assert (JA : In j A) by (rewrite EA; apply in_or_app; right; now left).
      assert (JD : j <> i) by (intros ->; apply NIL; apply in_or_app; now left).
      assert (JN : (j < n)%nat) by (apply (hi_lt _ _ _ _ H); rewrite EL; apply in_or_app; now left).
      replace (Z.of_nat j =? list_end) with false by (unfold list_end; lia).
      replace (in_pool pool1 (Z.of_nat j)) with true by (unfold in_pool, zlen; lia). rewrite Nat2Z.id. cbn [bind].
      assert (HD : (hp_head s =? Z.of_nat i) = false).
      { destruct A as [|a A']; [destruct JA|]. rewrite EL in SG. apply seg_head in SG. assert (a <> i) by (intros ->; apply NIL; now left). lia. }
      rewrite HD. eexists _, (A ++ B). split; [reflexivity|].
      assert (OTH : forall k, In k (A ++ B) -> k <> j -> nth_error (lupd (lupd pool1 j (set_next (he_next e))) i (set_next list_end)) k = nth_error (hp_pool s) k).
      { intros k Hk D. assert (k <> i) by (intros ->; apply NIL; exact Hk). rewrite !nth_lupd. destruct (Nat.eqb_spec k i); [contradiction|].
        destruct (Nat.eqb_spec k j); [contradiction|]. now apply NO. }
      assert (NJB : ~ In j (rev R0 ++ B)). { rewrite EA, <- app_assoc in ND2. cbn in ND2. exact (NoDup_remove_2 _ _ _ ND2). }
      apply (free_common n s v L); cbn [hp_pool hp_head hp_count hp_max]; try assumption; try reflexivity.
      * now rewrite !len_lupd.
      * apply seg_app; [exact LT|]. exists (he_next e). split.
        -- rewrite EA in SA |- *. apply (seg_retarget (hp_pool s)) with (t := Z.of_nat i); [exact SA| |].
           ++ intros k Hk. apply OTH; [rewrite EA; apply in_or_app; left; apply in_or_app; now left|]. intros ->. apply NJB. apply in_or_app. now left.
           ++ rewrite nth_lupd. destruct (Nat.eqb_spec j i); [contradiction|]. rewrite nth_lupd, Nat.eqb_refl. f_equal. now apply NO.
        -- apply (seg_frame (hp_pool s)); [exact SB|]. intros k Hk. apply OTH; [apply in_or_app; now right|]. intros ->. apply NJB. apply in_or_app. now right.
      * apply USED. intros k ek Nk Uk. rewrite !nth_lupd in Nk. destruct (Nat.eqb k i), (Nat.eqb k j); destruct (nth_error pool1 k) as [e3|]; cbn in Nk; try discriminate;
          inversion Nk; subst ek; eauto.
      * now rewrite map_app.
      * now rewrite map_app.
  - assert (NT : ~ In ptr (map b_ptr (v_track v))).
    { intros X. apply in_map_iff in X. destruct X as (b & PB & HI). destruct (seg_ptr _ _ _ _ _ _ SG HI) as (i & e & _ & N & U & BE).
      apply (F i e N U). rewrite <- PB, <- BE. reflexivity. }
    rewrite filter_other by exact NT. eexists _, L. split; [reflexivity|].
    apply (free_common n s v L); cbn [hp_pool hp_head hp_count hp_max]; try assumption; try reflexivity.
    + exact (hi_used _ _ _ _ H).
    + intros x; auto.
Qed.

Lemma heap_run_inv n : forall ops s v L v', hinv n s v L -> hv_run (Z.of_nat n) v ops = Some v' ->
  exists s' L', heap_run s ops = Some s' /\ hinv n s' v' L'.
Proof.
  induction ops as [|o ops IH]; intros s v L v' H E; cbn in *; [inv E; eauto|].
  binv E. destruct o as [lr ptr size|ptr|].
  - destruct (malloc_ok _ _ _ _ _ _ _ _ H E0) as (s1 & L1 & R & H1). cbn. rewrite R. cbn [bind]. eauto.
  - destruct (free_ok _ _ _ _ _ _ H E0) as (s1 & L1 & R & H1). cbn. rewrite R. cbn [bind]. eauto.
  - cbn in E0. inversion E0; subst. cbn. rewrite (hi_pool _ _ _ _ H). eapply IH; [|eassumption]. apply init_inv, (hi_n _ _ _ _ H).
Qed.

Lemma used_perm pool h L T : NoDup L -> seg pool h L T list_end -> (forall i e, nth_error pool i = Some e -> he_used e = true -> In i L) ->
  NoDup (map b_ptr T) -> Permutation (map block_of (filter he_used pool)) T.
Proof.
  intros ND SG US NT.
  assert (ET : exists es, map block_of es = T /\ Forall2 (fun i e => nth_error pool i = Some e /\ he_used e = true) L es).
  { clear -SG. revert T h SG. induction L as [|i L IH]; intros [|b T] h SG; cbn in SG; try contradiction; [exists []; split; [reflexivity|constructor]|].
    destruct SG as (_ & e & A & B & C & SG). destruct (IH _ _ SG) as (es & <- & F). exists (e :: es). split; [cbn; congruence|]. constructor; auto. }
  destruct ET as (es & ET & F). rewrite <- ET. apply Permutation_map.
  assert (G : forall (p : list hentry) (k : nat) M ms, NoDup M -> Forall2 (fun i e => (k <= i)%nat /\ nth_error p (i - k) = Some e /\ he_used e = true) M ms ->
    (forall i e, nth_error p i = Some e -> he_used e = true -> In (k + i)%nat M) -> Permutation (filter he_used p) ms).
  { induction p as [|e p IH]; intros k M ms NM FM UM.
    - destruct FM as [|i x M ms (A & B & C) FM]; [constructor|]. destruct (i - k)%nat; discriminate.
    - cbn. destruct (he_used e) eqn:UE.
      + pose proof (UM 0%nat e eq_refl UE) as K. rewrite Nat.add_0_r in K. destruct (in_split _ _ K) as (M1 & M2 & ->).
        apply Forall2_app_inv_l in FM. destruct FM as (m1 & m2 & F1 & F2 & ->). inversion F2 as [|? x ? m2' (A & B & C) F2']; subst.
        rewrite Nat.sub_diag in B. inversion B; subst x. apply Permutation_cons_app.
        apply (IH (S k) (M1 ++ M2)); [exact (NoDup_remove_1 _ _ _ NM)| |].
        * assert (G : forall M ms, Forall2 (fun i e0 => (k <= i)%nat /\ nth_error (e :: p) (i - k) = Some e0 /\ he_used e0 = true) M ms -> ~ In k M ->
            Forall2 (fun i e0 => (S k <= i)%nat /\ nth_error p (i - S k) = Some e0 /\ he_used e0 = true) M ms).
          { clear. intros M ms H. induction H as [|i x M ms (A & B & C) H IH]; intros NI; constructor.
            - assert (i <> k) by (intros ->; apply NI; now left). split; [lia|]. replace (i - k)%nat with (S (i - S k)) in B by lia. auto.
            - apply IH. intros X. apply NI. now right. }
          pose proof (NoDup_remove_2 _ _ _ NM) as NI. apply Forall2_app; apply G; try assumption; intros X; apply NI, in_or_app; auto.
        * intros i x Ni Ui. pose proof (UM (S i) x Ni Ui) as HI. apply in_app_or in HI. apply in_or_app. destruct HI as [HI|[HI|HI]]; [|lia|].
          -- left. now replace (S k + i)%nat with (k + S i)%nat by lia.
          -- right. now replace (S k + i)%nat with (k + S i)%nat by lia.
      + assert (NK : ~ In k M).
        { intros X. clear -X FM UE. induction FM as [|i x M ms (A & B & C) FM IH]; [destruct X|]. destruct X as [->|X]; [|auto].
          rewrite Nat.sub_diag in B. cbn in B. congruence. }
        apply (IH (S k) M ms NM).
        * clear -FM NK. induction FM as [|i x M ms (A & B & C) FM IH]; constructor.
          -- assert (i <> k) by (intros ->; apply NK; now left). split; [lia|]. replace (i - k)%nat with (S (i - S k)) in B by lia. auto.
          -- apply IH. intros X. apply NK. now right.
        * intros i x Ni Ui. pose proof (UM (S i) x Ni Ui) as HI. now replace (S k + i)%nat with (k + S i)%nat by lia. }
  apply (G pool 0%nat L es ND).
  - clear -F. induction F as [|i e L es (A & B) F IH]; constructor; [|exact IH]. rewrite Nat.sub_0_r. split; [lia|auto].
  - exact US.
Qed.

Lemma heap_ok n ops v : 1 <= Z.of_nat n < 65535 -> hv_run (Z.of_nat n) (mk_hv [] [] 0) ops = Some v ->
  exists s es, heap_run (heap_init n) ops = Some s /\ follow n (hp_pool s) (hp_head s) = Some es /\
    map block_of es = v_track v /\ Forall (fun e => he_used e = true) es /\
    Permutation (map block_of (filter he_used (hp_pool s))) (v_track v) /\
    hp_count s = zlen (v_live v) /\ hp_max s = v_most v.
Proof.
  intros HN E. destruct (heap_run_inv n ops _ _ _ _ (init_inv n HN) E) as (s & L & R & H).
  destruct (path_len _ _ _ _ H) as [_ PN]. destruct (seg_follow _ _ _ _ n (hi_seg _ _ _ _ H) PN) as (es & F1 & F2 & F3); [rewrite (hi_pool _ _ _ _ H); lia|].
  exists s, es. repeat split; try assumption.
  - apply (used_perm _ _ L _ (hi_nodup _ _ _ _ H) (hi_seg _ _ _ _ H) (hi_used _ _ _ _ H) (hi_track _ _ _ _ H)).
  - exact (hi_count _ _ _ _ H).
  - exact (hi_max _ _ _ _ H).
Qed.

Definition empty_inv (n : nat) (s : heap) (b : bool) : Prop :=
  length (hp_pool s) = n /\
  if b then exists e r, hp_pool s = e :: r /\ he_size e <> 0 else hp_pool s = hp_pool (heap_init n).

Lemma lupd_size f e r i : (forall e, he_size (f e) = he_size e) -> he_size e <> 0 ->
  exists e' r', lupd (e :: r) i f = e' :: r' /\ he_size e' <> 0.
Proof. intros F H. destruct i as [|i]; cbn; eexists _, _; split; try reflexivity; [now rewrite F|exact H]. Qed.
Lemma lupd_size_any f pool i : (forall e, he_size (f e) = he_size e) -> (exists e r, pool = e :: r /\ he_size e <> 0) ->
  exists e' r', lupd pool i f = e' :: r' /\ he_size e' <> 0.
Proof. intros F (e & r & -> & H). now apply lupd_size. Qed.
Lemma find_init ptr : forall n k, find_ptr (repeat (mk_he 0 0 0 false 0) n) k ptr = None.
Proof. induction n as [|n IH]; intros k; cbn; [reflexivity|]. rewrite andb_false_r. apply IH. Qed.

Lemma empty_step n s b o s' : (1 <= n)%nat -> sized o -> empty_inv n s b -> heap_step s o = Some s' -> empty_inv n s' (seen b [o]).
Proof.
  intros HN SZ [HL HB] E. destruct o as [lr ptr size|ptr|]; cbn [heap_step seen sized] in *.
  - unfold heap_malloc in E. destruct (ptr =? 0); [cbn; rewrite orb_false_r; inversion E; subst s'; split; assumption|]. cbn [negb]. rewrite orb_true_r. cbn zeta in E.
    replace (hp_pool (count_up s)) with (hp_pool s) in E by reflexivity.
    assert (LZ : Z.land size 2147483647 <> 0) by (rewrite land31; exact SZ).
    destruct ((new_index (hp_pool s) =? list_end) || negb (in_pool (hp_pool s) (new_index (hp_pool s)))) eqn:G; [discriminate|].
    remember (mk_he lr ptr (Z.land size 2147483647) true (hp_head (count_up s))) as e eqn:Ee.
    assert (SE : he_size e <> 0) by (subst e; exact LZ). clear Ee.
    assert (P1 : exists e' r', lupd (hp_pool s) (Z.to_nat (new_index (hp_pool s))) (fun _ => e) = e' :: r' /\ he_size e' <> 0).
    { destruct b.
      - clear -HB SE. destruct HB as (e0 & r & -> & H0). cbn [lupd]. destruct (Z.to_nat _); eauto.
      - clear -HB HN SE. rewrite HB. destruct n as [|n]; [lia|].
        replace (new_index (hp_pool (heap_init (S n)))) with 0 by reflexivity. change (Z.to_nat 0) with 0%nat. cbn. eauto. }
    assert (L1 : length (lupd (hp_pool s) (Z.to_nat (new_index (hp_pool s))) (fun _ => e)) = n) by now rewrite len_lupd.
    remember (lupd (hp_pool s) (Z.to_nat (new_index (hp_pool s))) (fun _ => e)) as pool1 eqn:EP. clear EP.
    destruct (prev_entry pool1 (new_index (hp_pool s)) =? list_end); [inv E; split; [exact L1|exact P1]|].
    destruct (in_pool pool1 _); [|discriminate]. inv E. split; [cbn; now rewrite len_lupd|]. cbn. now apply lupd_size_any.
  - unfold heap_free in E. destruct (ptr =? 0); [inversion E; subst s'; split; assumption|]. cbn zeta in E.
    replace (hp_pool (count_down s)) with (hp_pool s) in E by reflexivity.
    destruct b.
    + destruct (find_ptr (hp_pool s) 0 ptr) as [i|]; [|inversion E; subst s'; split; assumption].
      binv E. binv E. inv E. 
      match type of E1 with context [in_pool ?p _] => set (pool1 := p) in * end.
      assert (L1 : length pool1 = length (hp_pool s)) by (unfold pool1; now rewrite len_lupd).
      assert (P1 : exists e r, pool1 = e :: r /\ he_size e <> 0) by (now apply lupd_size_any). clearbody pool1.
      assert (length v0 = length (hp_pool s) /\ exists e r, v0 = e :: r /\ he_size e <> 0) as [L2 P2].
      { destruct (prev_entry pool1 _ =? list_end); [inv E1; auto|]. destruct (in_pool pool1 _); [|discriminate]. inv E1.
        split; [now rewrite len_lupd|now apply lupd_size_any]. }
      split; cbn; [now rewrite len_lupd|now apply lupd_size_any].
    + rewrite HB in E. cbn [heap_init hp_pool] in E. rewrite find_init in E. inversion E; subst s'. split; assumption.
  - inv E. split; cbn; [apply repeat_length|reflexivity].
Qed.
Lemma seen_cons b o r : seen b (o :: r) = seen (seen b [o]) r.
Proof. destruct o; reflexivity. Qed.
Lemma empty_run n : (1 <= n)%nat -> forall ops s b s', Forall sized ops -> empty_inv n s b -> heap_run s ops = Some s' -> empty_inv n s' (seen b ops).
Proof.
  intros HN. induction ops as [|o ops IH]; intros s b s' SZ H E; [inv E; exact H|]. cbn [heap_run] in E. binv E. inversion SZ; subst.
  rewrite seen_cons. eapply IH; [assumption| |exact E]. eapply empty_step; eassumption.
Qed.
Lemma empty_ok n ops s : (1 <= n)%nat -> Forall sized ops -> heap_run (heap_init n) ops = Some s -> heap_empty s = Some (negb (seen false ops)).
Proof.
  intros HN SZ E. destruct (empty_run n HN ops (heap_init n) false s SZ) as [L B]; [split; [apply repeat_length|reflexivity]|exact E|].
  unfold heap_empty. destruct (seen false ops).
  - destruct B as (e & r & -> & H). cbn. replace (he_size e =? 0) with false by lia. reflexivity.
  - rewrite B. destruct n; [lia|]. reflexivity.
Qed.

Lemma unseen_free n : 1 <= Z.of_nat n < 65535 ->
  exists s, heap_run (heap_init n) [HFree 100; HFree 200; HMalloc 1 300 8] = Some s /\ hp_count s = 4294967295 /\ hp_max s = 4294967295.
Proof.
  intros HN. cbn [heap_run heap_step]. unfold heap_free at 1. change (100 =? 0) with false. cbn zeta iota.
  change (hp_pool (count_down (heap_init n))) with (repeat (mk_he 0 0 0 false 0) n). rewrite find_init. cbn [bind].
  unfold heap_free at 1. change (200 =? 0) with false. cbn zeta iota.
  change (hp_pool (count_down (count_down (heap_init n)))) with (repeat (mk_he 0 0 0 false 0) n). rewrite find_init. cbn [bind].
  unfold heap_malloc. change (300 =? 0) with false. cbn zeta iota.
  change (hp_pool (count_up (count_down (count_down (heap_init n))))) with (repeat (mk_he 0 0 0 false 0) n).
  destruct n as [|n]; [lia|].
  replace (new_index (repeat (mk_he 0 0 0 false 0) (S n))) with 0 by reflexivity.
  replace (in_pool (repeat (mk_he 0 0 0 false 0) (S n)) 0) with true
    by (unfold in_pool; cbn [repeat]; rewrite zlen_cons; pose proof (zlen_nonneg (repeat (mk_he 0 0 0 false 0) n)); lia).
  change (0 =? list_end) with false. cbn [orb negb]. change (Z.to_nat 0) with 0%nat. cbn [repeat lupd].
  match goal with |- context [prev_entry ?p 0] => set (pool := p) end.
  assert (PV : prev_entry pool 0 = list_end).
  { unfold prev_entry, pool. cbn [prev_from he_used he_next]. change (hp_head _ =? 0) with false. cbn [andb].
    generalize (0 + 1). clear. induction n as [|n IH]; intros k; cbn; [reflexivity|apply IH]. }
  rewrite PV. change (list_end =? list_end) with true. cbn [bind]. eexists. split; [reflexivity|]. split; reflexivity.
Qed.
