(** Proofs about the collection of task state. *)
From Coq Require Import Permutation.
From Verif Require Import Base TaskRegions TaskRegionsSpec.

(** ** Lists *)
Lemma set_at_app {A} (a : list A) x b i v : zlen a = i -> set_at (a ++ x :: b) i v = Some (a ++ v :: b).
Proof.
  intros <-. unfold set_at. rewrite zlen_app, zlen_cons. znn. pose proof (zlen_nonneg a). pose proof (zlen_nonneg b).
  replace ((0 <=? zlen a) && (zlen a <? zlen a + (1 + zlen b))) with true by lia.
  rewrite take_app_exact by lia. rewrite drop_app_ge by lia. replace (zlen a + 1 - zlen a) with 1 by lia. reflexivity.
Qed.
Lemma set_at_end {A} (l : list A) i v : zlen l <= i -> set_at l i v = None.
Proof. intros H. unfold set_at. replace (i <? zlen l) with false by lia. now rewrite andb_false_r. Qed.
Lemma get_app_here {A} (a : list A) x b i : zlen a = i -> get (a ++ x :: b) i = Some x.
Proof. intros <-. rewrite get_app2 by lia. replace (zlen a - zlen a) with 0 by lia. apply get_cons_0. Qed.
Lemma take_cons {A} n (x : A) l : 0 < n -> take n (x :: l) = x :: take (n - 1) l.
Proof. intros H. unfold take. replace (Z.to_nat n) with (S (Z.to_nat (n - 1))) by lia. reflexivity. Qed.
Lemma drop_cons {A} n (x : A) l : 0 < n -> drop n (x :: l) = drop (n - 1) l.
Proof. intros H. unfold drop. replace (Z.to_nat n) with (S (Z.to_nat (n - 1))) by lia. reflexivity. Qed.
Lemma get_cons_S {A} (x : A) l i : 0 < i -> get (x :: l) i = get l (i - 1).
Proof. intros H. unfold get. replace (i <? 0) with false by lia. replace (i - 1 <? 0) with false by lia.
  replace (Z.to_nat i) with (S (Z.to_nat (i - 1))) by lia. reflexivity. Qed.

(** ** The table *)
Definition used (slots : list Z) : list Z := filter (fun t => negb (t =? 0)) slots.

Lemma find_shift slots : forall i t, tr_find i slots t = match tr_find 0 slots t with Some j => Some (i + j) | None => None end.
Proof.
  induction slots as [|s slots IH]; intros i t; [reflexivity|]. cbn [tr_find]. destruct (s =? t).
  - f_equal. lia.
  - rewrite (IH (i + 1)), (IH (0 + 1)). destruct (tr_find 0 slots t); [f_equal; lia|reflexivity].
Qed.
Lemma find_split slots t : forall i, tr_find 0 slots t = Some i ->
  exists a b, slots = a ++ t :: b /\ zlen a = i /\ ~ In t a.
Proof.
  induction slots as [|s slots IH]; intros i H; [discriminate|]. cbn [tr_find] in H. destruct (s =? t) eqn:E.
  - injection H as <-. assert (s = t) by lia. subst. exists [], slots. repeat split; auto.
  - rewrite find_shift in H. destruct (tr_find 0 slots t) as [j|]; [|discriminate]. injection H as <-.
    destruct (IH j eq_refl) as (a & b & -> & L & N). exists (s :: a), b. split; [reflexivity|]. split; [rewrite zlen_cons; lia|].
    intros [X|X]; [lia|auto].
Qed.
Lemma find_none slots t : tr_find 0 slots t = None -> ~ In t slots.
Proof.
  induction slots as [|s slots IH]; intros H; [auto|]. cbn [tr_find] in H. destruct (s =? t) eqn:E; [discriminate|].
  rewrite find_shift in H. destruct (tr_find 0 slots t); [discriminate|]. intros [X|X]; [lia|now apply IH].
Qed.

Lemma used_app a b : used (a ++ b) = used a ++ used b.
Proof. apply filter_app. Qed.
Lemma used_full slots : ~ In 0 slots -> used slots = slots.
Proof.
  induction slots as [|s slots IH]; intros N; [reflexivity|]. cbn. destruct (s =? 0) eqn:E; [exfalso; apply N; left; lia|].
  cbn. f_equal. apply IH. intros X. apply N. now right.
Qed.
Lemma used_len slots : zlen (used slots) <= zlen slots.
Proof. unfold used. induction slots as [|s slots IH]; [reflexivity|]. cbn [filter]. destruct (negb (s =? 0)); rewrite ?zlen_cons; lia. Qed.
Lemma used_not0 slots t : In t (used slots) -> t <> 0.
Proof. intros H. apply filter_In in H as (_ & H). lia. Qed.

Lemma remove_one_in a t b : ~ In t a -> remove_one t (a ++ t :: b) = a ++ b.
Proof.
  induction a as [|x a IH]; intros N; cbn.
  - now rewrite Z.eqb_refl.
  - destruct (x =? t) eqn:E; [exfalso; apply N; left; lia|]. f_equal. apply IH. intros X. apply N. now right.
Qed.
Lemma remove_one_none t l : ~ In t l -> remove_one t l = l.
Proof.
  induction l as [|x l IH]; intros N; cbn; [reflexivity|]. destruct (x =? t) eqn:E; [exfalso; apply N; left; lia|].
  f_equal. apply IH. intros X. apply N. now right.
Qed.
Lemma remove_one_perm t l l' : Permutation l l' -> Permutation (remove_one t l) (remove_one t l').
Proof.
  induction 1; cbn.
  - constructor.
  - destruct (x =? t); [assumption|now constructor].
  - destruct (y =? t) eqn:Ey, (x =? t) eqn:Ex.
    + assert (x = t) by lia. assert (y = t) by lia. subst. reflexivity.
    + reflexivity.
    + reflexivity.
    + apply perm_swap.
  - etransitivity; eassumption.
Qed.

Definition ev (o : tr_op) : event := match o with TCreate t => Created t | TDelete t => Deleted t end.

Lemma create_ok slots t : t <> 0 -> exists slots', tr_create slots t = Some slots' /\ zlen slots' = zlen slots /\
  forall l, Permutation (used slots) l -> Permutation (used slots') (if zlen l <? zlen slots then l ++ [t] else l).
Proof.
  intros N. unfold tr_create. destruct (tr_find 0 slots 0) as [i|] eqn:F.
  - destruct (find_split slots 0 i F) as (a & b & -> & L & NI). rewrite set_at_app by exact L. eexists. split; [reflexivity|].
    split; [rewrite !zlen_app, !zlen_cons; reflexivity|]. intros l P.
    assert (zlen l = zlen (used (a ++ 0 :: b))) as E by (unfold zlen; now rewrite (Permutation_length P)).
    rewrite used_app in *. cbn [used filter negb Z.eqb] in *. fold (used b) in *. change (negb (0 =? 0)) with false in *. cbn [negb] in *.
    pose proof (used_len a). pose proof (used_len b). rewrite zlen_app in E. rewrite zlen_app, zlen_cons.
    replace (zlen l <? zlen a + (1 + zlen b)) with true by lia.
    replace (negb (t =? 0)) with true by lia. etransitivity; [|apply Permutation_cons_append].
    etransitivity; [symmetry; apply Permutation_middle|]. constructor. exact P.
  - eexists. split; [reflexivity|]. split; [reflexivity|]. intros l P.
    assert (zlen l = zlen (used slots)) as E by (unfold zlen; now rewrite (Permutation_length P)).
    rewrite used_full in E by now apply find_none. replace (zlen l <? zlen slots) with false by lia. exact P.
Qed.

Lemma delete_ok slots t : t <> 0 -> exists slots', tr_delete slots t = Some slots' /\ zlen slots' = zlen slots /\
  forall l, Permutation (used slots) l -> Permutation (used slots') (remove_one t l).
Proof.
  intros N. unfold tr_delete. destruct (tr_find 0 slots t) as [i|] eqn:F.
  - destruct (find_split slots t i F) as (a & b & -> & L & NI). rewrite set_at_app by exact L. eexists. split; [reflexivity|].
    split; [rewrite !zlen_app, !zlen_cons; reflexivity|]. intros l P. apply (remove_one_perm t) in P.
    etransitivity; [|exact P]. rewrite !used_app. cbn [used filter]. fold (used b). change (negb (0 =? 0)) with false. cbn iota.
    replace (negb (t =? 0)) with true by lia. rewrite remove_one_in; [reflexivity|].
    intros X. apply filter_In in X as (X & _). auto.
  - eexists. split; [reflexivity|]. split; [reflexivity|]. intros l P. apply (remove_one_perm t) in P. etransitivity; [|exact P].
    rewrite remove_one_none; [reflexivity|]. intros X. apply filter_In in X as (X & _). now apply (find_none _ _ F).
Qed.

Lemma run_tracks ops : Forall (fun o => task_of (ev o) <> 0) ops -> forall slots l, Permutation (used slots) l ->
  exists slots', tr_run slots ops = Some slots' /\ zlen slots' = zlen slots /\
    Permutation (used slots') (tracked (zlen slots) l (map ev ops)).
Proof.
  induction 1 as [|o ops N _ IH]; intros slots l P.
  - exists slots. split; [reflexivity|]. split; [reflexivity|exact P].
  - destruct o as [t|t]; cbn [ev task_of] in N.
    + destruct (create_ok slots t N) as (s1 & E & L & Q). specialize (Q l P). cbn [tr_run tr_step map ev tracked]. rewrite E. cbn [bind].
      destruct (IH s1 _ Q) as (s2 & E2 & L2 & Q2). exists s2. split; [exact E2|]. split; [congruence|]. rewrite <- L. rewrite L in *. exact Q2.
    + destruct (delete_ok slots t N) as (s1 & E & L & Q). specialize (Q l P). cbn [tr_run tr_step map ev tracked]. rewrite E. cbn [bind].
      destruct (IH s1 _ Q) as (s2 & E2 & L2 & Q2). exists s2. split; [exact E2|]. split; [congruence|]. rewrite L in *. exact Q2.
Qed.

Lemma used_empty n : used (repeat 0 n) = [].
Proof. induction n; [reflexivity|exact IHn]. Qed.

Lemma tracked_alive cap h : forall l, (forall h1 h2, h = h1 ++ h2 -> zlen (alive l h1) <= cap) -> tracked cap l h = alive l h.
Proof.
  induction h as [|e h IH]; intros l N; [reflexivity|]. destruct e as [t|t]; cbn [tracked alive].
  - pose proof (N [Created t] h eq_refl) as X. cbn [alive] in X. rewrite zlen_app, zlen_cons, zlen_nil in X.
    replace (zlen l <? cap) with true by lia. apply IH. intros h1 h2 ->. exact (N (Created t :: h1) h2 eq_refl).
  - apply IH. intros h1 h2 ->. exact (N (Deleted t :: h1) h2 eq_refl).
Qed.

(** ** Address checks *)
Lemma sanitize_ok banks mem : Forall (fun b => is_u32 (fst b) /\ is_u32 (snd b)) banks ->
  (forall x, in_ram banks x -> exists b, mem x = Some b /\ is_u8 b) -> forall lim, checks lim (tr_sanitize banks) mem.
Proof.
  intros W M lim a n Ha Hn. induction banks as [|(lo, len) banks IH]; cbn [tr_sanitize].
  - split; [lia|]. intros x Hx. lia.
  - apply Forall_inv in W as W1. apply Forall_inv_tail in W. cbn [fst snd] in W1.
    pose proof (u32_range (lo + len)) as U. unfold is_u32 in *.
    destruct ((lo <=? a) && (a <? u32 (lo + len))) eqn:E.
    + assert (u32 (u32 (lo + len) - a) = u32 (lo + len) - a) as ->. { apply u32_id. unfold is_u32. lia. }
      assert (u32 (lo + len) = lo + len) as X. { unfold u32 in *. lia. }
      rewrite X in *. split; [lia|]. intros x Hx. split; [lia|]. apply M. exists lo, len. split; [now left|lia].
    + apply IH; [exact W|]. intros x (lo' & len' & I & X). apply M. exists lo', len'. split; [now right|exact X].
Qed.
Lemma sanitize_in banks a n : Forall (fun b => is_u32 (fst b) /\ is_u32 (snd b)) banks -> 0 <= n ->
  forall x, a <= x < a + tr_sanitize banks a n -> in_ram banks x.
Proof.
  intros W Hn x. induction banks as [|(lo, len) banks IH]; cbn [tr_sanitize]; [lia|].
  apply Forall_inv in W as W1. apply Forall_inv_tail in W. cbn [fst snd] in W1. pose proof (u32_range (lo + len)) as U. unfold is_u32 in *.
  destruct ((lo <=? a) && (a <? u32 (lo + len))) eqn:E; intros H.
  - assert (u32 (u32 (lo + len) - a) = u32 (lo + len) - a) as Y. { apply u32_id. unfold is_u32. lia. }
    assert (u32 (lo + len) = lo + len) as X. { unfold u32 in *. lia. }
    exists lo, len. split; [now left|]. lia.
  - destruct (IH W H) as (lo' & len' & I & X). exists lo', len'. split; [now right|exact X].
Qed.
(** an address in a bank is not refused *)
Lemma sanitize_pos banks a n : Forall (fun b => is_u32 (fst b) /\ is_u32 (snd b) /\ fst b + snd b < 2 ^ 32) banks -> 0 < n ->
  in_ram banks a -> 0 < tr_sanitize banks a n.
Proof.
  intros W Hn. induction banks as [|(lo, len) banks IH]; cbn [tr_sanitize]; intros (lo' & len' & I & X); [destruct I|].
  apply Forall_inv in W as W1. apply Forall_inv_tail in W. cbn [fst snd] in W1. unfold is_u32 in *.
  rewrite (u32_id (lo + len)) by (unfold is_u32; lia).
  destruct ((lo <=? a) && (a <? lo + len)) eqn:E.
  - rewrite u32_id by (unfold is_u32; lia). lia.
  - apply IH; [exact W|]. destruct I as [I|I]; [injection I as <- <-; lia|]. exists lo', len'. auto.
Qed.
Lemma esp_ok lo hi mem : is_u32 lo -> is_u32 hi -> (forall x, lo <= x < hi -> exists b, mem x = Some b /\ is_u8 b) ->
  checks (2 ^ 32 - hi - 1) (esp_sanitize lo hi) mem.
Proof.
  intros L H M a n Ha Hn. unfold esp_sanitize, is_u32 in *.
  destruct ((a <? lo) || (a >? hi)) eqn:E; [split; [lia|intros x Hx; lia]|].
  rewrite (u32_id (a + n)) by (unfold is_u32; lia). destruct (a + n >? hi) eqn:E2.
  - rewrite (u32_id (hi - a)) by (unfold is_u32; lia). split; [lia|]. intros x Hx. split; [lia|]. apply M. lia.
  - split; [lia|]. intros x Hx. split; [lia|]. apply M. lia.
Qed.

Lemma word_holds mem a v : holds mem a v -> tr_word mem a = Some v.
Proof.
  intros (R & H). unfold tr_word. pose proof (H 0 ltac:(lia)) as H0. pose proof (H 1 ltac:(lia)) as H1.
  pose proof (H 2 ltac:(lia)) as H2. pose proof (H 3 ltac:(lia)) as H3. rewrite Z.add_0_r in H0. rewrite H0, H1, H2, H3. cbn [bind].
  f_equal. change (2 ^ (8 * 0)) with 1. change (2 ^ (8 * 1)) with 256. change (2 ^ (8 * 2)) with 65536. change (2 ^ (8 * 3)) with 16777216.
  change (2 ^ 8) with 256. change (2 ^ 16) with 65536. change (2 ^ 24) with 16777216. unfold is_u32 in R. lia.
Qed.
Lemma word_some mem a : (forall k, 0 <= k < 4 -> exists b, mem (a + k) = Some b /\ is_u8 b) -> exists v, tr_word mem a = Some v /\ is_u32 v.
Proof.
  intros H. destruct (H 0 ltac:(lia)) as (b0 & E0 & R0). destruct (H 1 ltac:(lia)) as (b1 & E1 & R1).
  destruct (H 2 ltac:(lia)) as (b2 & E2 & R2). destruct (H 3 ltac:(lia)) as (b3 & E3 & R3). rewrite Z.add_0_r in E0.
  unfold tr_word. rewrite E0, E1, E2, E3. cbn [bind]. eexists. split; [reflexivity|].
  change (2 ^ 8) with 256. change (2 ^ 16) with 65536. change (2 ^ 24) with 16777216. unfold is_u32, is_u8 in *. lia.
Qed.

(** ** The loops *)
Section Loops.
Context (sane : Z -> Z -> Z) (tcb : Z).

Definition scrub (t : Z) : Z := if valid sane tcb t then t else 0.

Lemma tcbs_loop num s1 : forall k s0 pre post, (length s1 <= k)%nat -> num <= zlen pre + zlen post -> zlen pre <= num ->
  let room := num - zlen pre in
  let gs := take room (tcb_regions sane tcb s1) in
  exists s1', tr_tcbs sane k tcb num (zlen s0) (zlen pre) (s0 ++ s1) (pre ++ post) =
      Some (zlen pre + zlen gs, s0 ++ s1', pre ++ gs ++ drop (zlen gs) post) /\
    scrubbed sane tcb s1 s1' /\ (zlen (tcb_regions sane tcb s1) < room -> s1' = map scrub s1).
Proof.
  induction s1 as [|t s1 IH]; intros k s0 pre post K R RP room gs.
  - exists []. unfold gs. cbn [tcb_regions flat_map]. rewrite take_nil, zlen_nil, drop_0, !app_nil_r, Z.add_0_r.
    replace (tr_tcbs sane k tcb num (zlen s0) (zlen pre) s0 (pre ++ post)) with (Some (zlen pre, s0, pre ++ post)).
    2:{ destruct k; cbn [tr_tcbs]; replace (zlen s0 <? zlen s0) with false by lia; reflexivity. }
    split; [reflexivity|]. split; [constructor|reflexivity].
  - destruct (zlen pre <? num) eqn:EN.
    2:{ exists (t :: s1). unfold gs, room. rewrite take_neg by lia. rewrite zlen_nil, drop_0, Z.add_0_r.
        split; [destruct k; cbn [tr_tcbs]; rewrite EN, andb_false_r; reflexivity|]. split.
        - clear. induction (t :: s1); constructor; [now left|assumption].
        - intros X. pose proof (zlen_nonneg (tcb_regions sane tcb (t :: s1))). lia. }
    destruct k as [|k]; [cbn in K; lia|]. cbn [length] in K. cbn [tr_tcbs].
    assert (zlen s0 <? zlen (s0 ++ t :: s1) = true) as -> by (rewrite zlen_app, zlen_cons; pose proof (zlen_nonneg s1); lia).
    rewrite EN. cbn [andb]. rewrite get_app_here by reflexivity. cbn [bind].
    assert (forall (x : Z), s0 ++ x :: s1 = (s0 ++ [x]) ++ s1) as AX by (intros; now rewrite <- app_assoc).
    assert (forall (x : Z), zlen s0 + 1 = zlen (s0 ++ [x])) as AL by (intros; rewrite zlen_app, zlen_cons, zlen_nil; lia).
    destruct (t =? 0) eqn:ET; [|destruct (sane t tcb =? 0) eqn:ES].
    + assert (valid sane tcb t = false) as V by (unfold valid; rewrite ET; reflexivity).
      rewrite AX, (AL t). destruct (IH k (s0 ++ [t]) pre post ltac:(lia) R RP) as (s1' & E & SC & M).
      exists (t :: s1'). unfold gs, room. cbn [tcb_regions flat_map]. rewrite V. cbn [app]. split.
      * rewrite E. rewrite <- app_assoc. reflexivity.
      * split; [constructor; [now left|exact SC]|]. intros X. cbn [map]. unfold scrub at 1. rewrite V. f_equal; [lia|].
        apply M. exact X.
    + assert (valid sane tcb t = false) as V by (unfold valid; rewrite ES; now rewrite andb_false_r).
      rewrite set_at_app by reflexivity. cbn [bind].
      rewrite AX, (AL 0). destruct (IH k (s0 ++ [0]) pre post ltac:(lia) R RP) as (s1' & E & SC & M).
      exists (0 :: s1'). unfold gs, room. cbn [tcb_regions flat_map]. rewrite V. cbn [app]. split.
      * rewrite E. rewrite <- app_assoc. reflexivity.
      * split; [constructor; [right; split; [reflexivity|exact V]|exact SC]|]. intros X. cbn [map]. unfold scrub at 1. rewrite V. f_equal.
        apply M. exact X.
    + assert (valid sane tcb t = true) as V by (unfold valid; rewrite ES, ET; reflexivity).
      destruct post as [|p post]; [rewrite zlen_nil in R; lia|]. rewrite zlen_cons in R.
      rewrite set_at_app by reflexivity. cbn [bind].
      rewrite AX, (AL t). replace (pre ++ (t, sane t tcb) :: post) with ((pre ++ [(t, sane t tcb)]) ++ post) by now rewrite <- app_assoc.
      replace (zlen pre + 1) with (zlen (pre ++ [(t, sane t tcb)])) by (rewrite zlen_app, zlen_cons, zlen_nil; lia).
      destruct (IH k (s0 ++ [t]) (pre ++ [(t, sane t tcb)]) post) as (s1' & E & SC & M);
        [lia|rewrite zlen_app, zlen_cons, zlen_nil; lia|rewrite zlen_app, zlen_cons, zlen_nil; lia|].
      exists (t :: s1'). unfold gs, room. cbn [tcb_regions flat_map]. rewrite V. cbn [app]. rewrite take_cons by lia.
      rewrite zlen_cons, drop_cons by (pose proof (zlen_nonneg (take (num - zlen pre - 1) (tcb_regions sane tcb s1))); unfold tcb_regions in *; lia).
      split.
      * rewrite E. rewrite !zlen_app, zlen_cons, zlen_nil. fold (tcb_regions sane tcb s1).
        replace (num - (zlen pre + (1 + 0))) with (num - zlen pre - 1) by lia. rewrite <- !app_assoc. cbn [app].
        replace (1 + zlen (take (num - zlen pre - 1) (tcb_regions sane tcb s1)) - 1) with (zlen (take (num - zlen pre - 1) (tcb_regions sane tcb s1))) by lia.
        f_equal. f_equal. f_equal. lia.
      * split; [constructor; [now left|exact SC]|]. intros X. cbn [map]. unfold scrub at 1. rewrite V. f_equal.
        apply M. rewrite zlen_cons in X. rewrite zlen_app, zlen_cons, zlen_nil. unfold tcb_regions. lia.
Qed.

End Loops.

Section Loops2.
Context (body : Z -> option (option Z * option region)) (f : Z -> option Z * option region).
Definition opt {A} (o : option A) : list A := match o with Some x => [x] | None => [] end.
Definition collected (slots : list Z) : list region := flat_map (fun t => if t =? 0 then [] else opt (snd (f t))) slots.
Fixpoint updated (room : Z) (slots wms : list Z) : list Z :=
  match slots, wms with
  | t :: slots, w :: wms =>
      if room <=? 0 then w :: wms
      else if t =? 0 then w :: updated room slots wms
      else match fst (f t) with Some v => v | None => w end :: updated (room - zlen (opt (snd (f t)))) slots wms
  | _, _ => wms
  end.

Lemma stacks_loop num s1 : forall k s0 w0 w1 pre post, (forall t, In t s1 -> t <> 0 -> zlen pre < num -> body t = Some (f t)) ->
  (length s1 <= k)%nat -> zlen w0 = zlen s0 -> zlen w1 = zlen s1 -> num <= zlen pre + zlen post -> zlen pre <= num ->
  let room := num - zlen pre in
  let gs := take room (collected s1) in
  tr_stacks body k num (zlen s0) (zlen pre) (s0 ++ s1) (w0 ++ w1) (pre ++ post) =
    Some (zlen pre + zlen gs, w0 ++ updated room s1 w1, pre ++ gs ++ drop (zlen gs) post).
Proof.
  induction s1 as [|t s1 IH]; intros k s0 w0 w1 pre post B K L0 L1 R RP room gs.
  - apply zlen_0_nil in L1 as ->. unfold gs. cbn [collected flat_map updated]. rewrite take_nil, zlen_nil, drop_0, !app_nil_r, Z.add_0_r.
    destruct k; cbn [tr_stacks]; replace (zlen s0 <? zlen s0) with false by lia; reflexivity.
  - destruct w1 as [|w w1]; [rewrite zlen_cons, zlen_nil in L1; pose proof (zlen_nonneg s1); lia|]. rewrite !zlen_cons in L1.
    cbn [updated]. destruct (zlen pre <? num) eqn:EN.
    2:{ unfold gs, room. rewrite take_neg by lia. rewrite zlen_nil, drop_0, Z.add_0_r. replace (num - zlen pre <=? 0) with true by lia.
        destruct k; cbn [tr_stacks]; rewrite EN, andb_false_r; reflexivity. }
    destruct k as [|k]; [cbn in K; lia|]. cbn [length] in K. cbn [tr_stacks].
    assert (zlen s0 <? zlen (s0 ++ t :: s1) = true) as -> by (rewrite zlen_app, zlen_cons; pose proof (zlen_nonneg s1); lia).
    rewrite EN. cbn [andb]. rewrite get_app_here by reflexivity. cbn [bind]. unfold room at 1. replace (num - zlen pre <=? 0) with false by lia.
    assert (forall (l0 l1 : list Z) (x : Z), l0 ++ x :: l1 = (l0 ++ [x]) ++ l1) as AX by (intros; now rewrite <- app_assoc).
    assert (zlen s0 + 1 = zlen (s0 ++ [t])) as AL by (rewrite zlen_app, zlen_cons, zlen_nil; lia).
    assert (forall x : Z, zlen (w0 ++ [x]) = zlen (s0 ++ [t])) as AW by (intros; rewrite !zlen_app, !zlen_cons, !zlen_nil; lia).
    unfold gs. cbn [collected flat_map]. fold (collected s1).
    destruct (t =? 0) eqn:ET.
    + rewrite (AX s0), (AX w0), AL. cbn [app]. unfold room.
      rewrite (IH k (s0 ++ [t]) (w0 ++ [w]) w1 pre post); [now rewrite <- app_assoc|intros; apply B; [now right|assumption|assumption]|lia|apply AW|lia|exact R|exact RP].
    + rewrite (B t) by (try (now left); lia). cbn [bind]. destruct (f t) as (fw, fg). cbn [fst snd].
      assert (match fw with Some w2 => set_at (w0 ++ w :: w1) (zlen s0) w2 | None => Some (w0 ++ w :: w1) end =
        Some (w0 ++ match fw with Some v => v | None => w end :: w1)) as ->.
      { destruct fw; [now rewrite set_at_app by exact L0|reflexivity]. }
      cbn [bind]. set (v := match fw with Some v => v | None => w end). destruct fg as [g|]; cbn [opt].
      * destruct post as [|p post]; [rewrite zlen_nil in R; lia|]. rewrite zlen_cons in R.
        rewrite set_at_app by reflexivity. cbn [bind]. rewrite (AX s0), (AX w0), AL.
        replace (pre ++ g :: post) with ((pre ++ [g]) ++ post) by now rewrite <- app_assoc.
        replace (zlen pre + 1) with (zlen (pre ++ [g])) by (rewrite zlen_app, zlen_cons, zlen_nil; lia).
        rewrite (IH k (s0 ++ [t]) (w0 ++ [v]) w1 (pre ++ [g]) post);
          [|intros; apply B; [now right|assumption|lia]|lia|apply AW|lia|rewrite zlen_app, zlen_cons, zlen_nil; lia|rewrite zlen_app, zlen_cons, zlen_nil; lia].
        unfold room. cbn [app]. rewrite take_cons by lia. pose proof (zlen_nonneg (take (num - zlen pre - 1) (collected s1))).
        rewrite zlen_cons, drop_cons by lia. rewrite !zlen_app, zlen_cons, zlen_nil.
        replace (num - (zlen pre + (1 + 0))) with (num - zlen pre - 1) by lia. replace (num - zlen pre - (1 + 0)) with (num - zlen pre - 1) by lia.
        rewrite <- !app_assoc. cbn [app].
        replace (1 + zlen (take (num - zlen pre - 1) (collected s1)) - 1) with (zlen (take (num - zlen pre - 1) (collected s1))) by lia.
        f_equal. f_equal. f_equal. lia.
      * rewrite (AX s0), (AX w0), AL. cbn [app]. rewrite zlen_nil. unfold room. rewrite Z.sub_0_r.
        rewrite (IH k (s0 ++ [t]) (w0 ++ [v]) w1 pre post); [now rewrite <- app_assoc|intros; apply B; [now right|assumption|assumption]|lia|apply AW|lia|exact R|exact RP].
Qed.

Lemma updated_len s : forall room w, zlen (updated room s w) = zlen w.
Proof.
  induction s as [|t s IH]; intros room w; cbn [updated]; [reflexivity|]. destruct w as [|x w]; [reflexivity|].
  destruct (room <=? 0); [reflexivity|]. destruct (t =? 0); rewrite !zlen_cons, IH; reflexivity.
Qed.
Lemma updated_get s : forall room w i t x, get s i = Some t -> get w i = Some x ->
  get (updated room s w) i = Some (if negb (t =? 0) && (zlen (collected (take i s)) <? room) then match fst (f t) with Some v => v | None => x end else x).
Proof.
  induction s as [|t0 s IH]; intros room w i t x Gs Gw; [unfold get in Gs; destruct (i <? 0); [discriminate|destruct (Z.to_nat i); discriminate]|].
  destruct w as [|x0 w]; [unfold get in Gw; destruct (i <? 0); [discriminate|destruct (Z.to_nat i); discriminate]|].
  cbn [updated]. pose proof (get_range _ _ _ Gs) as Rg. destruct (Z.eq_dec i 0) as [->|N].
  - rewrite get_cons_0 in Gs, Gw. injection Gs as ->. injection Gw as ->. rewrite take_0. change (zlen (collected [])) with 0.
    destruct (room <=? 0) eqn:E.
    + replace (0 <? room) with false by lia. rewrite andb_false_r. apply get_cons_0.
    + replace (0 <? room) with true by lia. rewrite andb_true_r. destruct (t =? 0); apply get_cons_0.
  - rewrite get_cons_S in Gs, Gw by lia. rewrite take_cons by lia. cbn [collected flat_map]. fold (collected (take (i - 1) s)).
    destruct (room <=? 0) eqn:E.
    + rewrite get_cons_S by lia. rewrite Gw.
      match goal with |- context [zlen ?l <? room] => pose proof (zlen_nonneg l); replace (zlen l <? room) with false by lia end.
      now rewrite andb_false_r.
    + destruct (t0 =? 0); rewrite get_cons_S by lia; rewrite (IH _ _ _ _ _ Gs Gw); [reflexivity|].
      rewrite zlen_app. match goal with |- context [?x + ?y <? room] => replace (x + y <? room) with (y <? room - x) by lia end. reflexivity.
Qed.
End Loops2.

Section Both.
Context (sane : Z -> Z -> Z) (tcb : Z) (body : Z -> option (option Z * option region)) (f : Z -> option Z * option region).
Let stack (t : Z) : list region := opt (snd (f t)).

Lemma valid_scrub t : valid sane tcb t = true -> (scrub sane tcb t =? 0) = false.
Proof. intros V. unfold scrub. rewrite V. unfold valid in V. lia. Qed.
Lemma invalid_scrub t : valid sane tcb t = false -> scrub sane tcb t = 0.
Proof. intros V. unfold scrub. now rewrite V. Qed.
Lemma collected_scrub slots : collected f (map (scrub sane tcb) slots) = stack_regions sane tcb stack slots.
Proof.
  induction slots as [|t slots IH]; [reflexivity|]. cbn [map collected flat_map stack_regions]. destruct (valid sane tcb t) eqn:V.
  - rewrite valid_scrub by exact V. fold (collected f (map (scrub sane tcb) slots)). rewrite IH. f_equal. unfold scrub. rewrite V. reflexivity.
  - rewrite invalid_scrub by exact V. cbn. exact IH.
Qed.
Lemma take_map {A B} (g : A -> B) n l : take n (map g l) = map g (take n l).
Proof. unfold take. apply firstn_map. Qed.
Lemma updated_none room slots w : room <= 0 -> updated f room slots w = w.
Proof. destruct slots, w; try reflexivity. intros H. cbn [updated]. now replace (room <=? 0) with true by lia. Qed.
Lemma get_map {A B} (g : A -> B) l i : get (map g l) i = match get l i with Some x => Some (g x) | None => None end.
Proof. unfold get. destruct (i <? 0); [reflexivity|]. rewrite nth_error_map. destruct (nth_error l (Z.to_nat i)); reflexivity. Qed.

Lemma both_loops num slots wms regs : (forall t, In t slots -> valid sane tcb t = true -> body t = Some (f t)) ->
  zlen wms = zlen slots -> 0 <= num <= zlen regs ->
  let all := tcb_regions sane tcb slots ++ stack_regions sane tcb stack slots in
  let gs := take num all in
  exists slots' n1 regs1 wms',
    tr_tcbs sane (length slots) tcb num 0 0 slots regs = Some (n1, slots', regs1) /\
    tr_stacks body (length slots') num 0 n1 slots' wms regs1 = Some (zlen gs, wms', gs ++ drop (zlen gs) regs) /\
    scrubbed sane tcb slots slots' /\ (zlen (tcb_regions sane tcb slots) < num -> slots' = map (scrub sane tcb) slots) /\
    renewed sane tcb num (fun t => fst (f t)) stack slots wms wms'.
Proof.
  intros B LW HN all gs.
  destruct (tcbs_loop sane tcb num slots (length slots) [] [] regs (le_n _) ltac:(rewrite zlen_nil; lia) ltac:(rewrite zlen_nil; lia)) as (slots' & E & SC & M).
  cbn [app] in E. rewrite !zlen_nil in *. rewrite Z.sub_0_r in *. cbn zeta in E. rewrite Z.add_0_l in E.
  assert (zlen slots' = zlen slots) as LS. { clear -SC. induction SC; [reflexivity|]. rewrite !zlen_cons. lia. }
  set (g1 := take num (tcb_regions sane tcb slots)) in *.
  assert (zlen g1 <= num) as LG by (unfold g1; rewrite zlen_take; lia).
  assert (zlen g1 <= zlen regs) as LG2 by lia.
  assert (forall t, In t slots' -> t <> 0 -> zlen g1 < num -> body t = Some (f t)) as B'.
  { intros t I N L. unfold g1 in L. rewrite zlen_take in L. pose proof (zlen_nonneg (tcb_regions sane tcb slots)).
    rewrite M in I by lia. apply in_map_iff in I as (u & <- & I). destruct (valid sane tcb u) eqn:V.
    - unfold scrub. rewrite V. now apply B.
    - exfalso. apply N. now apply invalid_scrub. }
  pose proof (stacks_loop body f num slots' (length slots') [] [] wms g1 (drop (zlen g1) regs) B' (le_n _) eq_refl ltac:(lia)) as ST.
  rewrite zlen_drop in ST. pose proof (zlen_nonneg g1). specialize (ST ltac:(lia) LG). cbn [app] in ST. rewrite zlen_nil in ST. cbn zeta in ST.
  set (g2 := take (num - zlen g1) (collected f slots')) in ST.
  assert (gs = g1 ++ g2) as EG.
  { unfold gs, all. destruct (Z.ltb_spec (zlen (tcb_regions sane tcb slots)) num) as [L|L].
    - assert (g1 = tcb_regions sane tcb slots) as E1 by (unfold g1; apply take_all; lia). rewrite take_app_ge by lia. rewrite <- E1 at 1 2.
      f_equal. unfold g2. rewrite M by lia. rewrite collected_scrub. rewrite E1. reflexivity.
    - rewrite take_app_le by lia. fold g1. unfold g2. rewrite (take_neg (num - zlen g1)) by (unfold g1; rewrite zlen_take; lia).
      now rewrite app_nil_r. }
  exists slots', (zlen g1), (g1 ++ drop (zlen g1) regs), (updated f (num - zlen g1) slots' wms).
  split; [exact E|]. split.
  { rewrite ST. rewrite EG. rewrite zlen_app, <- app_assoc. rewrite drop_drop by (apply zlen_nonneg). rewrite (Z.add_comm (zlen g2)). reflexivity. }
  split; [exact SC|]. split; [exact M|]. split; [apply updated_len|].
  intros i t w Gs Gw. pose proof (get_range _ _ _ Gs) as Rg.
  destruct (Z.ltb_spec (zlen (tcb_regions sane tcb slots)) num) as [L|L].
  - assert (g1 = tcb_regions sane tcb slots) as E1 by (unfold g1; apply take_all; lia).
    rewrite M by lia. rewrite (updated_get body f _ _ _ _ (scrub sane tcb t) w); [|rewrite get_map, Gs; reflexivity|exact Gw].
    rewrite take_map, collected_scrub, E1. destruct (valid sane tcb t) eqn:V.
    + rewrite valid_scrub by exact V. cbn [negb andb]. unfold scrub. rewrite V.
      match goal with |- context [?x <? num - ?y] => replace (x <? num - y) with (y + x <? num) by lia end. reflexivity.
    + rewrite invalid_scrub by exact V. reflexivity.
  - rewrite updated_none by (unfold g1; rewrite zlen_take; lia). rewrite Gw.
    match goal with |- context [?x + zlen ?y <? num] => pose proof (zlen_nonneg y); replace (x + zlen y <? num) with false by lia end.
    now rewrite andb_false_r.
Qed.
End Both.

(** ** FreeRTOS *)
Section Fr.
Context (sane : Z -> Z -> Z) (mem : Z -> option Z) (c : fr_cfg) (wm : Z -> Z) (top : Z -> Z).

Definition fr_f (t : Z) : option Z * option region :=
  let n := sane (top t) (fc_stack c) in
  if n =? 0 then (None, None) else (if fc_usage c then Some (wm t) else None, Some (top t, n)).
Lemma fr_body_ok t : tr_word mem t = Some (top t) -> fr_body sane mem c wm t = Some (fr_f t).
Proof. intros E. unfold fr_body, fr_f. rewrite E. cbn [bind]. destruct (sane (top t) (fc_stack c) =? 0); reflexivity. Qed.
Lemma fr_stack_f t : opt (snd (fr_f t)) = fr_stack sane top (fc_stack c) t.
Proof. unfold fr_f, fr_stack. destruct (sane (top t) (fc_stack c) =? 0); reflexivity. Qed.
Lemma fr_new t : fst (fr_f t) = if fc_usage c && negb (sane (top t) (fc_stack c) =? 0) then Some (wm t) else None.
Proof. unfold fr_f. destruct (sane (top t) (fc_stack c) =? 0), (fc_usage c); reflexivity. Qed.

Definition fr_all (slots : list Z) : list region :=
  tcb_regions sane (fc_tcb c) slots ++ stack_regions sane (fc_tcb c) (fr_stack sane top (fc_stack c)) slots.
Definition fr_tables (slots : list Z) : list region := [(fc_tbl c, 4 * zlen slots); (fc_wtbl c, 4 * zlen slots)].

Lemma stack_regions_ext tcb s1 s2 slots : (forall t, s1 t = s2 t) -> stack_regions sane tcb s1 slots = stack_regions sane tcb s2 slots.
Proof. intros E. unfold stack_regions. induction slots as [|t l IH]; [reflexivity|]. cbn. rewrite IH, E. reflexivity. Qed.
Lemma renewed_ext tcb num n1 n2 s1 s2 slots w w' : (forall t, s1 t = s2 t) -> (forall t, n1 t = n2 t) ->
  renewed sane tcb num n1 s1 slots w w' -> renewed sane tcb num n2 s2 slots w w'.
Proof. intros E1 E2 (L & H). split; [exact L|]. intros i t x G1 G2. rewrite (H i t x G1 G2). rewrite (stack_regions_ext tcb s1 s2) by exact E1. rewrite E2. reflexivity. Qed.

Lemma fr_regions_ok slots wms regs num : (forall t, In t slots -> valid sane (fc_tcb c) t = true -> tr_word mem t = Some (top t)) ->
  zlen wms = zlen slots -> 0 <= num <= zlen regs ->
  exists slots' wms', scrubbed sane (fc_tcb c) slots slots' /\
    (zlen (tcb_regions sane (fc_tcb c) slots) < num -> slots' = map (scrub sane (fc_tcb c)) slots) /\
    renewed sane (fc_tcb c) num (fun t => if fc_usage c && negb (sane (top t) (fc_stack c) =? 0) then Some (wm t) else None)
      (fr_stack sane top (fc_stack c)) slots wms wms' /\
    let all := fr_all slots in
    (fc_usage c = false \/ num <= zlen all \/ zlen all + 2 <= num ->
       let gs := take num (if fc_usage c && (zlen all <? num) then all ++ fr_tables slots else all) in
       fr_regions sane mem c wm slots wms regs num = Some (zlen gs, slots', wms', gs ++ drop (zlen gs) regs)) /\
    (fc_usage c = true -> zlen all = num - 1 ->
       fr_regions sane mem c wm slots wms regs num =
       if zlen regs =? num then None else Some (num + 1, slots', wms', all ++ fr_tables slots ++ drop (num + 1) regs)).
Proof.
  intros W LW HN.
  destruct (both_loops sane (fc_tcb c) (fr_body sane mem c wm) fr_f num slots wms regs) as (slots' & n1 & regs1 & wms' & E1 & E2 & SC & M & RN);
    [intros t I V; apply fr_body_ok; now apply W|exact LW|exact HN|].
  exists slots', wms'. split; [exact SC|]. split; [exact M|]. split.
  { eapply renewed_ext; [exact fr_stack_f|exact fr_new|exact RN]. }
  cbn zeta in *. rewrite (stack_regions_ext _ _ (fr_stack sane top (fc_stack c))) in E2 by exact fr_stack_f. fold (fr_all slots) in E2.
  set (all := fr_all slots) in *. pose proof (zlen_nonneg all).
  assert (zlen slots' = zlen slots) as LS. { clear -SC. induction SC; [reflexivity|]. rewrite !zlen_cons. lia. }
  assert (zlen wms' = zlen wms) as LW' by exact (proj1 RN).
  assert (zlen (take num all) = Z.min num (zlen all)) as LT by (rewrite zlen_take; lia).
  assert (length slots' = length slots) as LN by (unfold zlen in LS; lia). rewrite LN in E2.
  assert (num = 0 -> scrubbed sane (fc_tcb c) slots slots' -> slots' = slots /\ wms' = wms) as Z0.
  { intros -> _. split.
    - clear -E1. destruct slots; cbn in E1; [now inv E1|]. rewrite andb_false_r in E1. now inv E1.
    - clear -E2 LW LW' RN E1. assert (n1 = 0) as ->. { destruct slots; cbn in E1; [now inv E1|]. rewrite andb_false_r in E1. now inv E1. }
      destruct slots; cbn in E2; [|]; rewrite ?andb_false_r in E2; now inv E2. }
  split.
  - intros D. set (gs := take num (if fc_usage c && (zlen all <? num) then all ++ fr_tables slots else all)). unfold fr_regions. destruct (num =? 0) eqn:EN.
    + assert (num = 0) by lia. destruct (Z0 H0 SC) as (-> & ->). assert (gs = []) as -> by (unfold gs; apply take_neg; lia). reflexivity.
    + rewrite E1. cbn [bind]. rewrite LN, E2. cbn [bind]. rewrite LT. destruct (fc_usage c) eqn:EU; cbn [andb].
      2:{ unfold gs. cbn [andb]. rewrite LT. reflexivity. }
      destruct (Z.ltb_spec (zlen all) num) as [L|L].
      2:{ unfold gs. cbn [andb]. replace (zlen all <? num) with false by lia. rewrite LT. replace (Z.min num (zlen all) <? num) with false by lia. reflexivity. }
      replace (Z.min num (zlen all) <? num) with true by lia. unfold gs. cbn [andb]. replace (zlen all <? num) with true by lia.
      rewrite (take_all num all) by lia. rewrite (take_all num (all ++ fr_tables slots)) by (rewrite zlen_app; unfold fr_tables; rewrite !zlen_cons, zlen_nil; lia).
      replace (Z.min num (zlen all)) with (zlen all) by lia.
      assert (exists a b r, drop (zlen all) regs = a :: b :: r /\ drop (zlen all + 2) regs = r) as (a & b & r & ED & ER).
      { destruct (drop (zlen all) regs) as [|a [|b r]] eqn:ED.
        - pose proof (zlen_drop (zlen all) regs) as X. rewrite ED, zlen_nil in X. lia.
        - pose proof (zlen_drop (zlen all) regs) as X. rewrite ED, zlen_cons, zlen_nil in X. lia.
        - exists a, b, r. split; [reflexivity|]. replace (zlen all + 2) with (2 + zlen all) by lia. rewrite <- drop_drop by lia. rewrite ED. reflexivity. }
      rewrite ED. rewrite set_at_app by reflexivity. cbn [bind].
      replace (all ++ (fc_tbl c, 4 * zlen slots') :: b :: r) with ((all ++ [(fc_tbl c, 4 * zlen slots')]) ++ b :: r) by now rewrite <- app_assoc.
      rewrite set_at_app by (rewrite zlen_app, zlen_cons, zlen_nil; lia). cbn [bind]. unfold fr_tables. rewrite zlen_app, !zlen_cons, zlen_nil.
      rewrite LW', LW, LS. replace (1 + (1 + 0)) with 2 by lia. rewrite ER. rewrite <- !app_assoc. reflexivity.
  - intros EU EA. unfold fr_regions. replace (num =? 0) with false by lia. rewrite E1. cbn [bind]. rewrite LN, E2. cbn [bind]. rewrite LT, EU. cbn [andb].
    replace (Z.min num (zlen all)) with (zlen all) by lia. replace (zlen all <? num) with true by lia. rewrite (take_all num all) by lia.
    destruct (drop (zlen all) regs) as [|a r] eqn:ED.
    { pose proof (zlen_drop (zlen all) regs) as X. rewrite ED, zlen_nil in X. lia. }
    rewrite set_at_app by reflexivity. cbn [bind].
    replace (all ++ (fc_tbl c, 4 * zlen slots') :: r) with ((all ++ [(fc_tbl c, 4 * zlen slots')]) ++ r) by now rewrite <- app_assoc.
    destruct (zlen regs =? num) eqn:ER.
    + assert (r = []) as ->. { apply zlen_0_nil. pose proof (zlen_drop (zlen all) regs) as X. rewrite ED, zlen_cons in X. lia. }
      rewrite set_at_end; [reflexivity|]. rewrite !zlen_app, !zlen_cons, zlen_nil. lia.
    + destruct r as [|b r].
      { pose proof (zlen_drop (zlen all) regs) as X. rewrite ED, zlen_cons, zlen_nil in X. lia. }
      rewrite set_at_app by (rewrite zlen_app, zlen_cons, zlen_nil; lia). cbn [bind].
      assert (drop (num + 1) regs = r) as ->. { replace (num + 1) with (2 + zlen all) by lia. rewrite <- drop_drop by lia. rewrite ED. reflexivity. }
      unfold fr_tables. rewrite LW', LW, LS, <- !app_assoc. cbn [app]. f_equal. f_equal. f_equal. f_equal. lia.
Qed.
End Fr.

(** ** The ports that use it *)
Lemma push_ok gs : forall pre post, zlen gs <= zlen post ->
  tr_push (pre ++ post) (zlen pre) gs = Some (zlen pre + zlen gs, pre ++ gs ++ drop (zlen gs) post).
Proof.
  induction gs as [|g gs IH]; intros pre post L; cbn [tr_push].
  - rewrite zlen_nil, drop_0, Z.add_0_r. reflexivity.
  - rewrite zlen_cons in *. pose proof (zlen_nonneg gs). destruct post as [|p post]; [rewrite zlen_nil in L; lia|]. rewrite zlen_cons in L.
    rewrite set_at_app by reflexivity. cbn [bind]. replace (pre ++ g :: post) with ((pre ++ [g]) ++ post) by now rewrite <- app_assoc.
    replace (zlen pre + 1) with (zlen (pre ++ [g])) by (rewrite zlen_app, zlen_cons, zlen_nil; lia).
    rewrite IH by lia. rewrite zlen_app, zlen_cons, zlen_nil, <- app_assoc. rewrite drop_cons by lia.
    replace (1 + zlen gs - 1) with (zlen gs) by lia. f_equal. f_equal. lia.
Qed.
Lemma push_start gs regs : zlen gs <= zlen regs -> tr_push regs 0 gs = Some (zlen gs, gs ++ drop (zlen gs) regs).
Proof. intros L. exact (push_ok gs [] regs L). Qed.
Lemma zlen_zero n : 0 <= n -> zlen (fr_zero n) = n.
Proof. intros H. unfold zlen, fr_zero. rewrite repeat_length. lia. Qed.

Lemma tcb_regions_len sane tcb slots : zlen (tcb_regions sane tcb slots) <= zlen slots.
Proof.
  induction slots as [|t l IH]; [reflexivity|]. cbn [tcb_regions flat_map]. fold (tcb_regions sane tcb l). rewrite zlen_app, zlen_cons.
  destruct (valid sane tcb t); rewrite ?zlen_cons, zlen_nil; lia.
Qed.
Lemma stack_regions_len sane tcb stack slots : (forall t, zlen (stack t) <= 1) -> zlen (stack_regions sane tcb stack slots) <= zlen slots.
Proof.
  intros S. induction slots as [|t l IH]; [reflexivity|]. cbn [stack_regions flat_map]. fold (stack_regions sane tcb stack l). rewrite zlen_app, zlen_cons.
  specialize (S t). destruct (valid sane tcb t); rewrite ?zlen_nil; lia.
Qed.
Lemma fr_stack_len sane top want t : zlen (fr_stack sane top want t) <= 1.
Proof. unfold fr_stack. destruct (sane (top t) want =? 0); rewrite ?zlen_cons, ?zlen_nil; lia. Qed.
Lemma fr_all_len sane c top slots : zlen (fr_all sane c top slots) <= 2 * zlen slots.
Proof.
  unfold fr_all. rewrite zlen_app. pose proof (tcb_regions_len sane (fc_tcb c) slots).
  pose proof (stack_regions_len sane (fc_tcb c) (fr_stack sane top (fc_stack c)) slots (fr_stack_len sane top (fc_stack c))). lia.
Qed.

Section Users.
Context (sane : Z -> Z -> Z) (mem : Z -> option Z) (c : fr_cfg) (wm : Z -> Z) (top : Z -> Z).
(** what is collected when all of it fits *)
Definition fr_whole (slots : list Z) : list region := fr_all sane c top slots ++ (if fc_usage c then fr_tables c slots else []).

Lemma fr_call_ok slots wms regs pre : (forall t, In t slots -> valid sane (fc_tcb c) t = true -> tr_word mem t = Some (top t)) ->
  zlen wms = zlen slots -> 2 * zlen slots <= zlen regs ->
  fc_usage c = false \/ zlen (fr_all sane c top slots) + 2 <= zlen regs \/ zlen regs = zlen (fr_all sane c top slots) ->
  let whole := take (zlen regs) (fr_whole slots) in
  exists slots' wms', zlen slots' = zlen slots /\ zlen wms' = zlen wms /\
  fr_call sane mem c wm slots wms (zlen pre) (pre ++ regs) =
    Some (zlen pre + zlen whole, slots', wms', pre ++ whole ++ drop (zlen whole) regs).
Proof.
  intros W LW L D whole. pose proof (zlen_nonneg regs) as NR. pose proof (fr_all_len sane c top slots) as LA.
  destruct (fr_regions_ok sane mem c wm top slots wms regs (zlen regs) W LW ltac:(lia)) as (slots' & wms' & SC & _ & RN & E & _).
  exists slots', wms'. split; [clear -SC; induction SC; [reflexivity|]; rewrite !zlen_cons; lia|]. split; [exact (proj1 RN)|].
  unfold fr_call. rewrite zlen_app. rewrite drop_app_exact by reflexivity. rewrite take_app_exact by reflexivity.
  replace (zlen pre + zlen regs - zlen pre) with (zlen regs) by lia. cbn zeta in E. rewrite E by lia. cbn [bind].
  unfold whole, fr_whole. destruct (fc_usage c); cbn [andb].
  - destruct (Z.ltb_spec (zlen (fr_all sane c top slots)) (zlen regs)) as [H|H]; [reflexivity|].
    rewrite (take_app_le (zlen regs)) by lia. reflexivity.
  - rewrite app_nil_r. reflexivity.
Qed.

Lemma psoc6_ok stk crash psp bss slots wms : (forall t, In t slots -> valid sane (fc_tcb c) t = true -> tr_word mem t = Some (top t)) ->
  zlen wms = zlen slots -> fc_usage c = false \/ psp = None \/ zlen (fr_all sane c top slots) < 2 * zlen slots ->
  let first := (crash, sane crash stk) :: match psp with Some p => [(p, sane p 640)] | None => [] end ++ [bss] in
  exists slots' wms', psoc6_regions sane mem c wm stk crash psp bss slots wms =
    Some (zlen (first ++ fr_whole slots), slots', wms',
          first ++ fr_whole slots ++ drop (zlen (first ++ fr_whole slots)) (fr_zero (2 * zlen slots + 4))).
Proof.
  intros W LW D first. pose proof (zlen_nonneg slots) as NS. pose proof (fr_all_len sane c top slots) as LA.
  assert (zlen first = match psp with Some _ => 3 | None => 2 end) as LF by (unfold first; destruct psp; reflexivity).
  unfold psoc6_regions. replace (2 * zlen slots + 2 + 1 + 1) with (2 * zlen slots + 4) by lia.
  change ([(crash, sane crash stk)] ++ match psp with Some p => [(p, sane p (512 + 128))] | None => [] end ++ [bss]) with first.
  rewrite push_start by (rewrite zlen_zero by lia; destruct psp; lia). cbn [bind].
  set (regs := drop (zlen first) (fr_zero (2 * zlen slots + 4))).
  assert (zlen regs = 2 * zlen slots + 4 - zlen first) as LR by (unfold regs; rewrite zlen_drop, zlen_zero by lia; destruct psp; lia).
  destruct (fr_call_ok slots wms regs first W LW) as (slots' & wms' & _ & _ & E); [destruct psp; lia| |].
  { destruct (fc_usage c); [|now left]. right. left. destruct D as [D|[->|D]]; [discriminate|lia|destruct psp; lia]. }
  cbn zeta in E. exists slots', wms'. rewrite E.
  assert (zlen (fr_whole slots) <= zlen regs) as LWH.
  { unfold fr_whole. rewrite zlen_app. destruct (fc_usage c); unfold fr_tables; rewrite ?zlen_cons, ?zlen_nil; [|destruct psp; lia].
    destruct D as [D|[->|D]]; [discriminate|lia|destruct psp; lia]. }
  rewrite take_all by exact LWH. rewrite zlen_app. unfold regs. rewrite drop_drop by apply zlen_nonneg. rewrite (Z.add_comm (zlen (fr_whole slots))). reflexivity.
Qed.

Lemma psoc6_overflow stk crash p bss slots wms : (forall t, In t slots -> valid sane (fc_tcb c) t = true -> tr_word mem t = Some (top t)) ->
  zlen wms = zlen slots -> fc_usage c = true -> zlen (fr_all sane c top slots) = 2 * zlen slots ->
  psoc6_regions sane mem c wm stk crash (Some p) bss slots wms = None.
Proof.
  intros W LW U A. pose proof (zlen_nonneg slots) as NS. unfold psoc6_regions. rewrite push_start by (rewrite zlen_zero by lia; rewrite ?zlen_app, ?zlen_cons, ?zlen_nil; lia). cbn [bind].
  set (first := _ ++ _ ++ _). change (zlen first) with 3. set (regs := drop 3 (fr_zero (2 * zlen slots + 2 + 1 + 1))).
  assert (zlen regs = 2 * zlen slots + 1) as LR by (unfold regs; rewrite zlen_drop, zlen_zero by lia; lia).
  unfold fr_call. rewrite drop_app_exact by reflexivity. rewrite zlen_app. change (zlen first) with 3.
  replace (3 + zlen regs - 3) with (zlen regs) by lia.
  destruct (fr_regions_ok sane mem c wm top slots wms regs (zlen regs) W LW ltac:(lia)) as (slots' & wms' & _ & _ & _ & _ & E).
  cbn zeta in E. rewrite E by (try exact U; lia). rewrite Z.eqb_refl. reflexivity.
Qed.

Lemma esp_regions_ok stk crash four three slots wms : (forall t, In t slots -> valid sane (fc_tcb c) t = true -> tr_word mem t = Some (top t)) ->
  zlen wms = zlen slots -> zlen four = 4 -> zlen three = 3 ->
  let gs := (crash, sane crash stk) :: fr_whole slots ++ four ++ three in
  zlen gs <= 2 * zlen slots + 10 /\ exists slots' wms', esp_regions sane mem c wm stk crash four three slots wms =
    Some (zlen gs, slots', wms', gs ++ drop (zlen gs) (fr_zero (2 * zlen slots + 10))).
Proof.
  intros W LW L4 L3 gs. pose proof (zlen_nonneg slots) as NS. pose proof (fr_all_len sane c top slots) as LA.
  assert (zlen (fr_whole slots) <= 2 * zlen slots + 2) as LWH.
  { unfold fr_whole. rewrite zlen_app. destruct (fc_usage c); unfold fr_tables; rewrite ?zlen_cons, ?zlen_nil; lia. }
  assert (zlen gs = 1 + (zlen (fr_whole slots) + (4 + 3))) as LG by (unfold gs; rewrite zlen_cons, !zlen_app; lia).
  pose proof (zlen_nonneg (fr_whole slots)). split; [lia|].
  unfold esp_regions. replace (1 + 4 + 2 * zlen slots + 1 + 1 + 1 + 1 + 1) with (2 * zlen slots + 10) by lia.
  set (z := fr_zero (2 * zlen slots + 10)). assert (zlen z = 2 * zlen slots + 10) as LZ by (unfold z; apply zlen_zero; lia).
  set (first := [(crash, sane crash stk)]). rewrite push_start by (rewrite LZ; unfold first in *; rewrite ?zlen_app, ?zlen_cons, ?zlen_nil; lia). cbn [bind].
  set (regs := drop (zlen first) z). assert (zlen regs = 2 * zlen slots + 9) as LR by (unfold regs; rewrite zlen_drop, LZ; change (zlen first) with 1; lia).
  destruct (fr_call_ok slots wms regs first W LW ltac:(lia)) as (slots' & wms' & _ & _ & E).
  { destruct (fc_usage c); [|now left]. right. left. lia. }
  cbn zeta in E. rewrite E. cbn [bind]. rewrite take_all by lia. exists slots', wms'.
  set (a := first ++ fr_whole slots). change (zlen first) with 1 in *.
  replace (first ++ fr_whole slots ++ drop (zlen (fr_whole slots)) regs) with (a ++ drop (zlen (fr_whole slots)) regs) by (unfold a; now rewrite <- app_assoc).
  assert (1 + zlen (fr_whole slots) = zlen a) as LAA by (unfold a; rewrite zlen_app; reflexivity). rewrite LAA.
  assert (zlen (drop (zlen (fr_whole slots)) regs) = 2 * zlen slots + 9 - zlen (fr_whole slots)) as LD by (rewrite zlen_drop; lia).
  replace (zlen (a ++ drop (zlen (fr_whole slots)) regs) - zlen a =? 0) with false by (rewrite zlen_app; lia).
  rewrite push_ok by lia. cbn [bind]. rewrite app_assoc. rewrite <- zlen_app. rewrite push_ok by (rewrite zlen_drop; lia). cbn [bind].
  assert (gs = (a ++ four) ++ three) as EG by (unfold gs, a, first; rewrite <- !app_assoc; reflexivity).
  rewrite EG, !zlen_app, <- LAA. f_equal. f_equal. unfold regs. rewrite <- !app_assoc. rewrite !drop_drop by lia. f_equal. f_equal. f_equal. f_equal. change (zlen first) with 1. lia.
Qed.

Lemma esp8266_ok crash bss slots wms : (forall t, In t slots -> valid sane (fc_tcb c) t = true -> tr_word mem t = Some (top t)) ->
  zlen wms = zlen slots ->
  let gs := (crash, sane crash 512) :: bss :: fr_whole slots in
  zlen gs <= 2 * zlen slots + 5 /\ exists slots' wms', esp8266_regions sane mem c wm crash bss slots wms =
    Some (zlen gs, slots', wms', gs ++ drop (zlen gs) (fr_zero (2 * zlen slots + 5))).
Proof.
  intros W LW gs. pose proof (zlen_nonneg slots) as NS. pose proof (fr_all_len sane c top slots) as LA.
  assert (zlen (fr_whole slots) <= 2 * zlen slots + 2) as LWH.
  { unfold fr_whole. rewrite zlen_app. destruct (fc_usage c); unfold fr_tables; rewrite ?zlen_cons, ?zlen_nil; lia. }
  pose proof (zlen_nonneg (fr_whole slots)). split; [unfold gs; rewrite !zlen_cons; lia|].
  unfold esp8266_regions. set (z := fr_zero (2 * zlen slots + 5)). assert (zlen z = 2 * zlen slots + 5) as LZ by (unfold z; apply zlen_zero; lia).
  set (first := [(crash, sane crash 512); bss]). rewrite push_start by (rewrite LZ; unfold first in *; rewrite ?zlen_app, ?zlen_cons, ?zlen_nil; lia). cbn [bind].
  set (regs := drop (zlen first) z). assert (zlen regs = 2 * zlen slots + 3) as LR by (unfold regs; rewrite zlen_drop, LZ; change (zlen first) with 2; lia).
  destruct (fr_call_ok slots wms regs first W LW ltac:(lia)) as (slots' & wms' & _ & _ & E).
  { destruct (fc_usage c); [|now left]. right. left. lia. }
  cbn zeta in E. exists slots', wms'. rewrite E. rewrite take_all by lia. change (zlen first) with 2 in *.
  assert (gs = first ++ fr_whole slots) as -> by reflexivity. rewrite zlen_app. change (zlen first) with 2. unfold regs. rewrite drop_drop by lia.
  change (zlen first) with 2. rewrite (Z.add_comm 2), <- app_assoc. reflexivity.
Qed.

(** everything collected from the tasks can be read *)
Lemma fr_readable lim slots : checks lim sane mem -> 0 <= fc_tcb c <= lim -> 0 <= fc_stack c <= lim ->
  (forall t, In t slots -> 0 <= t /\ 0 <= top t) -> Forall (readable mem) (fr_all sane c top slots).
Proof.
  intros CH T S P. unfold fr_all. apply Forall_app. split; apply Forall_flat_map; apply Forall_forall; intros t I; specialize (P t I);
    destruct (valid sane (fc_tcb c) t); try constructor; try constructor.
  - intros x Hx. cbn [fst snd] in Hx. exact (proj2 (proj2 (CH t (fc_tcb c) (proj1 P) T) x Hx)).
  - unfold fr_stack. destruct (sane (top t) (fc_stack c) =? 0); constructor; [|constructor].
    intros x Hx. cbn [fst snd] in Hx. exact (proj2 (proj2 (CH (top t) (fc_stack c) (proj2 P) S) x Hx)).
Qed.
End Users.

(** ** Zephyr *)
Section Zp.
Context (sane : Z -> Z -> Z) (mem : Z -> option Z) (c : zp_cfg).

Lemma scan_ok n : forall a e, a <= e -> e - a <= Z.of_nat n -> (forall x, a <= x < e -> exists b, mem x = Some b) ->
  exists m, zp_scan mem n a e = Some (a + m) /\ untouched mem a (e - a) m.
Proof.
  induction n as [|n IH]; intros a e L F R; cbn [zp_scan].
  - assert (a = e) as -> by lia. replace (e <? e) with false by lia. exists 0. split; [f_equal; lia|].
    unfold untouched. split; [lia|]. split; [intros; lia|lia].
  - destruct (Z.ltb_spec a e) as [H|H].
    + destruct (R a ltac:(lia)) as (b & E). rewrite E. cbn [bind]. destruct (b =? 0xAA) eqn:EB.
      * assert (b = 0xAA) by lia. subst. destruct (IH (a + 1) e ltac:(lia) ltac:(lia)) as (m & EM & (B & P & Q)); [intros; apply R; lia|].
        exists (1 + m). split; [rewrite EM; f_equal; lia|]. split; [lia|]. split.
        -- intros k Hk. destruct (Z.eq_dec k 0) as [->|N]; [rewrite Z.add_0_r; exact E|]. specialize (P (k - 1) ltac:(lia)). replace (a + 1 + (k - 1)) with (a + k) in P by lia. exact P.
        -- intros Hm. replace (a + (1 + m)) with (a + 1 + m) by lia. apply Q. lia.
      * exists 0. split; [f_equal; lia|]. split; [lia|]. split; [intros; lia|]. intros _. rewrite Z.add_0_r, E. intros X. inv X. lia.
    + assert (a = e) as -> by lia. exists 0. split; [f_equal; lia|]. split; [lia|]. split; [intros; lia|lia].
Qed.

Lemma untouched_unique a size m m' : untouched mem a size m -> untouched mem a size m' -> m = m'.
Proof.
  intros (B & P & Q) (B' & P' & Q'). destruct (Z.lt_trichotomy m m') as [H|[H|H]]; [|exact H|].
  - exfalso. apply Q; [lia|]. apply P'. lia.
  - exfalso. apply Q'; [lia|]. apply P. lia.
Qed.

Lemma unused_ok lim th m : checks lim sane mem -> 0 <= th_start th -> 0 <= th_size th <= lim -> th_start th + th_size th < 2 ^ 32 ->
  bytes_unused (zc_sentinel c) mem th m -> zp_unused sane mem c (th_start th) (th_size th) = Some (watermark sane th m).
Proof.
  intros CH H0 HS HT BU. unfold zp_unused, watermark. destruct (sane (th_start th) (th_size th) =? th_size th) eqn:E; [|reflexivity]. cbn [negb].
  destruct (CH (th_start th) (th_size th) H0 HS) as (_ & RD). assert (sane (th_start th) (th_size th) = th_size th) as ES by lia. rewrite ES in RD.
  rewrite (u32_id (th_start th + th_size th)) by (unfold is_u32; lia).
  assert (forall d, 0 <= d <= th_size th -> forall m, untouched mem (th_start th + d) (th_size th - d) m ->
    zp_scan mem (Z.to_nat (th_size th)) (u32 (th_start th + d)) (th_start th + th_size th) = Some (th_start th + d + m)) as K.
  { intros d Hd m0 U. rewrite (u32_id (th_start th + d)) by (unfold is_u32; lia).
    destruct (scan_ok (Z.to_nat (th_size th)) (th_start th + d) (th_start th + th_size th)) as (m1 & E1 & U1); [lia|lia| |].
    - intros x Hx. destruct (RD x ltac:(lia)) as (_ & b & Eb & _). eauto.
    - rewrite E1. replace (th_start th + th_size th - (th_start th + d)) with (th_size th - d) in U1 by lia.
      now rewrite (untouched_unique _ _ _ _ U1 U). }
  unfold bytes_unused in BU. destruct (zc_sentinel c).
  - destruct BU as (H4 & U). rewrite (K 4 ltac:(lia) _ U). cbn [bind]. destruct U as (B & _ & _).
    replace (th_start th + 4 + (m - 4) - th_start th) with m by lia. rewrite u32_id by (unfold is_u32; lia). reflexivity.
  - assert (untouched mem (th_start th + 0) (th_size th - 0) m) as U by now rewrite Z.add_0_r, Z.sub_0_r.
    rewrite (K 0 ltac:(lia) _ U). cbn [bind]. destruct U as (B & _ & _).
    replace (th_start th + 0 + m - th_start th) with m by lia. rewrite u32_id by (unfold is_u32; lia). reflexivity.
Qed.

(** any contents: the scan stays in what the check allows *)
Lemma unused_some lim start size : checks lim sane mem -> is_u32 start -> 0 <= size <= lim -> is_u32 size ->
  (zc_sentinel c = true -> start + 4 < 2 ^ 32) -> exists u, zp_unused sane mem c start size = Some u.
Proof.
  intros CH H0 HS HU H4. unfold zp_unused. destruct (sane start size =? size) eqn:E; cbn [negb]; [|eauto].
  destruct (CH start size ltac:(unfold is_u32 in H0; lia) HS) as (_ & RD). assert (sane start size = size) as ES by lia. rewrite ES in RD. unfold is_u32 in *.
  destruct (Z.eq_dec size 0) as [->|NZ].
  - rewrite Z.add_0_r, (u32_id start) by (unfold is_u32; lia).
    assert (zp_scan mem (Z.to_nat 0) (u32 (start + (if zc_sentinel c then 4 else 0))) start = Some (u32 (start + (if zc_sentinel c then 4 else 0)))) as ->.
    { change (Z.to_nat 0) with O. cbn [zp_scan]. destruct (zc_sentinel c); [specialize (H4 eq_refl)|]; rewrite u32_id by (unfold is_u32; lia); [replace (start + 4 <? start) with false by lia|replace (start + 0 <? start) with false by lia]; reflexivity. }
    cbn [bind]. eauto.
  - destruct (RD (start + size - 1) ltac:(lia)) as (HB & _). rewrite (u32_id (start + size)) by (unfold is_u32; lia).
    set (d := if zc_sentinel c then 4 else 0). assert (0 <= d /\ start + d < 2 ^ 32) as (D0 & D1). { unfold d. destruct (zc_sentinel c); [specialize (H4 eq_refl)|]; lia. }
    rewrite (u32_id (start + d)) by (unfold is_u32; lia). destruct (Z.leb_spec d size) as [DL|DL].
    + destruct (scan_ok (Z.to_nat size) (start + d) (start + size)) as (m & E1 & _); [lia|lia| |].
      * intros x Hx. destruct (RD x ltac:(lia)) as (_ & b & Eb & _). eauto.
      * rewrite E1. cbn [bind]. eauto.
    + assert (zp_scan mem (Z.to_nat size) (start + d) (start + size) = Some (start + d)) as ->.
      { destruct (Z.to_nat size); cbn [zp_scan]; replace (start + d <? start + size) with false by lia; reflexivity. }
      cbn [bind]. eauto.
Qed.

(** ** One thread *)
Definition zp_f (cur : Z) (th : Z -> thread) (m : Z -> Z) (t : Z) : option Z * option region :=
  let w := if zc_usage c then Some (watermark sane (th t) (m t)) else None in
  if negb (zc_full c) && (t =? cur) then (w, None)
  else match zp_stack sane (zc_full c) (zc_stack c) cur th t with g :: _ => (w, Some g) | [] => (None, None) end.
Lemma zp_f_stack cur th m t : opt (snd (zp_f cur th m t)) = zp_stack sane (zc_full c) (zc_stack c) cur th t.
Proof.
  unfold zp_f, zp_stack. destruct (negb (zc_full c) && (t =? cur)); [reflexivity|].
  match goal with |- context [if ?b then [] else [?x]] => destruct b; reflexivity end.
Qed.

(** the fields in memory are those of [th] *)
Definition zp_fields (o t : Z) (th : thread) : Prop :=
  holds mem (t + o) (th_sp th) /\ holds mem (t + zc_start c) (th_start th) /\ holds mem (t + zc_size c) (th_size th) /\ holds mem (t + zc_delta c) (th_delta th).

Lemma body_ok o cur th m t : checks (2 ^ 32) sane mem -> zc_info c = true -> zc_sp c = Some o -> zp_fields o t (th t) -> sound (th t) ->
  bytes_unused (zc_sentinel c) mem (th t) (m t) ->
  zp_body sane mem c cur t = Some (zp_f cur th m t).
Proof.
  intros CH EI EO (F1 & F2 & F3 & F4) (S1 & S2 & S3 & S4) BU. unfold zp_body.
  assert (is_u32 (th_sp (th t)) /\ is_u32 (th_start (th t)) /\ is_u32 (th_size (th t)) /\ is_u32 (th_delta (th t))) as (R1 & R2 & R3 & R4).
  { split; [exact (proj1 F1)|]. split; [exact (proj1 F2)|]. split; [exact (proj1 F3)|exact (proj1 F4)]. }
  apply word_holds in F1, F2, F3, F4. rewrite EI, EO, F1, F2, F3, F4. cbn [bind].
  rewrite (unused_ok (2 ^ 32) (th t) (m t) CH S1 ltac:(unfold is_u32 in *; lia) S3 BU). cbn [bind].
  unfold zp_f. rewrite (Z.eqb_sym cur t). destruct (negb (zc_full c) && (t =? cur)) eqn:EC.
  { destruct (zc_usage c); reflexivity. }
  unfold zp_stack. rewrite EC. unfold is_u32 in *. destruct (zc_full c); cbn [bind].
  - rewrite (u32_id (th_size (th t) - th_delta (th t))) by (unfold is_u32; lia).
    replace (th_start (th t) + th_size (th t) - th_delta (th t) - th_start (th t)) with (th_size (th t) - th_delta (th t)) by lia.
    destruct (sane (th_start (th t)) (th_size (th t) - th_delta (th t)) =? 0); [reflexivity|]. destruct (zc_usage c); reflexivity.
  - rewrite (u32_id (th_start (th t) + th_size (th t) - th_delta (th t))) by (unfold is_u32; lia).
    rewrite (u32_id (th_start (th t) + th_size (th t) - th_delta (th t) - th_sp (th t))) by (unfold is_u32; lia).
    match goal with |- context [sane ?a ?b =? 0] => destruct (sane a b =? 0); [reflexivity|] end. destruct (zc_usage c); reflexivity.
Qed.

(** any contents of the control block, when it can be read *)
Lemma body_some cur t : checks (2 ^ 32) sane mem -> 0 <= t -> sane t (zc_tcb c) = zc_tcb c -> 0 <= zc_tcb c < 2 ^ 32 -> 0 <= zc_stack c < 2 ^ 32 ->
  match zc_sp c with Some o => 0 <= o <= zc_tcb c - 4 | None => True end ->
  0 <= zc_start c <= zc_tcb c - 4 -> 0 <= zc_size c <= zc_tcb c - 4 -> 0 <= zc_delta c <= zc_tcb c - 4 ->
  (zc_sentinel c = true -> forall v, tr_word mem (t + zc_start c) = Some v -> v + 4 < 2 ^ 32) ->
  exists w g, zp_body sane mem c cur t = Some (w, g) /\ Forall (readable mem) (opt g).
Proof.
  intros CH H0 HT HTB HST HO H1 H2 H3 HSN.
  assert (forall o, 0 <= o <= zc_tcb c - 4 -> exists v, tr_word mem (t + o) = Some v /\ is_u32 v) as RW.
  { intros o Ho. apply word_some. intros k Hk. destruct (CH t (zc_tcb c) H0 ltac:(lia)) as (_ & RD).
    destruct (RD (t + o + k) ltac:(lia)) as (_ & b & Eb & Rb). eauto. }
  destruct (RW _ H1) as (st & E1 & R1). destruct (RW _ H2) as (sz & E2 & R2). destruct (RW _ H3) as (de & E3 & R3).
  destruct (unused_some (2 ^ 32) st sz CH R1 ltac:(unfold is_u32 in R2; lia) R2) as (u & EU).
  { intros ES. apply (HSN ES). exact E1. }
  unfold zp_body. rewrite E1, E2, E3. cbn [bind]. rewrite EU. cbn [bind].
  assert (exists w, (if zc_usage c then Some (Some u) else Some None) = Some w) as (w & EW) by (destruct (zc_usage c); eauto). rewrite EW. cbn [bind].
  destruct (negb (zc_full c) && (cur =? t)). { exists w, None. split; [reflexivity|constructor]. }
  assert (exists sp, match zc_sp c with Some o => tr_word mem (t + o) | None => Some 0 end = Some sp /\ is_u32 sp) as (sp & EP & RP).
  { destruct (zc_sp c) as [o|]; [apply RW; exact HO|]. exists 0. split; [reflexivity|unfold is_u32; lia]. }
  rewrite EP. cbn [bind].
  assert (exists a want, (if zc_info c then if zc_full c then Some (st, u32 (sz - de)) else Some (sp, Z.min (u32 (u32 (st + sz - de) - sp)) (zc_stack c))
     else Some (sp, zc_stack c)) = Some (a, want) /\ is_u32 a /\ 0 <= want < 2 ^ 32) as (a & want & EA & RA & RWN).
  { pose proof (u32_range (sz - de)). pose proof (u32_range (u32 (st + sz - de) - sp)). unfold is_u32 in *.
    destruct (zc_info c); [destruct (zc_full c)|]; eexists; eexists; (split; [reflexivity|]); lia. }
  rewrite EA. cbn [bind]. destruct (sane a want =? 0). { exists None, None. split; [reflexivity|constructor]. }
  exists w, (Some (a, sane a want)). split; [reflexivity|]. constructor; [|constructor]. intros x Hx. cbn [fst snd] in Hx.
  exact (proj2 (proj2 (CH a want ltac:(unfold is_u32 in RA; lia) ltac:(lia)) x Hx)).
Qed.

(** ** All threads *)
Definition zp_tables (slots : list Z) : list region :=
  (if zc_usage c then [(zc_wtbl c, 4 * zlen slots)] else []) ++ [(zc_tbl c, 4 * zlen slots)].

Lemma task_regions_ok cur f slots wms regs num :
  (forall t, In t slots -> valid sane (zc_tcb c) t = true -> zp_body sane mem c cur t = Some (f t)) ->
  zlen wms = zlen slots -> 0 < num <= zlen regs ->
  let stack t := opt (snd (f t)) in
  let gs := take num (tcb_regions sane (zc_tcb c) slots ++ stack_regions sane (zc_tcb c) stack slots) ++ zp_tables slots in
  zlen gs <= zlen regs ->
  exists slots' wms', scrubbed sane (zc_tcb c) slots slots' /\
    (zlen (tcb_regions sane (zc_tcb c) slots) < num -> slots' = map (scrub sane (zc_tcb c)) slots) /\
    renewed sane (zc_tcb c) num (fun t => fst (f t)) stack slots wms wms' /\
    zp_task_regions sane mem c cur slots wms regs num = Some (zlen gs, slots', wms', gs ++ drop (zlen gs) regs).
Proof.
  intros W LW HN stack gs LG.
  destruct (both_loops sane (zc_tcb c) (zp_body sane mem c cur) f num slots wms regs W LW ltac:(lia)) as (slots' & n1 & regs1 & wms' & E1 & E2 & SC & M & RN).
  exists slots', wms'. split; [exact SC|]. split; [exact M|]. split; [exact RN|].
  assert (zlen slots' = zlen slots) as LS. { clear -SC. induction SC; [reflexivity|]. rewrite !zlen_cons. lia. }
  assert (zlen wms' = zlen wms) as LW' by exact (proj1 RN).
  unfold zp_task_regions. replace (num =? 0) with false by lia. rewrite E1. cbn [bind]. replace (length slots') with (length slots) in E2 |- * by (unfold zlen in LS; lia).
  rewrite E2. cbn [bind]. fold stack. unfold gs, zp_tables in *.
  set (g := take num (tcb_regions sane (zc_tcb c) slots ++ stack_regions sane (zc_tcb c) stack slots)) in *.
  rewrite LW', LS, LW. pose proof (zlen_nonneg g). destruct (zc_usage c); cbn [app] in *.
  - rewrite zlen_app, !zlen_cons, zlen_nil in LG. rewrite push_ok by (rewrite zlen_drop, zlen_cons, zlen_nil; lia). cbn [bind].
    rewrite app_assoc. rewrite <- zlen_app. rewrite push_ok by (rewrite !zlen_drop, !zlen_cons, !zlen_nil; lia). cbn [bind].
    rewrite !zlen_app, !zlen_cons, !zlen_nil. rewrite !drop_drop by lia. rewrite <- !app_assoc. cbn [app].
    repeat (f_equal; try lia).
  - cbn [bind]. rewrite zlen_app, !zlen_cons, zlen_nil in LG. rewrite push_ok by (rewrite zlen_drop, zlen_cons, zlen_nil; lia). cbn [bind].
    rewrite !zlen_app, !zlen_cons, !zlen_nil. rewrite !drop_drop by lia. rewrite <- !app_assoc. cbn [app].
    replace (1 + 0 + zlen g) with (zlen g + (1 + 0)) by lia. reflexivity.
Qed.

(** ** The whole list *)
Definition zp_first (o : zp_opts) (crash : Z) (psp : option Z) (ker : region) : list region :=
  (if zo_stack o then (crash, sane crash (zc_stack c)) :: match psp with Some p => [(p, sane p (zc_stack c + 128))] | None => [] end else []) ++
  (if zo_kernel o then [ker] else []).
Definition zp_last (o : zp_opts) (data bss : region) : list region :=
  (if zo_data o then [data] else []) ++ (if zo_bss o then [bss] else []).
Definition zp_tasks (o : zp_opts) (f : Z -> option Z * option region) (slots : list Z) : list region :=
  if zo_tasks o then tcb_regions sane (zc_tcb c) slots ++ stack_regions sane (zc_tcb c) (fun t => opt (snd (f t))) slots ++ zp_tables slots else [].

Lemma section_ok b g pre post num : num <= zlen pre + zlen post -> (b = true -> zlen pre < num) ->
  (if b then do (n, rest) <- zp_section g (drop (zlen pre) (pre ++ post)) (num - zlen pre) ; Some (zlen pre + n, take (zlen pre) (pre ++ post) ++ rest)
   else Some (zlen pre, pre ++ post)) =
  Some (zlen (pre ++ (if b then [g] else [])), (pre ++ (if b then [g] else [])) ++ drop (zlen (if b then [g] else [])) post).
Proof.
  intros L H. destruct b.
  - specialize (H eq_refl). rewrite drop_app_exact, take_app_exact by reflexivity. unfold zp_section. replace (num - zlen pre =? 0) with false by lia.
    destruct post as [|p post]; [rewrite zlen_nil in L; lia|]. change (set_at (p :: post) 0 g) with (set_at ([] ++ p :: post) 0 g).
    rewrite set_at_app by reflexivity. cbn [bind app]. rewrite zlen_app, <- app_assoc. reflexivity.
  - rewrite app_nil_r. change (zlen (@nil region)) with 0. rewrite drop_0. reflexivity.
Qed.

Lemma regions_ok o cur f crash psp ker data bss slots wms regs num :
  (forall t, In t slots -> valid sane (zc_tcb c) t = true -> zp_body sane mem c cur t = Some (f t)) ->
  zlen wms = zlen slots -> zp_max o (zlen slots) <= num <= zlen regs ->
  let gs := zp_first o crash psp ker ++ zp_tasks o f slots ++ zp_last o data bss in
  zlen gs <= zp_max o (zlen slots) /\
  exists slots' wms', zp_regions sane mem c o cur crash psp ker data bss slots wms regs num = Some (zlen gs, slots', wms', gs ++ drop (zlen gs) regs).
Proof.
  intros W LW HN gs. pose proof (zlen_nonneg slots) as NS.
  set (stack := fun t => opt (snd (f t))).
  pose proof (tcb_regions_len sane (zc_tcb c) slots) as L1.
  assert (zlen (stack_regions sane (zc_tcb c) stack slots) <= zlen slots) as L2.
  { apply stack_regions_len. intros t. unfold stack. destruct (snd (f t)); cbn [opt]; rewrite ?zlen_cons, ?zlen_nil; lia. }
  assert (zlen (zp_tables slots) <= 2) as L3. { unfold zp_tables. destruct (zc_usage c); cbn [app]; rewrite ?zlen_cons, ?zlen_nil; lia. }
  assert (1 <= zlen (zp_tables slots)) as L3'. { unfold zp_tables. destruct (zc_usage c); cbn [app]; rewrite ?zlen_cons, ?zlen_nil; lia. }
  assert (zlen (zp_first o crash psp ker) <= zp_b (zo_stack o) * 2 + zp_b (zo_kernel o)) as L4.
  { unfold zp_first, zp_b. destruct (zo_stack o), (zo_kernel o), psp; cbn [app]; rewrite ?zlen_cons, ?zlen_nil; lia. }
  assert (zlen (zp_tasks o f slots) <= zp_b (zo_tasks o) * 2 + 2 * zlen slots) as L5.
  { unfold zp_tasks, zp_b. fold stack. destruct (zo_tasks o); rewrite ?zlen_app, ?zlen_nil; lia. }
  assert (zlen (zp_last o data bss) = zp_b (zo_data o) + zp_b (zo_bss o)) as L6.
  { unfold zp_last, zp_b. destruct (zo_data o), (zo_bss o); reflexivity. }
  assert (zp_max o (zlen slots) = zp_b (zo_stack o) * 2 + zp_b (zo_kernel o) + (zp_b (zo_tasks o) * 2 + 2 * zlen slots) + (zp_b (zo_data o) + zp_b (zo_bss o))) as EM
    by (unfold zp_max; lia).
  assert (zlen gs <= zp_max o (zlen slots)) as LG. { unfold gs. rewrite !zlen_app. lia. }
  split; [exact LG|].
  assert (forall b, 0 <= zp_b b) as NB by (intros []; cbn; lia). pose proof (NB (zo_stack o)). pose proof (NB (zo_kernel o)). pose proof (NB (zo_tasks o)).
  pose proof (NB (zo_data o)). pose proof (NB (zo_bss o)).
  unfold zp_regions. replace (num <? zp_max o (zlen slots)) with false by lia.
  change ((if zo_stack o then (crash, sane crash (zc_stack c)) :: match psp with Some p => [(p, sane p (zc_stack c + 128))] | None => [] end else []) ++
    (if zo_kernel o then [ker] else [])) with (zp_first o crash psp ker).
  set (first := zp_first o crash psp ker) in *. pose proof (zlen_nonneg first). rewrite push_start by lia. cbn [bind].
  set (post := drop (zlen first) regs). assert (zlen post = zlen regs - zlen first) as LP by (unfold post; rewrite zlen_drop; lia).
  assert (exists slots' wms', (if zo_tasks o then
       do (n, slots0, wms0, rest) <- zp_task_regions sane mem c cur slots wms (drop (zlen first) (first ++ post)) (num - zlen first) ;
       Some (zlen first + n, slots0, wms0, take (zlen first) (first ++ post) ++ rest)
     else Some (zlen first, slots, wms, first ++ post)) =
    Some (zlen (first ++ zp_tasks o f slots), slots', wms', (first ++ zp_tasks o f slots) ++ drop (zlen (zp_tasks o f slots)) post)) as (slots' & wms' & ET).
  { unfold zp_tasks. fold stack. destruct (zo_tasks o) eqn:EO.
    - cbn [zp_b] in *. rewrite drop_app_exact, take_app_exact by reflexivity.
      destruct (task_regions_ok cur f slots wms post (num - zlen first) W LW) as (slots' & wms' & _ & _ & _ & E).
      + split; lia.
      + fold stack. rewrite take_all by (rewrite zlen_app; lia). rewrite !zlen_app. lia.
      + fold stack in E. rewrite take_all in E by (rewrite zlen_app; lia). rewrite E. cbn [bind]. exists slots', wms'.
        set (X := tcb_regions sane (zc_tcb c) slots) in *. set (Y := stack_regions sane (zc_tcb c) stack slots) in *. set (V := zp_tables slots) in *.
        replace ((X ++ Y) ++ V) with (X ++ Y ++ V) by (now rewrite <- app_assoc). rewrite (zlen_app first). rewrite <- (app_assoc first). reflexivity.
    - exists slots, wms. rewrite app_nil_r. change (zlen (@nil region)) with 0. rewrite drop_0. reflexivity. }
  rewrite ET. cbn [bind]. exists slots', wms'.
  set (a := first ++ zp_tasks o f slots) in *. set (post2 := drop (zlen (zp_tasks o f slots)) post).
  assert (zlen a = zlen first + zlen (zp_tasks o f slots)) as LA by (unfold a; apply zlen_app). pose proof (zlen_nonneg (zp_tasks o f slots)).
  assert (zlen post2 = zlen post - zlen (zp_tasks o f slots)) as LP2 by (unfold post2; rewrite zlen_drop; lia).
  rewrite (section_ok (zo_data o) data a post2 num) by (try (intros E; rewrite E in *; cbn [zp_b] in *); lia). cbn [bind].
  set (d := if zo_data o then [data] else []) in *. assert (zlen d = zp_b (zo_data o)) as LD by (unfold d; destruct (zo_data o); reflexivity).
  rewrite (section_ok (zo_bss o) bss (a ++ d) (drop (zlen d) post2) num).
  2:{ rewrite zlen_app, zlen_drop. lia. }
  2:{ intros E. rewrite E in *. cbn [zp_b] in *. rewrite zlen_app. lia. }
  cbn [bind]. assert (gs = (a ++ d) ++ (if zo_bss o then [bss] else [])) as EG.
  { unfold gs, a, zp_last, d. rewrite <- !app_assoc. reflexivity. }
  rewrite <- EG. f_equal. f_equal. f_equal. unfold post2, post. pose proof (zlen_nonneg d). pose proof (zlen_nonneg (if zo_bss o then [bss] else [])).
  rewrite !drop_drop by lia. f_equal.
  rewrite EG, !zlen_app, LA. lia.
Qed.
End Zp.

(** ** Aligned control blocks *)
Lemma aligned_word banks mem tcb t : Forall (fun b => is_u32 (fst b) /\ is_u32 (snd b) /\ fst b mod 4 = 0 /\ snd b mod 4 = 0) banks ->
  (forall x, in_ram banks x -> exists b, mem x = Some b /\ is_u8 b) -> 4 <= tcb -> t mod 4 = 0 -> tr_sanitize banks t tcb <> 0 ->
  exists v, tr_word mem t = Some v /\ is_u32 v.
Proof.
  intros W M T A. induction banks as [|(lo, len) banks IH]; cbn [tr_sanitize]; [congruence|].
  apply Forall_inv in W as W1. apply Forall_inv_tail in W. cbn [fst snd] in W1. destruct W1 as (R1 & R2 & A1 & A2).
  pose proof (u32_range (lo + len)) as U. unfold is_u32 in *.
  destruct ((lo <=? t) && (t <? u32 (lo + len))) eqn:E; intros H.
  - assert (u32 (lo + len) = lo + len) as X by (unfold u32 in *; lia).
    apply word_some. intros k Hk. apply M. exists lo, len. split; [now left|].
    assert ((lo + len) mod 4 = 0) by (rewrite Z.add_mod, A1, A2 by lia; reflexivity). lia.
  - apply (IH W); [|exact H]. intros x (lo' & len' & I & X). apply M. exists lo', len'. split; [now right|exact X].
Qed.

Definition top_of (mem : Z -> option Z) (t : Z) : Z := match tr_word mem t with Some v => v | None => 0 end.
Lemma top_of_ok mem t v : tr_word mem t = Some v -> tr_word mem t = Some (top_of mem t).
Proof. intros E. unfold top_of. now rewrite E. Qed.
