From Coq Require Import String.
From Verif Require Import Base GdbCoredump GdbCoredumpSpec.
From Coq Require Import Sorting.Sorted.
Open Scope list_scope.
Open Scope Z_scope.

(** ** The file *)
Lemma pack_word n l : pack_I n = Some l -> l = word n /\ 0 <= n < 4294967296.
Proof. unfold pack_I. destruct ((0 <=? n) && (n <? 4294967296)) eqn:E; [|discriminate]. intros [= <-]. split; [reflexivity|lia]. Qed.
Lemma number_word n : 0 <= n < 4294967296 -> number (word n) = n.
Proof. intros H. unfold number, word. cbn [fold_right]. Z.to_euclidean_division_equations. lia. Qed.
Lemma zlen_word n : zlen (word n) = 4.
Proof. reflexivity. Qed.
Lemma parse_all : forall l b, all_blocks l = Some b -> Forall (fun x => 0 <= fst (fst x) < 256) l -> forall fuel, (length l <= fuel)%nat ->
  parse_blocks fuel b = Some (map (fun x => (fst (fst x), snd x, snd (fst x))) l).
Proof.
  induction l as [|[[t p] a] l IH]; intros b H F fuel L; cbn [all_blocks] in H.
  - injection H as <-. destruct fuel; reflexivity.
  - apply bind_inv in H as (x & X & H). apply bind_inv in H as (r & R & H). injection H as <-.
    unfold write_block in X. apply bind_inv in X as (wa & WA & X). apply bind_inv in X as (wn & WN & X). injection X as <-.
    apply pack_word in WA as [-> AR]. apply pack_word in WN as [-> NR].
    inversion F as [|? ? T F']; subst. cbn [fst] in T. cbn [length] in L. destruct fuel as [|fuel]; [lia|].
    set (B := [t; 0; 0; 0] ++ word a ++ word (zlen p) ++ p).
    assert (EB : B ++ r = [t; 0; 0; 0] ++ word a ++ word (zlen p) ++ p ++ r) by (unfold B; now rewrite <- !app_assoc).
    pose proof (zlen_nonneg p). pose proof (zlen_nonneg r).
    assert (LB : zlen (B ++ r) = 12 + zlen p + zlen r) by (rewrite EB, !zlen_app, !zlen_word; change (zlen [t; 0; 0; 0]) with 4; lia).
    assert (D8 : take 4 (drop 8 (B ++ r)) = word (zlen p)).
    { rewrite EB. rewrite (app_assoc [t; 0; 0; 0]). rewrite (drop_app_exact 8 ([t; 0; 0; 0] ++ word a)) by reflexivity. apply take_app_exact. reflexivity. }
    assert (D4 : take 4 (drop 4 (B ++ r)) = word a).
    { rewrite EB. rewrite (drop_app_exact 4 [t; 0; 0; 0]) by reflexivity. apply take_app_exact. reflexivity. }
    assert (D0 : take 4 (B ++ r) = [t; 0; 0; 0]) by (rewrite EB; apply take_app_exact; reflexivity).
    assert (D12 : drop 12 (B ++ r) = p ++ r).
    { rewrite EB, !app_assoc, <- (app_assoc (([t; 0; 0; 0] ++ word a) ++ word (zlen p))). apply drop_app_exact. reflexivity. }
    assert (DR : drop (12 + zlen p) (B ++ r) = r).
    { apply drop_app_exact. unfold B. rewrite !zlen_app, !zlen_word. change (zlen [t; 0; 0; 0]) with 4. lia. }
    match goal with |- parse_blocks _ ?X = _ => change X with (B ++ r) end.
    change (parse_blocks (S fuel) (B ++ r)) with
      (match B ++ r with [] => Some [] | _ :: _ => let n := number (take 4 (drop 8 (B ++ r))) in
        if (12 <=? zlen (B ++ r)) && (n <=? zlen (B ++ r) - 12)
        then do q <- parse_blocks fuel (drop (12 + n) (B ++ r)); Some ((number (take 4 (B ++ r)), number (take 4 (drop 4 (B ++ r))), take n (drop 12 (B ++ r))) :: q)
        else None end).
    destruct (B ++ r) as [|z q] eqn:Q; [exfalso; change (zlen (@nil Z)) with 0 in LB; lia|]. cbv iota zeta.
    rewrite D8, number_word by lia. rewrite LB. replace ((12 <=? 12 + zlen p + zlen r) && (zlen p <=? 12 + zlen p + zlen r - 12)) with true by lia.
    rewrite DR, (IH r R F' fuel) by lia. cbn [bind]. rewrite D0, D4, D12, (number_word a) by lia. rewrite take_app_exact by reflexivity.
    cbn [map fst snd]. repeat f_equal. unfold number. cbn [fold_right]. lia.
Qed.
Lemma all_blocks_len : forall l b, all_blocks l = Some b -> zlen b = fold_right (fun x n => 12 + zlen (snd (fst x)) + n) 0 l.
Proof.
  induction l as [|[[t p] a] l IH]; intros b H; cbn [all_blocks] in H; [now injection H as <-|].
  apply bind_inv in H as (x & X & H). apply bind_inv in H as (r & R & H). injection H as <-.
  unfold write_block in X. apply bind_inv in X as (wa & WA & X). apply bind_inv in X as (wn & WN & X). injection X as <-.
  apply pack_word in WA as [-> _]. apply pack_word in WN as [-> _]. cbn [fold_right fst snd].
  rewrite zlen_app. change (zlen (t :: 0 :: 0 :: 0 :: word a ++ word (zlen p) ++ p)) with (zlen ([t; 0; 0; 0] ++ word a ++ word (zlen p) ++ p)).
  rewrite !zlen_app, !zlen_word, (IH r R). change (zlen [t; 0; 0; 0]) with 4. lia.
Qed.
Lemma all_blocks_count : forall l b, all_blocks l = Some b -> Z.of_nat (length l) <= zlen b.
Proof.
  intros l b H. rewrite (all_blocks_len l b H). clear. induction l as [|x l IH]; cbn [fold_right length]; [lia|]. pose proof (zlen_nonneg (snd (fst x))). lia.
Qed.
Lemma all_blocks_some : forall l, Forall (fun x => is_u32 (snd x) /\ is_u32 (zlen (snd (fst x)))) l -> exists b, all_blocks l = Some b.
Proof.
  induction 1 as [|[[t p] a] l [A N] _ [b IH]]; [now exists []|]. cbn [fst snd] in A, N. unfold is_u32 in *. cbn [all_blocks]. unfold write_block, pack_I.
  replace ((0 <=? a) && (a <? 4294967296)) with true by lia. replace ((0 <=? zlen p) && (zlen p <? 4294967296)) with true by lia. cbn [bind].
  rewrite IH. cbn [bind]. eauto.
Qed.

(** ** Memory *)
Lemma zlen_memory m a n : 0 <= n -> zlen (memory m a n) = n.
Proof. intros H. unfold memory, zlen, zrange. rewrite !map_length, seq_length. lia. Qed.
Lemma memory_app m a n k : 0 <= n -> 0 <= k -> memory m a n ++ memory m (a + n) k = memory m a (n + k).
Proof.
  intros N K. unfold memory, zrange. rewrite Z2Nat.inj_add by lia. rewrite seq_app, !map_app. f_equal.
  rewrite !map_map, Nat.add_0_l.
  assert (X : forall c i, map (fun x => m (a + n + Z.of_nat x)) (seq i c) = map (fun x => m (a + Z.of_nat x)) (seq (Z.to_nat n + i) c)).
  { induction c as [|c IH]; intros i; [reflexivity|]. cbn [seq map]. rewrite IH, <- Nat.add_succ_r. f_equal. f_equal. lia. }
  rewrite X, Nat.add_0_r. reflexivity.
Qed.
Lemma read_until_ok rd m : (forall a n d, rd a n = Some d -> d = memory m a n) ->
  forall fuel addr end_, end_ - addr <= Z.of_nat fuel -> exists k,
    0 <= k <= Z.max 0 (end_ - addr) /\ read_until rd fuel addr end_ = memory m addr k /\
    (k = Z.max 0 (end_ - addr) \/ (k mod 4096 = 0 /\ rd (addr + k) (Z.min 4096 (end_ - addr - k)) = None)).
Proof.
  intros RD. induction fuel as [|fuel IH]; intros addr end_ L.
  - exists 0. split; [lia|]. split; [reflexivity|]. left. lia.
  - cbn [read_until]. destruct (addr <? end_) eqn:E; [|exists 0; split; [lia|]; split; [reflexivity|left; lia]].
    destruct (rd addr (Z.min 4096 (end_ - addr))) as [d|] eqn:R.
    + destruct (IH (addr + 4096) end_) as (k & K0 & K1 & K2); [lia|]. rewrite K1, (RD _ _ _ R).
      destruct (Z_le_dec 4096 (end_ - addr)) as [G|G].
      * rewrite Z.min_l by lia. exists (4096 + k). rewrite memory_app by lia. split; [lia|]. split; [reflexivity|].
        destruct K2 as [K2|[K2 K3]]; [left; lia|right]. split; [rewrite Z.add_mod, K2 by lia; reflexivity|].
        replace (addr + (4096 + k)) with (addr + 4096 + k) by lia. replace (end_ - addr - (4096 + k)) with (end_ - (addr + 4096) - k) by lia. exact K3.
      * rewrite Z.min_r by lia. exists (end_ - addr). assert (k = 0) by lia. subst k. split; [lia|]. split; [|left; lia].
        unfold memory at 2. cbn. now rewrite app_nil_r.
    + exists 0. split; [lia|]. split; [reflexivity|]. right. split; [reflexivity|]. rewrite Z.add_0_r, Z.sub_0_r. exact R.
Qed.

(** ** Regions *)
Definition before (a b : Z * Z) : Prop := fst a <= fst b.
Lemma insert_in x a : forall l, In x (insert a l) <-> x = a \/ In x l.
Proof.
  induction l as [|b l IH]; cbn [insert].
  - cbn. intuition.
  - destruct (fst a <? fst b); cbn [In]; [intuition|]. rewrite IH. intuition.
Qed.
Lemma insert_sorted a : forall l, StronglySorted before l -> StronglySorted before (insert a l).
Proof.
  induction 1 as [|b l S IH F]; cbn [insert]; [constructor; constructor|].
  destruct (fst a <? fst b) eqn:E.
  - constructor; [now constructor|]. constructor; [unfold before; lia|]. eapply Forall_impl; [|exact F]. unfold before. cbn beta. intros. lia.
  - constructor; [exact IH|]. apply Forall_forall. intros x X. apply insert_in in X as [->|X]; [unfold before; lia|]. rewrite Forall_forall in F. now apply F.
Qed.
Lemma sort_ok l : StronglySorted before (sort_addr l) /\ forall x, In x (sort_addr l) <-> In x l.
Proof.
  unfold sort_addr. assert (G : forall l acc, StronglySorted before acc -> StronglySorted before (fold_left (fun acc a => insert a acc) l acc) /\
    forall x, In x (fold_left (fun acc a => insert a acc) l acc) <-> In x acc \/ In x l).
  { clear l. induction l as [|a l IH]; intros acc A; cbn [fold_left]; [split; [exact A|cbn; intuition]|].
    destruct (IH (insert a acc) (insert_sorted a acc A)) as [B C]. split; [exact B|]. intros x. rewrite C, insert_in. cbn [In]. intuition. }
  destruct (G l [] (SSorted_nil _)) as [A B]. split; [exact A|]. intros x. rewrite B. cbn. intuition.
Qed.
Lemma merge_in : forall l prev h, In h (map fst (merge prev l)) -> h = fst prev \/ In h (map fst l).
Proof.
  induction l as [|r l IH]; intros prev h H; cbn [merge map In] in *; [intuition|].
  destruct (fst r <=? fst prev + snd prev).
  - destruct (IH _ _ H) as [->|X]; [now left|]. right. now right.
  - cbn [map In] in H. destruct H as [<-|H]; [now left|]. destruct (IH _ _ H) as [->|X]; right; [now left|now right].
Qed.
Lemma merge_head : forall l prev, In (fst prev) (map fst (merge prev l)).
Proof.
  induction l as [|r l IH]; intros prev; cbn [merge]; [now left|].
  destruct (fst r <=? fst prev + snd prev); [apply (IH (fst prev, _))|now left].
Qed.
(** [p]: the last start merged *)
Lemma merge_starts C x : 0 <= C -> forall l p prev, (forall r, In r l -> snd r = C) -> StronglySorted before l -> (forall r, In r l -> p <= fst r) ->
  fst prev + snd prev = p + C -> p < x -> In x (map fst l) -> (forall y, y = p \/ In y (map fst l) -> ~ x - C <= y < x) ->
  In x (map fst (merge prev l)).
Proof.
  intros C0. induction l as [|r l IH]; intros p prev SZ SS LE EN PX IN NO; [contradiction|]. cbn [merge map In] in *.
  inversion SS as [|? ? SS' FA]; subst. rewrite Forall_forall in FA.
  pose proof (SZ r (or_introl eq_refl)) as SR. pose proof (LE r (or_introl eq_refl)) as LR.
  assert (CASE : fst r = x \/ (fst r < x /\ In x (map fst l))).
  { destruct IN as [IN|IN]; [now left|]. destruct (Z.eq_dec (fst r) x) as [E|E]; [now left|]. right. split; [|exact IN].
    apply in_map_iff in IN as (q & Q1 & Q2). specialize (FA q Q2). unfold before in FA. lia. }
  destruct (fst r <=? fst prev + snd prev) eqn:E.
  - destruct CASE as [CASE|[LT IN']]; [exfalso; apply (NO p); [now left|lia]|].
    refine (IH (fst r) _ (fun q Q => SZ q (or_intror Q)) SS' FA _ LT IN' _); [cbn [fst snd]; lia|].
    intros y [->|Y]; apply NO; right; [now left|now right].
  - cbn [map In]. right. destruct CASE as [<-|[LT IN']]; [apply merge_head|].
    refine (IH (fst r) _ (fun q Q => SZ q (or_intror Q)) SS' FA _ LT IN' _); [lia|].
    intros y [->|Y]; apply NO; right; [now left|now right].
Qed.
Lemma merge_apart C : 0 <= C -> forall l prev, (forall r, In r l -> snd r = C) -> StronglySorted before l -> C <= snd prev ->
  StronglySorted (fun a b => a + C < b) (map fst (merge prev l)).
Proof.
  intros C0. induction l as [|r l IH]; intros prev SZ SS LE; cbn [merge map]; [constructor; constructor|].
  inversion SS as [|? ? SS' FA]; subst. rewrite Forall_forall in FA.
  destruct (fst r <=? fst prev + snd prev) eqn:E.
  - apply IH; [intros; apply SZ; now right|exact SS'|cbn [snd]; lia].
  - cbn [map]. constructor.
    + apply IH; [intros; apply SZ; now right|exact SS'|rewrite (SZ r (or_introl eq_refl)); lia].
    + apply Forall_forall. intros h H. apply merge_in in H as [->|H]; [lia|]. apply in_map_iff in H as (q & <- & Q). specialize (FA q Q). unfold before in FA. lia.
Qed.

(** ** Registers *)
From Verif Require Import FaultShim FaultShimSpec FaultShimProofs.
Lemma land_15 x : Z.land x 0xF = x mod 16.
Proof. change 0xF with (Z.ones 4). now rewrite Z.land_ones by lia. Qed.
Lemma patch_fault_ok k s r rd yes x : cm_ok k -> cm_taken k s ->
  r "xpsr"%string = Some x -> 2 <= x mod 512 <= 10 -> r "lr"%string = Some (cm_lr s) ->
  r "msp"%string = Some (cm_msp s) -> r "psp"%string = Some (cm_psp s) ->
  (forall i, 0 <= i < 8 -> rd (frameptr k + i * 4) = Some (cm_mem s (frameptr k + 4 * i))) ->
  pc_in_table rd r (x mod 16) = true \/ yes = true ->
  patch_fault rd yes r =
  Done (upd (upd (upd (upd (upd (upd (upd (upd (upd r "r0" (k_r k 0)) "r1" (k_r k 1)) "r2" (k_r k 2)) "r3" (k_r k 3)) "r12" (k_r k 12)) "lr" (k_lr k)) "pc" (k_pc k)) "xpsr" (stacked_psr k)) "sp" (k_sp k)).
Proof.
  intros OK T RX NX RL RM RP RD YES. destruct T as (TM & TP & TL & _ & TF & _). unfold patch_fault. rewrite RX, land_15.
  assert (N16 : 2 <= x mod 16 <= 10). { replace (x mod 16) with (x mod 512 mod 16) by (Z.to_euclidean_division_equations; lia). rewrite Z.mod_small; lia. }
  replace ((x mod 16 <? 2) || (10 <? x mod 16)) with false by lia. rewrite RL, TL.
  replace (Z.shiftr (exc_return k) 28 =? 15) with true by (unfold exc_return; destruct (k_handler k), (k_spsel k), (k_fp k); reflexivity).
  cbn [negb]. replace (Z.land (exc_return k) 32 =? 0) with false by (unfold exc_return; destruct (k_handler k), (k_spsel k), (k_fp k); reflexivity).
  replace (negb (pc_in_table rd r (x mod 16)) && negb yes) with false by (destruct YES as [->| ->]; [reflexivity|now rewrite andb_false_r]).
  rewrite ret_main, negb_involutive.
  assert (SP : r (if uses_psp k then "psp"%string else "msp"%string) = Some (frameptr k)) by (destruct (uses_psp k); [now rewrite RP, TP|now rewrite RM, TM]).
  rewrite SP. cbn [restore].
  change (0 + 1) with 1. change (1 + 1) with 2. change (2 + 1) with 3. change (3 + 1) with 4. change (4 + 1) with 5. change (5 + 1) with 6. change (6 + 1) with 7.
  rewrite (RD 0), (RD 1), (RD 2), (RD 3), (RD 4), (RD 5), (RD 6), (RD 7) by lia.
  rewrite (TF 0 (k_r k 0)), (TF 1 (k_r k 1)), (TF 2 (k_r k 2)), (TF 3 (k_r k 3)), (TF 4 (k_r k 12)), (TF 5 (k_lr k)), (TF 6 (k_pc k)), (TF 7 (stacked_psr k)) by reflexivity.
  unfold upd at 1. change ("xpsr" =? "xpsr")%string with true. cbv iota zeta.
  rewrite psr_bit9, negb_involutive, ret_fp. pose proof (sp_range k OK) as SR. unfold is_u32 in SR. pose proof (frameptr_eq k) as FE. unfold framesize in FE.
  assert (E : frameptr k + (if frameptralign k then (if k_fp k then 104 else 32) + 4 else if k_fp k then 104 else 32) = k_sp k) by (rewrite FE; destruct (frameptralign k), (k_fp k); lia).
  rewrite E. replace (k_sp k <? 4294967296) with true by lia. reflexivity.
Qed.
