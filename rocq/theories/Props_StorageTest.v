(** C59: the coredump storage self-test. *)
From Verif Require Import Base StorageTest StorageTestSpec StorageTestProofs.

(** When the test passes, the erase left every byte blank and the storage ends up holding the test
    image: every byte of it, whatever the port's functions do and report. *)
Theorem C59_passing_means_working {S} (p : port S) (c : S -> list Z) : reads_contents p c -> 0 < po_size p <= 4294967280 ->
  forall s, (exists r, st_begin p s = Some r) /\ forall t s', st_begin p s = Some (true, t, s') ->
    sr_res t = RSuccess /\ c s' = test_image (po_size p) /\
    exists s0 s1, po_begin p s = (true, s0) /\ po_erase p 0 (po_size p) s0 = (true, s1) /\ Forall blank (c s1).
Proof. intros RC HS s. split; [exact (begin_ends p c RC HS s)|exact (begin_true p c RC HS s)]. Qed.
Print Assumptions C59_passing_means_working.

(** When it fails this is recorded, and a mismatch is located: the offset recorded for the erase is
    the first byte not blank, the one for the writes is that of the first piece not as written. *)
Theorem C59_failure_is_located {S} (p : port S) (c : S -> list Z) : reads_contents p c -> 0 < po_size p <= 4294967280 ->
  forall s t s', st_begin p s = Some (false, t, s') ->
  sr_res t <> RSuccess /\
  (sr_res t = RCompareFailed ->
     sr_op t = TErase /\ sr_size t = 1 /\ Forall blank (take (sr_off t) (c s')) /\ (exists b, get (c s') (sr_off t) = Some b /\ ~ blank b) \/
     sr_op t = TWrite /\ 0 <= sr_off t /\ 0 < sr_size t /\ sr_off t + sr_size t <= po_size p /\
       take (sr_off t) (c s') = take (sr_off t) (test_image (po_size p)) /\
       take (sr_size t) (drop (sr_off t) (c s')) <> take (sr_size t) (drop (sr_off t) (test_image (po_size p)))).
Proof. intros RC HS. exact (begin_false p c RC HS). Qed.
Print Assumptions C59_failure_is_located.

(** Without storage, or when it cannot be prepared or erased, the test ends there: the failed call is
    recorded and the storage is left as that call left it. *)
Theorem C59_failed_call_ends_the_test {S} (p : port S) : forall s,
  (po_size p = 0 -> exists t, st_begin p s = Some (false, t, s) /\ sr_op t = TGetInfo /\ sr_res t = RApiFail) /\
  (forall s0, po_size p <> 0 -> po_begin p s = (false, s0) -> exists t, st_begin p s = Some (false, t, s0) /\ sr_op t = TPrepare /\ sr_res t = RApiFail) /\
  (forall s0 s1, po_size p <> 0 -> po_begin p s = (true, s0) -> po_erase p 0 (po_size p) s0 = (false, s1) ->
     exists t, st_begin p s = Some (false, t, s1) /\ sr_op t = TErase /\ sr_res t = RApiFail).
Proof.
  intros s. unfold st_begin, st_fail. split; [|split].
  - intros ->. eexists. split; [reflexivity|]. split; reflexivity.
  - intros s0 N B. replace (po_size p =? 0) with false by lia. rewrite B. eexists. split; [reflexivity|]. split; reflexivity.
  - intros s0 s1 N B E. replace (po_size p =? 0) with false by lia. rewrite B. cbn [negb]. rewrite E. eexists. split; [reflexivity|]. split; reflexivity.
Qed.
Print Assumptions C59_failed_call_ends_the_test.

(** Storage that works passes both steps. *)
Theorem C59_working_storage_passes {S} (p : port S) (c : S -> list Z) e : works p c e -> blank e -> 12 <= po_size p <= 4294967280 ->
  forall s, exists t s', st_begin p s = Some (true, t, s') /\ c s' = test_image (po_size p) /\
    exists t' s'', st_finish p t s' = (true, t', s'').
Proof. intros WK BE HS. exact (works_passes p c (proj1 WK) ltac:(lia) e WK BE (proj1 HS)). Qed.
Print Assumptions C59_working_storage_passes.

(** The second step passes only after the first and when the clear leaves the first byte blank. *)
Theorem C59_finish_needs_clear {S} (p : port S) (c : S -> list Z) : reads_contents p c -> 0 < po_size p <= 4294967280 ->
  forall t s t' s', st_finish p t s = (true, t', s') -> sr_res t = RSuccess /\ s' = po_clear p s /\ exists b rest, c s' = b :: rest /\ blank b.
Proof. intros RC HS. exact (finish_true p c RC HS). Qed.
Print Assumptions C59_finish_needs_clear.

(** Storage smaller than claimed whose addresses wrap at a power of two never passes. *)
Theorem C59_wrapping_storage_fails {S} (p : port S) (c : S -> list Z) k : reads_contents p c -> 0 < po_size p <= 4294967280 ->
  0 <= k -> 2 ^ k < po_size p -> (forall s, get (c s) 0 = get (c s) (2 ^ k)) ->
  forall s t s', st_begin p s <> Some (true, t, s').
Proof.
  intros RC HS Hk H G. apply (alias_detected p c 0 (2 ^ k) RC HS); [lia|lia| |exact G].
  cut (forall n, (2 ^ Z.of_nat n) mod 19 <> 0). { intros X E. apply (X (Z.to_nat k)). rewrite Z2Nat.id by lia. now rewrite <- E. }
  induction n as [|n IH]; [cbn; lia|]. rewrite Nat2Z.inj_succ, Z.pow_succ_r by lia. Z.div_mod_to_equations. lia.
Qed.
Print Assumptions C59_wrapping_storage_fails.

(** Passing twice in a row means the erase erases what was written. *)
Theorem C59_passing_twice_means_erasing {S} (p : port S) (c : S -> list Z) : reads_contents p c -> 0 < po_size p <= 4294967280 ->
  (forall s, c (snd (po_begin p s)) = c s) ->
  forall s t s' t' s'', st_begin p s = Some (true, t, s') -> st_begin p s' = Some (true, t', s'') ->
  exists s0 s1, c s0 = test_image (po_size p) /\ po_erase p 0 (po_size p) s0 = (true, s1) /\ Forall blank (c s1).
Proof.
  intros RC HS B s t s' t' s'' E1 E2. destruct (begin_true p c RC HS _ _ _ E1) as (_ & C & _).
  destruct (begin_true p c RC HS _ _ _ E2) as (_ & _ & s0 & s1 & A1 & A2 & A3).
  exists s0, s1. split; [|split; assumption]. specialize (B s'). rewrite A1 in B. cbn in B. congruence.
Qed.
Print Assumptions C59_passing_twice_means_erasing.

(** A storage in memory of which one cell cannot be changed. *)
Definition ram (size stuck : Z) : port (list Z) :=
  mk_port _ size (fun s => (true, s)) (fun _ _ s => (true, fill size 255))
    (fun off d s => (true, let s' := take off s ++ d ++ drop (off + zlen d) s in
       if (0 <=? stuck) && (stuck <? size) then take stuck s' ++ take 1 (drop stuck s) ++ drop (stuck + 1) s' else s'))
    (fun off b s => (true, take (zlen b) (drop off s), s)) (fun s => 0 :: drop 1 s).
Example C59_case :
  match st_begin (ram 45 (-1)) (fill 45 7) with
  | Some (true, t, s') => s' = test_image 45 /\ fst (fst (st_finish (ram 45 (-1)) t s')) = true
  | _ => False end /\
  st_begin (ram 45 33) (fill 45 7) = Some (false, mk_str TWrite RCompareFailed 31 7, take 33 (test_image 45) ++ [255] ++ drop 34 (test_image 45)).
Proof. vm_compute. repeat split. Qed.

(** ** What is not true *)
(** A pass of the second step does not mean the first was run: the record is "success" from the start. *)
Theorem C59_pass_without_test_refuted : ~ (forall S (p : port S) s t' s', st_finish p str_init s = (true, t', s') ->
  exists s0 t s1, st_begin p s0 = Some (true, t, s1)).
Proof.
  intros H. set (p := mk_port unit 16 (fun s => (true, s)) (fun _ _ s => (false, s)) (fun _ _ s => (false, s))
                        (fun _ b s => (true, fill (zlen b) 0, s)) (fun s => s)).
  destruct (H unit p tt str_init tt eq_refl) as ([] & t & [] & E). vm_compute in E. discriminate E.
Qed.
Print Assumptions C59_pass_without_test_refuted.

(** The test does not keep to the storage when that is smaller than the header. *)
Theorem C59_stays_inside_refuted : ~ (forall size s t (s' : list (Z * list Z)),
  0 < size -> st_begin (mk_port (list (Z * list Z)) size (fun s => (true, s)) (fun _ _ s => (true, s)) (fun off d s => (true, (off, d) :: s))
                (fun off b s => (true, fill (zlen b) 0, s)) (fun s => s)) s = Some (false, t, s') ->
  s = [] -> Forall (fun w => fst w + zlen (snd w) <= size) s').
Proof.
  intros H. specialize (H 8 [] (mk_str TWrite RCompareFailed 0 8) [(0, st_pattern1)] ltac:(lia)).
  assert (X : Forall (fun w : Z * list Z => fst w + zlen (snd w) <= 8) [(0, st_pattern1)]) by (apply H; [vm_compute; reflexivity|reflexivity]).
  apply Forall_inv in X. vm_compute in X. now apply X.
Qed.
Print Assumptions C59_stays_inside_refuted.

(** One pass does not mean the erase does anything: blank storage passes without it. *)
Theorem C59_one_pass_means_erasing_refuted : ~ (forall S (p : port S) (c : S -> list Z), reads_contents p c -> 0 < po_size p <= 4294967280 ->
  forall s t s', st_begin p s = Some (true, t, s') -> exists s0, c s0 <> c (snd (po_erase p 0 (po_size p) s0))).
Proof.
  intros H. set (wr := fun off d (s : list Z) => let l := take 16 (take off s ++ d ++ drop (off + zlen d) s) in take 16 (l ++ fill 16 0)).
  set (p := mk_port (list Z) 16 (fun s => (true, s)) (fun _ _ s => (true, s)) (fun off d s => (true, wr off d s))
              (fun off b s => (true, take (zlen b) (drop off (take 16 (s ++ fill 16 0))), s)) (fun s => s)).
  destruct (H (list Z) p (fun s => take 16 (s ++ fill 16 0))) with (s := fill 16 0) (t := mk_str TPrepare RSuccess 0 0) (s' := test_image 16) as (s0 & X).
  - split.
    + intros s. cbn. rewrite zlen_take, zlen_app. rewrite (zlen_fill 16 0) by lia. pose proof (zlen_nonneg s). lia.
    + intros off buf s ok b s' E. cbn in E. injection E as <- <- <-. split; [reflexivity|]. intros _ _ _. reflexivity.
  - cbn. lia.
  - vm_compute. reflexivity.
  - now apply X.
Qed.
Print Assumptions C59_one_pass_means_erasing_refuted.
