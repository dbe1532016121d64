(** C33: heap allocation statistics. *)
From Coq Require Import Permutation.
From Verif Require Import Base HeapStats HeapStatsSpec HeapStatsProofs.

(** C33: for any pool size up to 65534 and any trace of allocations, frees and resets in which each
    freed block was seen being allocated, the list that starts at the head ends after at most [n]
    entries and holds the newest blocks in use, newest first; the entries marked as in use are the
    same blocks, each once; the count is the number of live blocks, and the maximum is its highest value. *)
Theorem C33_heap_statistics_are_exact : forall n ops v, 1 <= Z.of_nat n < 65535 -> hv_run (Z.of_nat n) (mk_hv [] [] 0) ops = Some v ->
  exists s es, heap_run (heap_init n) ops = Some s /\ follow n (hp_pool s) (hp_head s) = Some es /\
    map block_of es = v_track v /\ Forall (fun e => he_used e = true) es /\
    Permutation (map block_of (filter he_used (hp_pool s))) (v_track v) /\
    hp_count s = zlen (v_live v) /\ hp_max s = v_most v.
Proof. exact heap_ok. Qed.
Print Assumptions C33_heap_statistics_are_exact.
Example C33_case :
  let ops := [HMalloc 1 100 10; HMalloc 2 200 20; HMalloc 3 300 30; HFree 200; HMalloc 4 400 40; HMalloc 5 500 50; HFree 100; HMalloc 6 600 60] in
  hv_run 3 (mk_hv [] [] 0) ops =
    Some (mk_hv [600; 500; 400; 300] [(6, 600, 60); (5, 500, 50); (4, 400, 40)] 4) /\
  match heap_run (heap_init 3) ops with
  | Some s => option_map (map block_of) (follow 3 (hp_pool s) (hp_head s)) = Some [(6, 600, 60); (5, 500, 50); (4, 400, 40)] /\ hp_count s = 4
  | None => False
  end.
Proof. vm_compute. repeat split. Qed.

(** C33: when every block has a size, the statistics report "empty" exactly when no block has been seen
    since the last reset. *)
Theorem C33_empty_is_exact : forall n ops s, (1 <= n)%nat -> Forall sized ops -> heap_run (heap_init n) ops = Some s ->
  heap_empty s = Some (negb (seen false ops)).
Proof. exact empty_ok. Qed.
Print Assumptions C33_empty_is_exact.
Example C33_empty_case :
  match heap_run (heap_init 2) [HMalloc 1 100 10; HFree 100] with Some s => heap_empty s = Some false | None => False end /\
  match heap_run (heap_init 2) [HMalloc 1 100 10; HReset; HMalloc 1 0 10] with Some s => heap_empty s = Some true | None => False end.
Proof. vm_compute. split; reflexivity. Qed.

(** With a block of size zero "empty" is reported although a block is tracked and in use. *)
Theorem C33_empty_for_any_size_refuted : exists n ops s,
  (1 <= n)%nat /\ heap_run (heap_init n) ops = Some s /\ seen false ops = true /\ hp_count s = 1 /\ heap_empty s = Some true.
Proof. exists 4%nat, [HMalloc 1 100 0], (match heap_run (heap_init 4) [HMalloc 1 100 0] with Some s => s | None => heap_init 4 end). vm_compute. repeat split. auto. Qed.
Print Assumptions C33_empty_for_any_size_refuted.

(** Freeing a block allocated before the statistics started (or were reset) makes the count wrap, and
    after a second one the next allocation makes the maximum 2^32-1: for every pool size. *)
Theorem C33_count_with_unseen_free_refuted : forall n, 1 <= Z.of_nat n < 65535 ->
  exists s, heap_run (heap_init n) [HFree 100; HFree 200; HMalloc 1 300 8] = Some s /\ hp_count s = 4294967295 /\ hp_max s = 4294967295.
Proof. exact unseen_free. Qed.
Print Assumptions C33_count_with_unseen_free_refuted.
