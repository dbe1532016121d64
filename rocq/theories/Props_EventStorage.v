(** Properties C21-C23: the event storage. *)
From Verif Require Import Base EventStorage EventStorageSpec EventStorageProofs.

(** From boot on, every call of every history (writer and reader calls in any interleaving, batching
    off or on with any limit, any storage size) answers as the queue specification says: the reader
    gets exactly the committed events, intact and in commit order, removed only by mark-read. *)
Theorem C21_event_storage_is_a_queue cfg storage ops rs v :
  0 < zlen storage <= 2147483648 -> Forall ev_ok ops ->
  sev_run cfg (zlen storage) (mk_sev [] None 0) ops = Some (rs, v) ->
  exists s s', es_boot storage (zlen storage) = Some (Some s) /\ es_run cfg s ops = Some (rs, s').
Proof.
  intros HS HO H. destruct (es_boot_ok cfg storage HS) as (s & E & M).
  destruct (es_run_ok _ _ _ _ _ _ _ M HO H) as (s' & R & _). eauto.
Qed.
Print Assumptions C21_event_storage_is_a_queue.

(** Two events written around a read, in a storage of 12 bytes, so that the second one wraps. *)
Example C21_case : (do s <- es_boot (fill 12 170) 12; do s <- s;
    option_map fst (es_run None s
     [EBegin; EAppend [1; 2]; EAppend [3]; EFinish false; EHas; EBegin; ERead 0 3; EAppend [4; 5; 6; 7; 8]; EMark;
      EFinish false; EHas; ERead 1 3; EBegin; EAppend [9; 9; 9; 9]; EFinish true; EUsed; EMark; EHas]))
  = Some [RSpace 10; ROk true; ROk true; RUnit; RSome true 3; RSpace 5; RBytes (Some [1; 2; 3]); ROk true; RUnit;
          RUnit; RSome true 5; RBytes (Some [5; 6; 7]); RSpace 3; ROk false; RUnit; RNum 7; RUnit; RSome false 0].
Proof. vm_compute. reflexivity. Qed.

(** The contract on committed sizes is needed: an event committed without data is never delivered
    and, batching off, hides everything committed after it. *)
Theorem C21_empty_event_blocks_refuted : ~ (forall storage s d rs s',
  es_boot storage (zlen storage) = Some (Some s) -> 1 <= zlen d -> zlen d + 4 <= zlen storage ->
  es_run None s [EBegin; EFinish false; EBegin; EAppend d; EFinish false; EMark; EHas] = Some (rs, s') ->
  exists n, last rs RUnit = RSome true n).
Proof.
  intros H. destruct (es_boot (fill 20 0) 20) as [[s|]|] eqn:E; [|vm_compute in E; discriminate..].
  pose proof E as E0. vm_compute in E. injection E as <-.
  pose proof (fun rs s' => H (fill 20 0) _ [7] rs s' E0) as X. vm_compute in X.
  destruct (X _ _ ltac:(discriminate) ltac:(discriminate) eq_refl) as (n & Hn). discriminate.
Qed.
Print Assumptions C21_empty_event_blocks_refuted.

(** An event of 65533 bytes fits the storage and every call succeeds, but it is never delivered: its
    16-bit size is the in-progress mark.  Whatever its bytes, the storage and the configuration. *)
Theorem C21_large_event_lost_refuted cfg storage d : 65535 <= zlen storage <= 2147483648 -> bytes d -> zlen d = 65533 ->
  exists s s', es_boot storage (zlen storage) = Some (Some s) /\
    es_run cfg s [EBegin; EAppend d; EFinish false; EHas] = Some ([RSpace (zlen storage - 2); ROk true; RUnit; RSome false 0], s').
Proof. exact (large_event_lost cfg storage d). Qed.
Print Assumptions C21_large_event_lost_refuted.

(** A write that is rolled back leaves no trace: whatever reader calls are interleaved with it get
    the answers they get without the write, and so does everything that follows (including the space
    counters).  [v_part v = None]: no write is in progress when it begins. *)
Theorem C22_rolled_back_write_leaves_no_trace cfg storage s ops0 mid ops1 r0 v rs v' :
  0 < zlen storage <= 2147483648 -> es_boot storage (zlen storage) = Some (Some s) ->
  Forall ev_ok (ops0 ++ EBegin :: mid ++ EFinish true :: ops1) ->
  sev_run cfg (zlen storage) (mk_sev [] None 0) ops0 = Some (r0, v) -> v_part v = None ->
  forallb in_write mid = true ->
  sev_run cfg (zlen storage) v (EBegin :: mid ++ EFinish true :: ops1) = Some (rs, v') ->
  exists b rm r1 s1 s2, length rm = length mid /\
    es_run cfg s (ops0 ++ EBegin :: mid ++ EFinish true :: ops1) = Some (r0 ++ b :: rm ++ RUnit :: r1, s1) /\
    es_run cfg s (ops0 ++ filter is_reader mid ++ ops1) = Some (r0 ++ reader_results mid rm ++ r1, s2).
Proof. exact (rollback_ok cfg storage s ops0 mid ops1 r0 v rs v'). Qed.
Print Assumptions C22_rolled_back_write_leaves_no_trace.

Example C22_case : (do s <- es_boot (fill 30 0) 30; do s <- s;
    do x <- es_run (Some 100) s [EBegin; EAppend [1; 2]; EFinish false; EBegin; EAppend [3]; EHas; EAppend [4]; ERead 0 2; EMark; EFinish true; EHas; EFree];
    do y <- es_run (Some 100) s [EBegin; EAppend [1; 2]; EFinish false; EHas; ERead 0 2; EMark; EHas; EFree];
    Some (fst x, fst y))
  = Some ([RSpace 28; ROk true; RUnit; RSpace 24; ROk true; RSome true 2; ROk true; RBytes (Some [1; 2]); RUnit; RUnit; RSome false 0; RNum 30],
          [RSpace 28; ROk true; RUnit; RSome true 2; RBytes (Some [1; 2]); RUnit; RSome false 0; RNum 30]).
Proof. vm_compute. reflexivity. Qed.

(** With batching, a read covers the longest run of the oldest events whose data fits the limit (one
    event at least): header and data are as stated, and mark-read removes exactly these. *)
Theorem C23_batched_read_exact max storage s ops rs v :
  0 < zlen storage <= 2147483648 -> es_boot storage (zlen storage) = Some (Some s) ->
  Forall ev_ok ops -> sev_run (Some max) (zlen storage) (mk_sev [] None 0) ops = Some (rs, v) -> v_reading v = 0 ->
  v_events v <> [] ->
  exists k n s1 m v2,
    es_run (Some max) s (ops ++ [EHas; ERead 0 n; EMark]) = Some (rs ++ [RSome true n; RBytes (Some m); RUnit], s1) /\
    m = (if 2 <=? k then array_head k else []) ++ concat (take k (v_events v)) /\ n = zlen m /\
    1 <= k <= zlen (v_events v) /\ (k = 1 \/ zlen (concat (take k (v_events v))) <= max) /\
    (k < zlen (v_events v) -> max < zlen (concat (take (k + 1) (v_events v)))) /\
    sev_run (Some max) (zlen storage) (mk_sev [] None 0) (ops ++ [EHas; ERead 0 n; EMark]) = Some (rs ++ [RSome true n; RBytes (Some m); RUnit], v2) /\
    v_events v2 = drop k (v_events v).
Proof. exact (batched_read_ok max storage s ops rs v). Qed.
Print Assumptions C23_batched_read_exact.

(** Limit 4: the first two of three events. *)
Example C23_case : (do s <- es_boot (fill 30 0) 30; do s <- s;
    option_map fst (es_run (Some 4) s [EBegin; EAppend [1; 2]; EFinish false; EBegin; EAppend [3; 4]; EFinish false; EBegin; EAppend [5; 6]; EFinish false;
       EHas; ERead 0 5; ERead 2 3; EMark; EHas; ERead 0 2; EMark; EHas]))
  = Some [RSpace 28; ROk true; RUnit; RSpace 24; ROk true; RUnit; RSpace 20; ROk true; RUnit;
          RSome true 5; RBytes (Some [130; 1; 2; 3; 4]); RBytes (Some [2; 3; 4]); RUnit; RSome true 2; RBytes (Some [5; 6]); RUnit; RSome false 0].
Proof. vm_compute. reflexivity. Qed.

(** The limit does not count the array header: the message can exceed it. *)
Theorem C23_message_within_limit_refuted : ~ (forall max storage s ops rs s' n,
  es_boot storage (zlen storage) = Some (Some s) ->
  es_run (Some max) s (ops ++ [EHas]) = Some (rs ++ [RSome true n], s') -> es_num s' <= 1 \/ n <= max).
Proof.
  intros H. destruct (es_boot (fill 20 0) 20) as [[s|]|] eqn:E; [|vm_compute in E; discriminate..].
  pose proof E as E0. vm_compute in E. injection E as <-.
  pose proof (fun s' => H 2 (fill 20 0) _ [EBegin; EAppend [1]; EFinish false; EBegin; EAppend [2]; EFinish false]
     [RSpace 18; ROk true; RUnit; RSpace 15; ROk true; RUnit] s' 3 E0) as X.
  clear H. vm_compute in X. destruct (X _ eq_refl) as [Y|Y]; apply Y; reflexivity.
Qed.
Print Assumptions C23_message_within_limit_refuted.
