(** Property theorems C09-C11: circular buffer. *)
From Verif Require Import Base CircularBuffer CircularBufferSpec CircularBufferProofs.

(** C09: from init on, any sequence of calls (arguments not overflowing size_t when added)
    behaves like a byte queue whose capacity is the storage length. *)
Theorem C09_circular_buffer_is_queue : forall storage ops,
  0 < zlen storage <= 2147483648 -> Forall op_ok ops ->
  exists c rs c' q', cb_init storage (zlen storage) = Some (Some c) /\
    cb_run c ops = Some (rs, c') /\ q_run (zlen storage) [] ops rs q'.
Proof. exact cb_refines. Qed.
Print Assumptions C09_circular_buffer_is_queue.
Example C09_case : (* wraps, overwrites at an offset, partially consumes from both ends *)
  let ops := [OWrite [1; 2; 3; 4]; OConsume 3; OWrite [5; 6; 7]; OWrite [8; 9]; OWriteAt 2 [10; 11; 12];
              ORead 1 3; OPtr 0; OReadCb 0 5 (fun _ _ _ => true); OConsumeEnd 1; OReadSize; OWriteSize] in
  Forall op_ok ops /\
  match cb_init [7; 7; 7; 7; 7] 5 with
  | Some (Some c) => option_map fst (cb_run c ops) =
      Some [RBool true; RBool true; RBool true; RBool false; RBool true; RData (Some [5; 10; 11]);
            RView (Some [4; 5]); RCalls true [(0, [4; 5]); (2, [10; 11; 12])]; RBool true; RSize 4; RSize 1]
  | _ => False
  end.
Proof. split; [repeat constructor; vm_compute; congruence|vm_compute; reflexivity]. Qed.

(** C10: in any reachable state any call stays inside the storage (the model returns [Some]),
    and unless it returned true it leaves the context and every byte of storage unchanged. *)
Theorem C10_circular_buffer_all_or_nothing : forall storage ops o c,
  0 < zlen storage <= 2147483648 -> Forall op_ok ops -> op_ok o ->
  cb_init storage (zlen storage) = Some (Some c) ->
  exists rs c1 r c2, cb_run c ops = Some (rs, c1) /\ cb_step c1 o = Some (r, c2) /\
    zlen (st c2) = zlen storage /\
    (match r with RBool true => True | _ => c2 = c1 end).
Proof. exact cb_all_or_nothing. Qed.
Print Assumptions C10_circular_buffer_all_or_nothing.
Example C10_case :
  match cb_init [7; 7; 7] 3 with
  | Some (Some c) => match cb_run c [OWrite [1; 2]] with
      | Some (_, c1) => cb_step c1 (OWrite [3; 4]) = Some (RBool false, c1)
      | None => False end
  | _ => False
  end.
Proof. vm_compute. reflexivity. Qed.

(** C11, full statement: every request that does not fit is refused, for all 32-bit arguments. *)
Definition C11_statement : Prop := forall storage ops c c1 rs offset len,
  0 < zlen storage <= 2147483648 -> Forall op_ok ops ->
  cb_init storage (zlen storage) = Some (Some c) -> cb_run c ops = Some (rs, c1) ->
  is_u32 offset -> is_u32 len -> cb_get_read_size c1 < offset + len ->
  cb_read c1 offset len = Some None.
(** It is false of the code: with one byte queued, a read of 2^32-1 bytes at offset 1 passes the
    check [read_size < offset + data_len] because the sum wraps, and then runs off the storage. *)
Theorem C11_offset_len_overflow_refuted : ~ C11_statement.
Proof. exact cb_read_overflow_refuted. Qed.
Print Assumptions C11_offset_len_overflow_refuted.
(** What does hold for all 32-bit arguments: every other call (writes at any offset, consumes,
    read pointers) refuses what does not fit. *)
Theorem C11_other_calls_refuse : forall storage ops c c1 rs,
  0 < zlen storage <= 2147483648 -> Forall op_ok ops ->
  cb_init storage (zlen storage) = Some (Some c) -> cb_run c ops = Some (rs, c1) ->
  (forall k d, bytes d -> is_u32 k -> is_u32 (zlen d) ->
     cb_get_read_size c1 < k \/ zlen storage < cb_get_read_size c1 - k + zlen d ->
     cb_write_at_offset c1 k d = Some (false, c1)) /\
  (forall n, is_u32 n -> cb_get_read_size c1 < n ->
     cb_consume c1 n = (false, c1) /\ cb_consume_from_end c1 n = (false, c1) /\
     cb_get_read_pointer c1 n = None) /\
  (forall k n, is_u32 k -> is_u32 n -> is_u32 (k + n) -> cb_get_read_size c1 < k + n ->
     cb_read c1 k n = Some None).
Proof. exact cb_others_refuse. Qed.
Print Assumptions C11_other_calls_refuse.
Example C11_case :
  match cb_init [7; 7; 7] 3 with
  | Some (Some c) => match cb_run c [OWrite [1]] with
      | Some (_, c1) => cb_read c1 1 4294967295 = None /\ cb_write_at_offset c1 4294967295 [1] = Some (false, c1)
      | None => False end
  | _ => False
  end.
Proof. vm_compute. split; reflexivity. Qed.
