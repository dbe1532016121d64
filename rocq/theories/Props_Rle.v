(** Property theorems C07-C08: run-length encoder. *)
From Verif Require Import Base Rle RleSpec RleProofs.

(** C07: whatever the stream (below 2 GiB, where the int conversion of memfault_rle.c:29 is
    exact) and however it is cut into pieces, the writes decode to exactly the stream. *)
Theorem C07_rle_round_trip : forall pieces, zlen (concat pieces) < 2147483648 ->
  exists ws c s, rle_run pieces = Some (ws, c) /\ rle_emit_all (concat pieces) ws = Some s /\
    rle_decode s = Some (concat pieces) /\ total_rle_size c = zlen s.
Proof. exact rle_run_ok. Qed.
Print Assumptions C07_rle_round_trip.

(** C07: the writes, and the final context, do not depend on the cutting. *)
Theorem C07_rle_split_independent : forall p1 p2, concat p1 = concat p2 ->
  zlen (concat p1) < 2147483648 -> rle_run p1 = rle_run p2.
Proof. exact rle_split_indep. Qed.
Print Assumptions C07_rle_split_independent.
Example C07_case :
  let pieces := [[7; 7]; []; [7; 7; 1]; [2; 2]; [3; 3; 3; 3; 9]] in
  let d := concat pieces in
  zlen d < 2147483648 /\
  match rle_run pieces with
  | Some (ws, c) => rle_emit_all d ws = Some [8; 7; 5; 1; 2; 2; 8; 3; 1; 9] /\ total_rle_size c = 10
  | None => False
  end.
Proof. vm_compute. repeat split; reflexivity. Qed.

(** C08: at any point of the stream the writes reported so far lie inside the bytes consumed so
    far, are non-empty and carry a header of 1 to 5 bytes; likewise the write of the final flush
    (empty only for the empty stream).  The exactness of the reported total is in C07. *)
Theorem C08_rle_writes_in_source : forall pieces, zlen (concat pieces) < 2147483648 ->
  exists ws c c', rle_feed_all rle_init pieces = Some (ws, c) /\ rle_finalize c = Some c' /\
    Forall (fun w => 1 <= w_len w /\ 0 <= w_start w /\
                     w_start w + w_len w <= zlen (concat pieces) /\ 1 <= zlen (w_header w) <= 5) ws /\
    (let w := write_info c' in 0 <= w_start w /\ w_start w + w_len w <= zlen (concat pieces) /\
        1 <= zlen (w_header w) <= 5 /\ (concat pieces <> [] -> 1 <= w_len w)).
Proof. exact rle_writes_in_bounds. Qed.
Print Assumptions C08_rle_writes_in_source.

(** C08: the total reported in the context equals the bytes emitted. *)
Theorem C08_rle_total_is_emitted_size : forall pieces, zlen (concat pieces) < 2147483648 ->
  exists ws c s, rle_run pieces = Some (ws, c) /\ rle_emit_all (concat pieces) ws = Some s /\
    rle_decode s = Some (concat pieces) /\ total_rle_size c = zlen s.
Proof. exact rle_run_ok. Qed.
Print Assumptions C08_rle_total_is_emitted_size.
Example C08_case :
  match rle_feed_all rle_init [[1; 5; 5]; [5; 5]] with
  | Some (ws, c) => map (fun w => (w_header w, w_start w, w_len w)) ws = [([1], 0, 1)] /\
      match rle_finalize c with Some c' => w_start (write_info c') = 1 /\ w_header (write_info c') = [8]
      | None => False end
  | None => False
  end.
Proof. vm_compute. repeat split; reflexivity. Qed.
