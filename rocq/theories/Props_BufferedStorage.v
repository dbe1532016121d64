(** C58: coredump writes buffered into whole flash blocks. *)
From Verif Require Import Base Coredump CoredumpSpec BufferedStorage BufferedStorageSpec BufferedStorageProofs.

(** Whatever pieces the coredump is written in and whichever block write fails, the blocks written are
    those of the image, each once, whole and in order, the one with the header last, up to the
    first failure, which is reported; afterwards nothing is left in the buffers. *)
Theorem C58_each_block_once_header_last W size ok header pieces :
  0 < zlen header <= W -> size < 4294967296 -> size mod W = 0 -> W <= size -> W <= zlen header + zlen (concat pieces) <= size ->
  let (b, blocks) := tried ok 0 (blocks_to_write W (header ++ concat pieces)) in
  exists s, bs_run W size ok (dump_writes header pieces) (bs_init W) = Some (b, s) /\ bs_log s = blocks /\
            (b = true -> bs_hdr s = wb_zero W /\ bs_dat s = wb_zero W).
Proof.
  intros (H1 & H2) H3 H4 H5 H6. destruct (tried _ _ _) as (b & l) eqn:E.
  pose proof (dump_blocks W size ok (zlen header) H1 H2 H3 H4 H5 header pieces eq_refl H6) as X. rewrite E in X. exact X.
Qed.
Print Assumptions C58_each_block_once_header_last.

(** A coredump saved this way (in storage that is a whole number of blocks) is the one saved
    directly: it is found with the same size and has the same bytes. *)
Theorem C58_saved_coredump_is_the_same W pl env info st st' log n :
  dump_ok env info -> zlen st < 4294967296 -> 12 <= W -> zlen st mod W = 0 ->
  cd_save pl env info st = Some (true, st', log) -> Forall (fun w => cw_ok w = true) log -> cd_has_valid true st' = Some n -> W <= n ->
  exists s st2, bs_run W (zlen st) (fun _ => true) (map (fun w => (cw_off w, cw_data w)) log) (bs_init W) = Some (true, s) /\
    in_storage (fill (zlen st) (pl_erased pl)) (bs_log s) = Some st2 /\ zlen st2 = zlen st /\
    cd_has_valid true st2 = Some n /\ take n st2 = take n st'.
Proof. exact (saved_in_blocks W pl env info st st' log n). Qed.
Print Assumptions C58_saved_coredump_is_the_same.

(** Power lost while any block but the last is written: no coredump is presented. *)
Theorem C58_no_coredump_before_the_last_block W e size img l off d r before c : 12 <= W <= size ->
  blocks_to_write W img = l ++ (off, d) :: r -> r <> [] ->
  in_storage (fill size e) (map (fun x => mk_bw (fst x) (snd x) true) l) = Some before ->
  mixed before (overwritten before (mk_cwrite off d true (zlen d))) c -> cd_has_valid true c = None.
Proof. exact (torn_block W e size img l off d r before c). Qed.
Print Assumptions C58_no_coredump_before_the_last_block.

Definition ex_header : list Z := [1; 2; 3; 4; 5; 6; 7; 8; 9; 10; 11; 12].
Definition ex_pieces : list (list Z) := [[13]; [14; 15; 16; 17; 18; 19]; []; [20; 21; 22; 23; 24; 25; 26; 27; 28; 29; 30; 31; 32; 33; 34; 35; 36; 37; 38]].
(** 38 bytes in blocks of 16; then with the second block failing. *)
Example C58_case :
  match bs_run 16 64 (fun _ => true) (dump_writes ex_header ex_pieces) (bs_init 16) with
  | Some (b, s) => b = true /\ map bw_off (bs_log s) = [16; 32; 0] /\
      in_storage (fill 64 255) (bs_log s) = Some (ex_header ++ concat ex_pieces ++ fill 10 0 ++ fill 16 255)
  | None => False end /\
  match bs_run 16 64 (fun n => negb (n =? 1)) (dump_writes ex_header ex_pieces) (bs_init 16) with
  | Some (b, s) => b = false /\ map bw_ok (bs_log s) = [true; false]
  | None => False end.
Proof. vm_compute. repeat split. Qed.

(** What is not true: blocks may be any size.  With blocks smaller than the header (8 bytes, as
    ports/stm32cube/u5/flash_coredump_storage.c:31-32 selects for double-word flash) the block
    shared by the header and what follows it never becomes full, so blocks are lost although every
    write is reported as successful. *)
Theorem C58_blocks_of_any_size_refuted : ~ (forall W size header pieces s, 0 < zlen header -> 0 < W -> size < 4294967296 -> size mod W = 0 -> W <= size ->
  W <= zlen header + zlen (concat pieces) <= size ->
  bs_run W size (fun _ => true) (dump_writes header pieces) (bs_init W) = Some (true, s) ->
  forall off, In off (map fst (blocks_to_write W (header ++ concat pieces))) -> In off (map bw_off (bs_log s))).
Proof.
  intros H. set (p := [[13; 14; 15; 16]; [17; 18; 19; 20; 21; 22; 23; 24]; [25; 26; 27; 28; 29; 30; 31; 32]]).
  set (r := bs_run 8 64 (fun _ => true) (dump_writes ex_header p) (bs_init 8)).
  assert (A : match r with Some (b, s) => b = true /\ map bw_off (bs_log s) = [24; 0] | None => False end) by (vm_compute; split; reflexivity).
  destruct r as [[b s]|] eqn:E; [|exact A]. destruct A as (-> & A).
  assert (B : In 16 (map fst (blocks_to_write 8 (ex_header ++ concat p)))) by (vm_compute; tauto).
  assert (C : In 16 (map bw_off (bs_log s))); [|rewrite A in C; cbn in C; lia].
  exact (H 8 64 ex_header p s ltac:(vm_compute; reflexivity) ltac:(lia) ltac:(lia) ltac:(reflexivity) ltac:(lia)
                ltac:(vm_compute; split; discriminate) E 16 B).
Qed.
Print Assumptions C58_blocks_of_any_size_refuted.

(** Nor may the coredump be smaller than a block: then all is reported as written and nothing is. *)
Theorem C58_coredumps_of_any_size_refuted : ~ (forall W size header pieces s, 0 < zlen header <= W -> size < 4294967296 -> size mod W = 0 -> W <= size ->
  zlen header + zlen (concat pieces) <= size ->
  bs_run W size (fun _ => true) (dump_writes header pieces) (bs_init W) = Some (true, s) -> bs_log s <> []).
Proof.
  intros H. set (r := bs_run 32 64 (fun _ => true) (dump_writes ex_header [[13; 14; 15; 16]]) (bs_init 32)).
  assert (A : match r with Some (b, s) => b = true /\ bs_log s = [] | None => False end) by (vm_compute; split; reflexivity).
  destruct r as [[b s]|] eqn:E; [|exact A]. destruct A as (-> & A).
  exact (H 32 64 ex_header [[13; 14; 15; 16]] s ltac:(vm_compute; split; [reflexivity|discriminate]) ltac:(lia) ltac:(reflexivity) ltac:(lia)
                ltac:(vm_compute; discriminate) E A).
Qed.
Print Assumptions C58_coredumps_of_any_size_refuted.

(** Nor does a save after a failed one work without a reset: the buffers still hold the rest. *)
Theorem C58_after_a_failure_refuted : ~ (forall W size ok header pieces s s' b, 0 < zlen header <= W -> size < 4294967296 -> size mod W = 0 -> W <= size ->
  W <= zlen header + zlen (concat pieces) <= size ->
  bs_run W size ok (dump_writes header pieces) (bs_init W) = Some (false, s) ->
  bs_run W size (fun _ => true) (dump_writes header pieces) (mk_bs (bs_hdr s) (bs_dat s) []) = Some (b, s') ->
  b = true -> map bw_data (bs_log s') = map snd (blocks_to_write W (header ++ concat pieces))).
Proof.
  intros H. set (p := [[13; 14; 15; 16; 17; 18; 19; 20]; [21; 22; 23; 24; 25; 26; 27; 28; 29; 30; 31; 32]]).
  assert (A : match bs_run 16 64 (fun _ => false) (dump_writes ex_header p) (bs_init 16) with
              | Some (b, s) => b = false /\
                match bs_run 16 64 (fun _ => true) (dump_writes ex_header p) (mk_bs (bs_hdr s) (bs_dat s) []) with
                | Some (b', s') => b' = true /\ map bw_data (bs_log s') <> map snd (blocks_to_write 16 (ex_header ++ concat p))
                | None => False end
              | None => False end) by (vm_compute; split; [reflexivity|split; [reflexivity|discriminate]]).
  destruct (bs_run 16 64 (fun _ => false) _ _) as [[b s]|] eqn:E; [|exact A]. destruct A as (-> & A).
  destruct (bs_run 16 64 (fun _ => true) _ _) as [[b' s']|] eqn:F; [|exact A]. destruct A as (-> & A). apply A.
  exact (H 16 64 (fun _ => false) ex_header p s s' true ltac:(vm_compute; split; [reflexivity|discriminate]) ltac:(lia) ltac:(reflexivity) ltac:(lia)
                ltac:(vm_compute; split; discriminate) E F eq_refl).
Qed.
Print Assumptions C58_after_a_failure_refuted.
