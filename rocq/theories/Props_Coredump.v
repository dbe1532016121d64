(** C36, C37, C38: saving a coredump (memfault_coredump.c). *)
From Verif Require Import Base Coredump CoredumpSpec CoredumpProofs CoredumpSaveProofs.

(** C36: when the save succeeds and every write did, the storage holds an image, the rest being
    erased; the image is announced with its length, can be read back, and parses (by a parser that
    knows nothing of the writer) as a header, blocks and a footer: the registers and device
    information, then the memory regions in order.  Either nothing is missing, the flag is 0 and
    each region starts at a multiple of 4, or the storage is smaller than what is needed, the flag
    is 1 and the regions saved are the beginning of those asked for. *)
Theorem C36_saved_coredump_parses_back pl env info st st' log :
  dump_ok env info -> zlen st < 4294967296 ->
  cd_save pl env info st = Some (true, st', log) -> Forall (fun w => cw_ok w = true) log ->
  exists img blocks flags,
    28 + blocks_size (meta_blocks env info) <= zlen img <= zlen st /\
    st' = img ++ fill (zlen st - zlen img) (pl_erased pl) /\
    cd_has_valid true st' = Some (zlen img) /\ cd_read true st' 0 (zlen img) = Some img /\
    parse_dump img = Some (blocks, flags) /\
    (flags = 0 /\ content_blocks blocks = meta_blocks env info ++ memory_blocks env info /\ zlen img = size_needed env info /\
       Forall (fun p => d_type (snd p) = 1 \/ d_type (snd p) = 9 -> fst p mod 4 = 0) blocks \/
     flags = 1 /\ zlen st < size_needed env info /\ exists saved, content_blocks blocks = meta_blocks env info ++ saved /\ beginning (memory_blocks env info) saved).
Proof. exact (save_image pl env info st st' log). Qed.
Print Assumptions C36_saved_coredump_parses_back.

(** It succeeds whenever the registers and device information fit. *)
Theorem C36_saved_when_it_fits e env info st :
  dump_ok env info -> zlen st < 4294967296 -> 28 + blocks_size (meta_blocks env info) <= zlen st ->
  zlen (ci_regions info) <> 0 -> cd_has_valid true st = None ->
  exists st' log, cd_save (mk_cplat true true true e (fun _ => None)) env info st = Some (true, st', log) /\ Forall (fun w => cw_ok w = true) log.
Proof. exact (save_fits e env info st). Qed.
Print Assumptions C36_saved_when_it_fits.

(** Whatever the platform does, every write is inside the storage. *)
Theorem C36_writes_in_storage pl env info st :
  dump_ok env info -> zlen st < 4294967296 -> exists ok st' log, cd_save pl env info st = Some (ok, st', log) /\ zlen st' = zlen st.
Proof. exact (save_in_bounds pl env info st). Qed.
Print Assumptions C36_writes_in_storage.

Definition ex_env : cenv := mk_cenv 2 None (Some [83; 49]) None (Some [109; 97; 105; 110]) (Some []) 40 [RgMemory 3 0xE000ED00 [1; 2; 3; 4]] [RgCached 1 0x20000100 [9; 8; 7]; RgCached 0 0x20000200 [1]].
Definition ex_info : cinfo := mk_cinfo (Some [1; 2; 3; 4; 5; 6; 7; 8]) 0x8003 [RgMemory 1 0x20000000 [11; 12; 13; 14; 15; 16; 17; 18]; RgMemory 0 0x20001000 [21; 22; 23; 24; 25; 26; 27; 28; 29]].
Definition ex_pl : cplat := mk_cplat true true true 0xff (fun _ => None).
Lemma ex_ok : dump_ok ex_env ex_info.
Proof. unfold dump_ok, is_u32, region_ok, field_ok; cbn. repeat (split; [lia|]). split; [vm_compute; reflexivity|]. split; [repeat constructor; vm_compute; reflexivity|]. repeat constructor; vm_compute; try reflexivity; discriminate. Qed.

(** Two CPUs, a device serial, a type, an MPU region, a cached block; then the same in storage that
    is too small: the third region is cut. *)
Example C36_case :
  dump_ok ex_env ex_info /\ size_needed ex_env ex_info = 221 /\
  match cd_save ex_pl ex_env ex_info (fill 230 0) with
  | Some (ok, st', log) =>
      ok = true /\ cd_has_valid true st' = Some 221 /\ drop 221 st' = fill 9 0xff /\
      match parse_dump (take 221 st') with
      | Some (b, f) => f = 0 /\ content_blocks b = meta_blocks ex_env ex_info ++ memory_blocks ex_env ex_info /\ length b = 12%nat
      | None => False end
  | None => False end /\
  match cd_save ex_pl ex_env ex_info (fill 198 0) with
  | Some (ok, st', log) =>
      ok = true /\ cd_has_valid true st' = Some 196 /\
      match parse_dump (take 196 st') with
      | Some (b, f) => f = 1 /\ content_blocks b = meta_blocks ex_env ex_info ++ [mk_dblock 9 0xE000ED00 [1; 2; 3; 4]; mk_dblock 1 0x20000100 [9; 8; 7]; mk_dblock 1 0x20000000 [11; 12; 13; 14]]
      | None => False end
  | None => False end.
Proof. split; [apply ex_ok|]. vm_compute. repeat split. Qed.

(** The flag does not imply that something is missing: when the padding before a region of one or two
    bytes does not fit but the region does, it is written, not aligned, and the flag is set. *)
Definition tight_info : cinfo := mk_cinfo (Some [1]) 0x8003 [RgMemory 0 0x20001000 [21; 22]].
Definition tight_env : cenv := mk_cenv 1 None None None None None 40 [] [].
Theorem C36_flag_means_missing_refuted :
  ~ (forall pl env info st st' log img blocks saved, dump_ok env info -> zlen st < 4294967296 ->
     cd_save pl env info st = Some (true, st', log) -> Forall (fun w => cw_ok w = true) log ->
     cd_has_valid true st' = Some (zlen img) -> cd_read true st' 0 (zlen img) = Some img -> parse_dump img = Some (blocks, 1) ->
     content_blocks blocks = meta_blocks env info ++ saved -> saved <> memory_blocks env info).
Proof.
  intros H. destruct (cd_save ex_pl tight_env tight_info (fill 87 0)) as [[[ok st'] log]|] eqn:E; [|vm_compute in E; discriminate E].
  pose proof E as E0. vm_compute in E0. injection E0 as <- ES EL.
  destruct (parse_dump st') as [[blocks fl]|] eqn:EP; [|rewrite <- ES in EP; vm_compute in EP; discriminate EP].
  pose proof EP as EP0. rewrite <- ES in EP0. vm_compute in EP0. injection EP0 as EB EF. subst fl.
  apply (H ex_pl tight_env tight_info (fill 87 0) st' log st' blocks [mk_dblock 1 0x20001000 [21; 22]]).
  - unfold dump_ok, is_u32, region_ok, field_ok; cbn. repeat (split; [lia|]). split; [vm_compute; reflexivity|]. split; [repeat constructor; vm_compute; reflexivity|]. repeat constructor; vm_compute; try reflexivity; discriminate.
  - vm_compute. reflexivity.
  - exact E.
  - rewrite <- EL. repeat constructor.
  - rewrite <- ES. vm_compute. reflexivity.
  - rewrite <- ES. vm_compute. reflexivity.
  - exact EP.
  - rewrite <- EB. vm_compute. reflexivity.
  - vm_compute. reflexivity.
Qed.
Print Assumptions C36_flag_means_missing_refuted.

(** A region at address 0 (the vector table of most microcontrollers) is not saved, and nothing tells. *)
Theorem C36_every_region_is_saved_refuted :
  ~ (forall pl env info st st' log img blocks type addr data, dump_ok env info -> zlen st < 4294967296 ->
     cd_save pl env info st = Some (true, st', log) -> Forall (fun w => cw_ok w = true) log ->
     cd_has_valid true st' = Some (zlen img) -> cd_read true st' 0 (zlen img) = Some img -> parse_dump img = Some (blocks, 0) ->
     In (RgMemory type addr data) (ci_regions info) -> data <> [] -> exists t, In (mk_dblock t addr data) (content_blocks blocks)).
Proof.
  intros H. set (info := mk_cinfo (Some [1; 2; 3; 4]) 0x8003 [RgMemory 0 0 [5; 6; 7; 8]]).
  destruct (cd_save ex_pl tight_env info (fill 76 0)) as [[[ok st'] log]|] eqn:E; [|vm_compute in E; discriminate E].
  pose proof E as E0. vm_compute in E0. injection E0 as <- ES EL.
  destruct (parse_dump st') as [[blocks fl]|] eqn:EP; [|rewrite <- ES in EP; vm_compute in EP; discriminate EP].
  pose proof EP as EP0. rewrite <- ES in EP0. vm_compute in EP0. injection EP0 as EB EF. subst fl.
  destruct (H ex_pl tight_env info (fill 76 0) st' log st' blocks 0 0 [5; 6; 7; 8]) as (t & I).
  - unfold dump_ok, is_u32, region_ok, field_ok; cbn. repeat (split; [lia|]). split; [vm_compute; reflexivity|]. split; [repeat constructor; vm_compute; reflexivity|]. repeat constructor; vm_compute; try reflexivity; discriminate.
  - vm_compute. reflexivity.
  - exact E.
  - rewrite <- EL. repeat constructor.
  - rewrite <- ES. vm_compute. reflexivity.
  - rewrite <- ES. vm_compute. reflexivity.
  - exact EP.
  - left. reflexivity.
  - discriminate.
  - rewrite <- EB in I. vm_compute in I. destruct I as [I|[I|[I|I]]]; [discriminate I|discriminate I|discriminate I|exact I].
Qed.
Print Assumptions C36_every_region_is_saved_refuted.

(** ** C37 *)
(** An existing coredump is left alone, whatever the platform. *)
Theorem C37_existing_coredump_kept pl env info st n :
  cd_has_valid true st = Some n -> cd_save pl env info st = Some (false, st, []).
Proof. exact (keeps_old pl env info st n). Qed.
Print Assumptions C37_existing_coredump_kept.

(** Power lost while erasing: [c] is the storage after some bytes were erased.  It does not present
    a coredump unless the storage did. *)
Theorem C37_power_lost_while_erasing st e c :
  12 <= zlen st -> e <> 0x43 -> e <> 0x4f -> e <> 0x52 -> e <> 0x45 ->
  mixed st (fill (zlen st) e) c -> cd_has_valid true c <> None -> cd_has_valid true st <> None.
Proof. exact (torn_erase st e c). Qed.
Print Assumptions C37_power_lost_while_erasing.

(** Power lost while writing: [done] is what was written, [w] was under way and any of its bytes
    may have made it.  If the storage presents a coredump then [w] is the header, the last write of
    all, and every write before was made (or was padding). *)
Theorem C37_power_lost_while_writing pl env info st ok st' done w rest before c :
  dump_ok env info -> zlen st < 4294967296 ->
  cd_save pl env info st = Some (ok, st', done ++ w :: rest) ->
  cd_apply (fill (zlen st) (pl_erased pl)) done = Some before -> mixed before (overwritten before w) c ->
  cd_has_valid true c <> None ->
  rest = [] /\ cw_off w = 0 /\ (exists total, 28 <= total <= zlen st /\ cw_data w = cd_header total) /\ Forall (fun w => cw_ok w = true \/ padding_write w) done.
Proof. exact (crash_safe pl env info st ok st' done w rest before c). Qed.
Print Assumptions C37_power_lost_while_writing.

(** A save that fails leaves no coredump, unless it is the write of the header that failed. *)
Theorem C37_failed_save_leaves_no_coredump pl env info st st' log :
  dump_ok env info -> zlen st < 4294967296 ->
  cd_save pl env info st = Some (false, st', log) -> cd_has_valid true st = None -> cd_has_valid true st' <> None ->
  exists done w, log = done ++ [w] /\ cw_off w = 0 /\ cw_ok w = false /\ Forall (fun w => cw_ok w = true \/ padding_write w) done.
Proof. exact (failed_save pl env info st st' log). Qed.
Print Assumptions C37_failed_save_leaves_no_coredump.

(** A save that succeeds wrote everything (padding apart), the header last. *)
Theorem C37_success_means_written pl env info st st' log :
  dump_ok env info -> zlen st < 4294967296 -> cd_save pl env info st = Some (true, st', log) ->
  exists done w, log = done ++ [w] /\ cw_off w = 0 /\ cw_ok w = true /\ Forall (fun w => 12 <= cw_off w) done /\
                 Forall (fun w => cw_ok w = true \/ padding_write w) done.
Proof. exact (saved_writes pl env info st st' log). Qed.
Print Assumptions C37_success_means_written.

(** Write number 9 fails after 1 byte (then write 26, the header, after 3): no coredump. *)
Example C37_case :
  match cd_save (mk_cplat true true true 0xff (fun n => if n =? 9 then Some 1 else None)) ex_env ex_info (fill 230 0) with
  | Some (ok, st', log) => ok = false /\ cd_has_valid true st' = None /\ length log = 10%nat
  | None => False end /\
  match cd_save (mk_cplat true true true 0xff (fun n => if n =? 26 then Some 3 else None)) ex_env ex_info (fill 230 0) with
  | Some (ok, st', log) => ok = false /\ cd_has_valid true st' = None /\ length log = 27%nat
  | None => False end /\
  cd_save ex_pl ex_env ex_info (cd_header 300 ++ [1; 2; 3]) = Some (false, cd_header 300 ++ [1; 2; 3], []).
Proof. vm_compute. repeat split. Qed.

(** The header is 12 bytes and only its first 4 are checked: torn between the magic and the size, it
    presents a coredump of whatever size the erased bytes spell. *)
Theorem C37_presented_coredump_is_complete_refuted :
  ~ (forall pl env info st ok st' done w rest before c n, dump_ok env info -> zlen st < 4294967296 ->
     cd_save pl env info st = Some (ok, st', done ++ w :: rest) ->
     cd_apply (fill (zlen st) (pl_erased pl)) done = Some before -> mixed before (overwritten before w) c ->
     cd_has_valid true c = Some n -> parse_dump (take n c) <> None).
Proof.
  intros H. set (info := mk_cinfo (Some [1; 2; 3; 4]) 0x8003 [RgMemory 0 0x20000000 [1; 2; 3; 4]]).
  destruct (cd_save ex_pl tight_env info (fill 92 0)) as [[[ok st'] log]|] eqn:E; [|vm_compute in E; discriminate E].
  pose proof E as E0. vm_compute in E0. injection E0 as <- ES EL.
  set (dn := take 9 log). set (w := mk_cwrite 0 (cd_header 92) true 12).
  assert (ELG : log = dn ++ w :: []) by (unfold dn; rewrite <- EL; vm_compute; reflexivity).
  destruct (cd_apply (fill 92 255) dn) as [before|] eqn:EA; [|unfold dn in EA; rewrite <- EL in EA; vm_compute in EA; discriminate EA].
  pose proof EA as EA0. unfold dn in EA0. rewrite <- EL in EA0. vm_compute in EA0. injection EA0 as EB.
  rewrite ELG in E.
  apply (H ex_pl tight_env info (fill 92 0) true st' dn w [] before (take 4 (cd_header 92) ++ drop 4 before) 4294967295).
  - unfold dump_ok, is_u32, region_ok, field_ok; cbn. repeat (split; [lia|]). split; [vm_compute; reflexivity|]. split; [repeat constructor; vm_compute; reflexivity|]. repeat constructor; vm_compute; try reflexivity; discriminate.
  - vm_compute. reflexivity.
  - exact E.
  - exact EA.
  - split; [rewrite <- EB; vm_compute; reflexivity|]. split; [rewrite <- EB; vm_compute; reflexivity|].
    intros i x HG. destruct (Z_lt_ge_dec i 4) as [L|L].
    + right. pose proof (get_range _ _ _ HG). assert (i = 0 \/ i = 1 \/ i = 2 \/ i = 3) as [->|[->|[->| ->]]] by lia; rewrite <- EB in HG |- *; vm_compute in HG |- *; exact HG.
    + left. rewrite get_app2 in HG by (change (zlen (take 4 (cd_header 92))) with 4; lia). change (zlen (take 4 (cd_header 92))) with 4 in HG. rewrite get_drop in HG by lia. replace (4 + (i - 4)) with i in HG by lia. exact HG.
  - rewrite <- EB. vm_compute. reflexivity.
  - rewrite <- EB. rewrite take_all by (vm_compute; discriminate). vm_compute. reflexivity.
Qed.
Print Assumptions C37_presented_coredump_is_complete_refuted.

(** The result of writing padding is not looked at: a failing write there goes unnoticed, and the
    coredump reported as saved does not parse. *)
Theorem C37_saved_despite_write_error_refuted :
  ~ (forall pl env info st st' log n, dump_ok env info -> zlen st < 4294967296 ->
     cd_save pl env info st = Some (true, st', log) -> cd_has_valid true st' = Some n -> parse_dump (take n st') <> None).
Proof.
  intros H. set (pl := mk_cplat true true true 0xff (fun n => if n =? 7 then Some 0 else None)).
  set (info := mk_cinfo (Some [1; 2; 3]) 0x8003 [RgMemory 0 0x20000000 [1; 2; 3; 4]]).
  destruct (cd_save pl tight_env info (fill 120 0)) as [[[ok st'] log]|] eqn:E; [|vm_compute in E; discriminate E].
  pose proof E as E0. vm_compute in E0. injection E0 as <- ES EL.
  destruct (cd_has_valid true st') as [n|] eqn:EV; [|rewrite <- ES in EV; vm_compute in EV; discriminate EV].
  apply (H pl tight_env info (fill 120 0) st' log n).
  - unfold dump_ok, is_u32, region_ok, field_ok; cbn. repeat (split; [lia|]). split; [vm_compute; reflexivity|]. split; [repeat constructor; vm_compute; reflexivity|]. repeat constructor; vm_compute; try reflexivity; discriminate.
  - vm_compute. reflexivity.
  - exact E.
  - exact EV.
  - rewrite <- ES in *. vm_compute in EV. injection EV as <-. vm_compute. reflexivity.
Qed.
Print Assumptions C37_saved_despite_write_error_refuted.

(** ** C38 *)
(** The size computed is the size needed, modulo 2^32. *)
Theorem C38_computed_size env info :
  1 <= ce_cpus env -> ci_regions info <> [] -> cd_save_size env info = size_needed env info mod 4294967296.
Proof. exact (save_size env info). Qed.
Print Assumptions C38_computed_size.

(** So with storage at least as large as computed nothing is truncated and the coredump has exactly
    the computed size; with less it is truncated. *)
Theorem C38_computed_size_is_exact pl env info st st' log :
  dump_ok env info -> zlen st < 4294967296 -> size_needed env info < 4294967296 -> ci_regions info <> [] ->
  cd_save pl env info st = Some (true, st', log) -> Forall (fun w => cw_ok w = true) log ->
  exists img blocks flags, cd_read true st' 0 (zlen img) = Some img /\ cd_has_valid true st' = Some (zlen img) /\ parse_dump img = Some (blocks, flags) /\
    if cd_check_size env info st
    then flags = 0 /\ zlen img = cd_save_size env info /\ content_blocks blocks = meta_blocks env info ++ memory_blocks env info
    else flags = 1.
Proof. exact (size_exact pl env info st st' log). Qed.
Print Assumptions C38_computed_size_is_exact.

Example C38_case : cd_save_size ex_env ex_info = 221 /\ cd_check_size ex_env ex_info (fill 221 0) = true /\ cd_check_size ex_env ex_info (fill 220 0) = false.
Proof. vm_compute. repeat split. Qed.
