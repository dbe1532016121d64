(** C70: a coredump saved in the storage of a port; C71: erasing exactly what was asked; C72: nothing
    outside the storage is touched; C73: clearing next to the SoftDevice. *)
From Verif Require Import Base Coredump CoredumpSpec BufferedStorage StoragePorts StoragePortsSpec StoragePortsProofs StoragePortsKeep.
Local Open Scope Z_scope.

(** ** C70 *)
(** In storage that does what storage has to, a coredump saved is there in full, can be read in any
    pieces, nothing around the storage has changed, and it is gone once cleared. *)
Theorem C70_saved_and_cleared {S} (p : port S) emb size e env info w w' log n : is_u8 e -> stores p emb size e some_bytes -> dump_ok env info -> dump_bytes env info ->
  zlen w = size -> size < 4294967296 -> cd_save (mk_cplat true true true e (fun _ => None)) env info w = Some (true, w', log) -> cd_has_valid true w' = Some n ->
  p_er p (emb w) 0 size = Some (true, emb (fill size e)) /\
  write_all p (map (fun x => (cw_off x, cw_data x)) log) (emb (fill size e)) = Some (true, emb w') /\
  (forall off k, 0 <= off -> 0 < k -> off + k <= n -> p_rd p (emb w') off k = Some (Some (take k (drop off w')))) /\
  exists w2, p_clr p (emb w') = Some (emb w2) /\ cd_has_valid true w2 = None.
Proof. exact (saved_through p emb size e env info w w' log n). Qed.
Print Assumptions C70_saved_and_cleared.
(** The same where only whole blocks can be written, with the writer of whole blocks in front. *)
Theorem C70_saved_in_blocks_and_cleared {S} (p : port S) emb size e W env info w w' log n : is_u8 e -> stores p emb size e (whole_blocks W) -> dump_ok env info -> dump_bytes env info ->
  12 <= W -> size mod W = 0 -> zlen w = size -> size < 4294967296 ->
  cd_save (mk_cplat true true true e (fun _ => None)) env info w = Some (true, w', log) -> cd_has_valid true w' = Some n -> W <= n ->
  p_er p (emb w) 0 size = Some (true, emb (fill size e)) /\
  exists b w2, bs_run W size (fun _ => true) (map (fun x => (cw_off x, cw_data x)) log) (bs_init W) = Some (true, b) /\
    write_all p (map (fun x => (bw_off x, bw_data x)) (bs_log b)) (emb (fill size e)) = Some (true, emb w2) /\
    cd_has_valid true w2 = Some n /\ take n w2 = take n w' /\
    (forall off k, 0 <= off -> 0 < k -> off + k <= n -> p_rd p (emb w2) off k = Some (Some (take k (drop off w')))) /\
    exists w3, p_clr p (emb w2) = Some (emb w3) /\ cd_has_valid true w3 = None.
Proof. exact (saved_through_blocks p emb size e W env info w w' log n). Qed.
Print Assumptions C70_saved_in_blocks_and_cleared.

(** The ports do what storage has to. *)
Theorem C70_ram size : 0 < size < 2 ^ 32 -> stores ram_port (fun w => w) size 0 some_bytes.
Proof. exact (ram_stores size). Qed.
Print Assumptions C70_ram.
Theorem C70_direct_flash pre post size sec : let start := zlen pre in let emb w := pre ++ w ++ post in
  start + size < 2 ^ 32 -> 4 <= size -> 0 < sec -> start mod sec = 0 -> size mod sec = 0 ->
  (forall aligned, stores (nrf_port start size sec aligned) emb size 255 some_bytes) /\ stores (da145_port start size sec) emb size 255 some_bytes /\
  stores (da1469_port start size sec) emb size 255 some_bytes /\ stores (da1468_port start size sec) emb size 255 some_bytes /\
  stores (mynewt_port start size) emb size 255 some_bytes /\ stores (f4_port start size) emb size 255 some_bytes /\ stores (esp8266_port start size sec) emb size 255 some_bytes.
Proof.
  intros start emb H1 H2 H3 H4 H5. pose proof (sec_le size sec ltac:(lia) H3 H5). change emb with (around pre post). split; [|split; [|split; [|split; [|split; [|split]]]]].
  - intros al. apply nrf_stores; auto; lia.
  - apply da145_stores; auto; lia.
  - apply da1469_stores; auto; lia.
  - apply da1468_stores; auto; lia.
  - apply (mynewt_stores pre post start size sec); auto; lia.
  - apply (f4_stores pre post start size sec); auto; lia.
  - apply esp8266_stores; auto; lia.
Qed.
Print Assumptions C70_direct_flash.
(** ESP-IDF: the storage is what is left of the partition; the sectors kept free before it are erased
    along with it. *)
Theorem C70_esp_idf pre post psize sec wo lim : let start := zlen pre in let size := esp_size psize sec wo lim in
  start + psize < 2 ^ 32 -> 0 < sec -> 0 <= wo -> wo * sec + 4 <= (if lim >? 0 then Z.min psize lim else psize) ->
  start mod sec = 0 -> psize mod sec = 0 -> lim mod sec = 0 ->
  stores (esp_port start psize sec wo) (fun w => (pre ++ fill (wo * sec) 255) ++ w ++ post) size 255 some_bytes /\
  forall x w, zlen x = wo * sec -> zlen w = size ->
    p_er (esp_port start psize sec wo) ((pre ++ x) ++ w ++ post) 0 size = Some (true, (pre ++ fill (wo * sec) 255) ++ fill size 255 ++ post).
Proof.
  intros start size H1 H2 H3 H5 H6 H7 H8. split; [exact (esp_stores pre post start psize sec wo lim eq_refl H1 H2 H3 H5 H6 H7 H8)|].
  exact (esp_erases_partition pre post start psize sec wo lim eq_refl H1 H2 H3 H5 H6 H7 H8).
Qed.
Print Assumptions C70_esp_idf.
(** Flash written in blocks: STM32L4 (storage may lie across the two banks), STM32WB, STM32U5 (storage
    in one bank), EFM32. *)
Theorem C70_stm32_l4_wb pre post base start size sec W b1 fe : let emb w := pre ++ w ++ post in
  0 <= base -> zlen pre = start - base -> start + size < 2 ^ 32 -> 0 < size -> 0 < sec -> base mod sec = 0 -> start mod sec = 0 -> size mod sec = 0 ->
  0 < W -> W mod 8 = 0 -> sec mod 8 = 0 -> base <= b1 <= fe -> b1 mod sec = 0 -> start + size <= fe ->
  stores (l4_port base start size sec b1 fe) emb size 255 (whole_blocks W) /\ stores (wb_port base start size sec fe) emb size 255 (whole_blocks W).
Proof.
  intros emb H1 H2 H3 H4 H5 H6 H7 H8 H9 H10 H11 H12 H13 H14. change emb with (around pre post).
  split; [apply l4_stores; auto; lia|]. apply wb_stores; auto; lia.
Qed.
Print Assumptions C70_stm32_l4_wb.
Theorem C70_stm32_u5 pre post base start size sec W b2 fe : let emb w := pre ++ w ++ post in
  0 <= base -> zlen pre = start - base -> start + size < 2 ^ 32 -> 0 < size -> 0 < sec -> base mod sec = 0 -> start mod sec = 0 -> size mod sec = 0 ->
  0 < W -> sec mod W = 0 -> b2 mod sec = 0 -> start + size <= b2 \/ b2 <= start /\ start + size <= fe ->
  stores (u5_port base start size sec W b2 fe) emb size 255 (whole_blocks W).
Proof. intros emb H1 H2 H3 H4 H5 H6 H7 H8 H9 H10 H11 H12. change emb with (around pre post). apply u5_stores; auto. Qed.
Print Assumptions C70_stm32_u5.
Theorem C70_emlib pre post base start size sec W : let emb w := pre ++ w ++ post in
  0 <= base -> zlen pre = start - base -> start + size < 2 ^ 32 -> 0 < size -> 0 < sec -> start mod 4 = 0 -> size mod sec = 0 -> sec mod 4 = 0 ->
  0 < W -> W mod 4 = 0 -> stores (em_port base start size sec) emb size 255 (whole_blocks W).
Proof. intros emb H1 H2 H3 H4 H5 H6 H7 H8 H9 H10. change emb with (around pre post). apply em_stores; auto. Qed.
Print Assumptions C70_emlib.
(** S32K1xx, in program flash or in data flash, where the storage is aligned to its own size and the
    flash goes on after it for nearly as much again. *)
Theorem C70_s32k pre post other size ps ds W : 0 < size -> 0 < ps -> 0 < ds -> 0 < W -> W mod 8 = 0 -> zlen pre + size + zlen post < 0x800000 -> zlen other < 0x800000 ->
  zlen pre mod 8 = 0 -> size - W <= zlen post ->
  (zlen pre mod size = 0 -> size mod ps = 0 -> stores (s32_port (zlen pre) (zlen pre + size) ps ds) (fun w => (pre ++ w ++ post, other)) size 255 (whole_blocks W)) /\
  ((0x10000000 + zlen pre) mod size = 0 -> size mod ds = 0 -> zlen pre mod ds = 0 ->
   stores (s32_port (0x10000000 + zlen pre) (0x10000000 + zlen pre + size) ps ds) (fun w => (other, pre ++ w ++ post)) size 255 (whole_blocks W)).
Proof.
  intros H1 H2 H3 H4 H5 H6 H7 H8 H9. split.
  - intros H10 H11. apply (pf_stores pre post other size ps ds W); auto; lia.
  - intros H10 H11 H12. apply (df_stores pre post other size ps ds W); auto; lia.
Qed.
Print Assumptions C70_s32k.

(** What is not true.  On S32K1xx, storage at the end of the flash can be used: block writes are refused
    in its second half (the end address computed, ftfc_flash_coredump_storage.c:172, has the offset twice). *)
Theorem C70_s32k_at_the_end_refuted : ~ (forall pre size ps ds W, 0 < size -> 0 < ps -> 0 < ds -> 0 < W -> W mod 8 = 0 -> zlen pre + size < 0x800000 -> zlen pre mod size = 0 -> size mod ps = 0 ->
  writes (s32_port (zlen pre) (zlen pre + size) ps ds) (fun w => (pre ++ w, [])) size 255 (whole_blocks W)).
Proof.
  intros H. specialize (H (fill 32 1) 32 16 16 16 ltac:(lia) ltac:(lia) ltac:(lia) ltac:(lia) ltac:(reflexivity) ltac:(reflexivity) ltac:(reflexivity) ltac:(reflexivity)).
  specialize (H (fill 32 255) 16 (fill 16 7) ltac:(reflexivity) ltac:(split; reflexivity) ltac:(apply bytes_fill; unfold is_u8; lia) ltac:(lia) ltac:(vm_compute; discriminate) ltac:(reflexivity)). vm_compute in H. discriminate.
Qed.
Print Assumptions C70_s32k_at_the_end_refuted.
(** Nor any storage made of whole sectors: it cannot be erased unless aligned to its own size (:215). *)
Theorem C70_s32k_whole_sectors_refuted : ~ (forall pre post size ps ds, 0 < size -> 0 < ps -> 0 < ds -> zlen pre + size + zlen post < 0x800000 -> zlen pre mod ps = 0 -> size mod ps = 0 ->
  erases_all (s32_port (zlen pre) (zlen pre + size) ps ds) (fun w => (pre ++ w ++ post, [])) size 255).
Proof.
  intros H. specialize (H (fill 16 1) (fill 32 1) 32 16 16 ltac:(lia) ltac:(lia) ltac:(lia) ltac:(reflexivity) ltac:(reflexivity) ltac:(reflexivity) (fill 32 2) ltac:(reflexivity)). vm_compute in H. discriminate.
Qed.
Print Assumptions C70_s32k_whole_sectors_refuted.
(** The size the ESP-IDF port reports is at most the partition's. *)
Theorem C70_esp_idf_size_refuted : ~ (forall psize sec wo lim, 0 <= wo -> 0 < sec -> 0 <= lim -> lim mod sec = 0 -> psize mod sec = 0 -> wo * sec < psize < 2 ^ 32 -> esp_size psize sec wo lim <= psize).
Proof. intros H. specialize (H 65536 4096 2 4096 ltac:(lia) ltac:(lia) ltac:(lia) ltac:(reflexivity) ltac:(reflexivity) ltac:(lia)). vm_compute in H. apply H. reflexivity. Qed.
Print Assumptions C70_esp_idf_size_refuted.
(** A DA1468x partition smaller than the unit the storage is erased in is cleared. *)
Theorem C70_da1468x_small_partition_refuted : ~ (forall pre post size unit, 12 <= size -> 0 < unit -> zlen pre + size < 2 ^ 32 -> clears (da1468_port (zlen pre) size unit) (fun w => pre ++ w ++ post) size).
Proof.
  intros H. specialize (H [] [] 16 32 ltac:(lia) ltac:(lia) ltac:(reflexivity) (cd_header 16 ++ fill 4 0) ltac:(reflexivity)).
  destruct H as (w' & E & _ & V); [apply bytes_app; split; [unfold cd_header; rewrite !bytes_app; repeat split; apply bytes_le32|apply bytes_fill; unfold is_u8; lia]|].
  assert (E2 : p_clr (da1468_port (zlen (@nil Z)) 16 32) ([] ++ (cd_header 16 ++ fill 4 0) ++ []) = Some ((cd_header 16 ++ fill 4 0) ++ [])) by (vm_compute; reflexivity).
  rewrite E2 in E. assert (EW : w' = (cd_header 16 ++ fill 4 0)) by (rewrite !app_nil_r in E; cbn [app] in E; congruence). subst w'. vm_compute in V. discriminate.
Qed.
Print Assumptions C70_da1468x_small_partition_refuted.
(** On STM32U5, storage anywhere in the flash can be erased: not across the banks. *)
Theorem C70_u5_any_place_refuted : ~ (forall pre post start size sec W b2 fe, zlen pre = start -> 0 < size -> 0 < sec -> 0 < W -> start + size < 2 ^ 32 -> start mod sec = 0 -> size mod sec = 0 -> b2 mod sec = 0 -> sec mod W = 0 -> start + size <= fe ->
  erases_all (u5_port 0 start size sec W b2 fe) (fun w => pre ++ w ++ post) size 255).
Proof.
  intros H. specialize (H (fill 16 1) [] 16 32 16 16 32 64 ltac:(reflexivity) ltac:(lia) ltac:(lia) ltac:(lia) ltac:(lia) ltac:(reflexivity) ltac:(reflexivity) ltac:(reflexivity) ltac:(reflexivity) ltac:(lia) (fill 32 2) ltac:(reflexivity)). vm_compute in H. discriminate.
Qed.
Print Assumptions C70_u5_any_place_refuted.

Definition ex_env : cenv := mk_cenv 1 None (Some [83; 49]) None None None 40 [] [].
Definition ex_info : cinfo := mk_cinfo (Some [1; 2; 3; 4]) 32769 [RgMemory 0 0x20000000 [10; 20; 30; 40; 50; 60; 70; 80]].
Definition ex_old : list Z := fill 192 17.
Definition ex_pre : list Z := fill 64 99.
(** 124 bytes are saved, on nRF5 and on STM32L4 with blocks of 16 in storage across the banks, read
    back and cleared; what is before the storage stays. *)
Example C70_case :
  match cd_save (mk_cplat true true true 255 (fun _ => None)) ex_env ex_info ex_old with
  | Some (true, w', log) =>
      cd_has_valid true w' = Some 124 /\
      (let p := nrf_port 64 192 32 true in
       match p_er p (ex_pre ++ ex_old) 0 192 with
       | Some (true, s) => match write_all p (map (fun x => (cw_off x, cw_data x)) log) s with
                           | Some (true, s) => s = ex_pre ++ w' /\ p_rd p s 100 24 = Some (Some (take 24 (drop 100 w'))) /\
                               match p_clr p s with Some s => cd_has_valid true (drop 64 s) = None /\ take 64 s = ex_pre | None => False end
                           | _ => False end
       | _ => False end) /\
      (let p := l4_port 1024 1088 192 32 1152 1280 in
       match p_er p (ex_pre ++ ex_old) 0 192, bs_run 16 192 (fun _ => true) (map (fun x => (cw_off x, cw_data x)) log) (bs_init 16) with
       | Some (true, s), Some (true, b) =>
           match write_all p (map (fun x => (bw_off x, bw_data x)) (bs_log b)) s with
           | Some (true, s) => take (64 + 124) s = ex_pre ++ take 124 w' /\ match p_clr p s with Some s => cd_has_valid true (drop 64 s) = None | None => False end
           | _ => False end
       | _, _ => False end)
  | _ => False end.
Proof. vm_compute. repeat split. Qed.

(** ** C71 *)
(** Erasing within the storage: what these ports report as erased is erased, exactly. *)
Theorem C71_reported_is_erased pre post base start size sec : let emb w := pre ++ w ++ post in
  0 < size -> start + size < 2 ^ 32 -> 0 < sec -> start mod sec = 0 -> size mod sec = 0 ->
  honest_erases ram_port (fun w => w) size 0 /\
  (zlen pre = start -> honest_erases (mynewt_port start size) emb size 255 /\ honest_erases (da1468_port start size sec) emb size 255 /\ honest_erases (esp8266_port start size sec) emb size 255) /\
  (0 <= base -> zlen pre = start - base -> start mod 4 = 0 -> sec mod 4 = 0 -> honest_erases (em_port base start size sec) emb size 255).
Proof.
  intros emb H1 H2 H3 H4 H5. change emb with (around pre post). split; [apply ram_honest|]. split.
  - intros AT. split; [|split].
    + intros w off n s. now apply (range_honest pre post start size sec).
    + intros w off n s. now apply (range_honest pre post start size sec).
    + apply esp8266_honest; auto.
  - intros HB AT M1 M2. apply em_honest; auto.
Qed.
Print Assumptions C71_reported_is_erased.
(** Ranges of whole sectors are erased, exactly. *)
Theorem C71_whole_sectors pre post base start size sec W b fe : let emb w := pre ++ w ++ post in
  0 <= base -> zlen pre = start - base -> start + 2 * size < 2 ^ 32 -> 0 < size -> 0 < sec -> base mod sec = 0 -> start mod sec = 0 -> size mod sec = 0 -> b mod sec = 0 ->
  base <= b <= fe -> start + size <= fe ->
  (sec mod 8 = 0 -> erases_sectors (l4_port base start size sec b fe) emb size 255 sec) /\
  (start + size <= b \/ b <= start -> 0 < W -> sec mod W = 0 -> erases_sectors (u5_port base start size sec W b fe) emb size 255 sec) /\
  (sec mod 4 = 0 -> start mod 4 = 0 -> erases_sectors (em_port base start size sec) emb size 255 sec) /\
  (sec mod 8 = 0 -> forall w off n, zlen w = size -> 0 <= off < size -> 0 <= n -> off + n <= size -> off mod sec = 0 -> n mod sec = 0 ->
     p_er (wb_port base start size sec fe) (emb w) off n = Some (true, emb (replaced w off (fill n 255)))).
Proof.
  intros emb H1 H2 H3 H4 H5 H6 H7 H8 H9 H10 H11. change emb with (around pre post). split; [|split; [|split]].
  - intros H12. apply l4_erases_sectors; auto; lia.
  - intros H12 H13 H14. apply u5_erases_sectors; auto; lia.
  - intros H12 H13. apply em_erases_sectors; auto; lia.
  - intros H12. apply wb_erases_sectors; auto; lia.
Qed.
Print Assumptions C71_whole_sectors.

(** What is not true: that the other ports erase what they report as erased.  nRF5, DA145xx and DA1469x
    compare the offset of a sector with the number of bytes to erase (nrf5_coredump_storage.c:204). *)
Theorem C71_sector_loop_refuted : ~ (forall pre post size sec aligned, zlen pre + size < 2 ^ 32 -> 0 < sec -> zlen pre mod sec = 0 -> size mod sec = 0 ->
  honest_erases (nrf_port (zlen pre) size sec aligned) (fun w => pre ++ w ++ post) size 255 \/
  honest_erases (da145_port (zlen pre) size sec) (fun w => pre ++ w ++ post) size 255 \/ honest_erases (da1469_port (zlen pre) size sec) (fun w => pre ++ w ++ post) size 255).
Proof.
  intros H. specialize (H [] [] 32 8 true ltac:(reflexivity) ltac:(lia) ltac:(reflexivity) ltac:(reflexivity)).
  destruct H as [H|[H|H]]; specialize (H (fill 32 1) 16 16 (fill 32 1) ltac:(reflexivity) ltac:(lia) ltac:(lia) ltac:(lia) ltac:(vm_compute; reflexivity)); vm_compute in H; discriminate.
Qed.
Print Assumptions C71_sector_loop_refuted.
(** STM32L4 and STM32WB add the offset twice when they check the alignment (l4/flash_coredump_storage.c:215,
    wb/flash_coredump_storage.c:199): half a page is accepted, and the wrong bytes are erased. *)
Theorem C71_l4_wb_alignment_refuted : ~ (forall pre post start size sec b1 fe, zlen pre = start -> start + size < 2 ^ 32 -> 0 < sec -> sec mod 8 = 0 -> start mod sec = 0 -> size mod sec = 0 -> b1 mod sec = 0 -> b1 <= fe -> start + size <= fe ->
  honest_erases (l4_port 0 start size sec b1 fe) (fun w => pre ++ w ++ post) size 255 \/ honest_erases (wb_port 0 start size sec fe) (fun w => pre ++ w ++ post) size 255).
Proof.
  intros H. specialize (H [] [] 0 32 16 32 32 ltac:(reflexivity) ltac:(lia) ltac:(lia) ltac:(reflexivity) ltac:(reflexivity) ltac:(reflexivity) ltac:(reflexivity) ltac:(lia) ltac:(lia)).
  destruct H as [H|H]; specialize (H (fill 32 1) 8 16 (fill 16 255 ++ fill 16 1) ltac:(reflexivity) ltac:(lia) ltac:(lia) ltac:(lia) ltac:(vm_compute; reflexivity)); vm_compute in H; discriminate.
Qed.
Print Assumptions C71_l4_wb_alignment_refuted.
(** STM32U5 does not check the alignment, STM32F4 erases its whole sector whatever the range, S32K1xx has
    the offset twice, too. *)
Theorem C71_u5_f4_s32k_refuted :
  ~ (forall pre post start size sec W b2 fe, zlen pre = start -> start + size < 2 ^ 32 -> 0 < sec -> 0 < W -> sec mod W = 0 -> start mod sec = 0 -> size mod sec = 0 -> b2 mod sec = 0 -> start + size <= b2 ->
     honest_erases (u5_port 0 start size sec W b2 fe) (fun w => pre ++ w ++ post) size 255) /\
  ~ (forall pre post size, zlen pre + size < 2 ^ 32 -> 0 < size -> honest_erases (f4_port (zlen pre) size) (fun w => pre ++ w ++ post) size 255) /\
  ~ (forall pre post size ps ds, 0 < size -> 0 < ps -> 0 < ds -> zlen pre + size + zlen post < 0x800000 -> zlen pre mod size = 0 -> size mod ps = 0 -> size <= zlen post ->
     honest_erases (s32_port (zlen pre) (zlen pre + size) ps ds) (fun w => (pre ++ w ++ post, [])) size 255).
Proof.
  split; [|split]; intros H.
  - specialize (H [] [] 0 32 16 16 32 64 ltac:(reflexivity) ltac:(lia) ltac:(lia) ltac:(lia) ltac:(reflexivity) ltac:(reflexivity) ltac:(reflexivity) ltac:(reflexivity) ltac:(lia)
      (fill 32 1) 8 16 (fill 16 255 ++ fill 16 1) ltac:(reflexivity) ltac:(lia) ltac:(lia) ltac:(lia) ltac:(vm_compute; reflexivity)). vm_compute in H. discriminate.
  - specialize (H [] [] 32 ltac:(reflexivity) ltac:(lia) (fill 32 1) 8 16 (fill 32 255) ltac:(reflexivity) ltac:(lia) ltac:(lia) ltac:(lia) ltac:(vm_compute; reflexivity)). vm_compute in H. discriminate.
  - specialize (H [] (fill 32 9) 32 16 16 ltac:(lia) ltac:(lia) ltac:(lia) ltac:(reflexivity) ltac:(reflexivity) ltac:(reflexivity) ltac:(vm_compute; discriminate)
      (fill 32 1) 8 16 (fill 16 255 ++ fill 16 1 ++ fill 32 9, []) ltac:(reflexivity) ltac:(lia) ltac:(lia) ltac:(lia) ltac:(vm_compute; reflexivity)). vm_compute in H. discriminate.
Qed.
Print Assumptions C71_u5_f4_s32k_refuted.
(** On STM32L4, storage across the banks, all of it and its second bank; on EFM32 the two pages in the middle. *)
Example C71_case :
  p_er (l4_port 1024 1088 64 32 1120 1280) (ex_pre ++ fill 64 1 ++ [5]) 0 64 = Some (true, ex_pre ++ fill 64 255 ++ [5]) /\
  p_er (l4_port 1024 1088 64 32 1120 1280) (ex_pre ++ fill 64 1 ++ [5]) 32 32 = Some (true, ex_pre ++ fill 32 1 ++ fill 32 255 ++ [5]) /\
  p_er (em_port 1024 1088 64 16) (ex_pre ++ fill 64 1 ++ [5]) 16 32 = Some (true, ex_pre ++ fill 16 1 ++ fill 32 255 ++ fill 16 1 ++ [5]).
Proof. vm_compute. repeat split. Qed.

(** ** C72 *)
(** What reaches out of the storage (and is less than 4 GiB away) is refused, and nothing is changed. *)
Theorem C72_direct_out_of_bounds pre post size sec aligned : let start := zlen pre in let emb w := pre ++ w ++ post in
  0 < size -> start + size < 2 ^ 32 -> 0 < sec -> start mod sec = 0 -> size mod sec = 0 ->
  Forall (fun p => refuses_reads p emb size /\ refuses_writes p emb size /\ refuses_erases p emb size)
    [nrf_port start size sec aligned; da145_port start size sec; da1469_port start size sec; da1468_port start size sec; mynewt_port start size; f4_port start size] /\
  (refuses_reads ram_port (fun w => w) size /\ refuses_writes ram_port (fun w => w) size /\ refuses_erases ram_port (fun w => w) size) /\
  refuses_reads (esp8266_port start size sec) emb size.
Proof.
  intros start emb H1 H2 H3 H4 H5. change emb with (around pre post). pose proof (zlen_nonneg pre). split; [|split; [apply ram_refuses; lia|apply esp8266_refuses_reads; auto]].
  constructor; [apply nrf_refuses; auto|]. constructor; [apply da145_refuses; auto|]. constructor; [apply da1469_refuses; auto|]. constructor; [apply da1468_refuses; auto|].
  constructor; [apply (mynewt_refuses pre post start size sec); auto|]. constructor; [apply (f4_refuses pre post start size sec); auto|]. constructor.
Qed.
Print Assumptions C72_direct_out_of_bounds.
(** Where blocks are written the writer of blocks checks the writes; reads and erases are refused. *)
Theorem C72_blocks_out_of_bounds pre post base start size sec W b fe : let emb w := pre ++ w ++ post in
  Forall (fun p => refuses_reads p emb size /\ refuses_erases p emb size)
    [l4_port base start size sec b fe; wb_port base start size sec fe; u5_port base start size sec W b fe; em_port base start size sec] /\
  refuses_writes (u5_port base start size sec W b fe) emb size.
Proof.
  intros emb. split.
  - apply Forall_forall. intros p IN. cbn [In] in IN. destruct IN as [<-|[<-|[<-|[<-|[]]]]]; (split; [intros w off n L H1 H2 H3 H4; now apply based_refuses|]); intros w off n L H1 H2 H3 H4;
      cbn [p_er l4_port wb_port u5_port em_port]; unfold l4_erase, wb_erase, u5_erase, em_erase; now rewrite bounds_out by lia.
  - intros w off d L H1 H2 H3 H4. pose proof (zlen_nonneg d). cbn [p_wr u5_port]. unfold u5_block. now rewrite bounds_out by lia.
Qed.
Print Assumptions C72_blocks_out_of_bounds.
(** What is not true: any offset and length are safe.  The sum is computed in 32 bits; when it wraps, memory
    before the storage is accessed (here: outside the array of the RAM port). *)
Theorem C72_wrap_refuted : ~ (forall size w off n, zlen w = size -> 0 < size < 2 ^ 32 -> 0 <= off < 2 ^ 32 -> 0 < n < 2 ^ 32 -> size < off + n -> p_rd ram_port w off n = Some None).
Proof. intros H. specialize (H 16 (fill 16 1) 4294967292 8 ltac:(reflexivity) ltac:(lia) ltac:(lia) ltac:(lia) ltac:(lia)). vm_compute in H. discriminate. Qed.
Print Assumptions C72_wrap_refuted.
(** The ESP8266 port erases outside the storage (memfault_platform_coredump_storage.c:180-195 has no check). *)
Theorem C72_esp8266_erase_refuted : ~ (forall pre post size sec, 0 < size -> zlen pre + size < 2 ^ 32 -> 0 < sec -> zlen pre mod sec = 0 -> size mod sec = 0 ->
  refuses_erases (esp8266_port (zlen pre) size sec) (fun w => pre ++ w ++ post) size).
Proof. intros H. specialize (H [] (fill 16 3) 16 8 ltac:(lia) ltac:(reflexivity) ltac:(lia) ltac:(reflexivity) ltac:(reflexivity) (fill 16 1) 16 16 ltac:(reflexivity) ltac:(lia) ltac:(lia) ltac:(lia) ltac:(lia)). vm_compute in H. discriminate. Qed.
Print Assumptions C72_esp8266_erase_refuted.
(** The ESP-IDF port writes outside the storage; it reads behind the partition when sectors are kept free at
    its start, as it does not subtract them (memfault_platform_coredump.c:396). *)
Theorem C72_esp_idf_refuted :
  ~ (forall pre post psize sec, 0 < psize -> zlen pre + psize < 2 ^ 32 -> 0 < sec -> zlen pre mod sec = 0 -> psize mod sec = 0 -> refuses_writes (esp_port (zlen pre) psize sec 0) (fun w => pre ++ w ++ post) psize) /\
  ~ (forall pre x post psize sec wo, 0 < psize -> zlen pre + psize < 2 ^ 32 -> 0 < sec -> zlen pre mod sec = 0 -> psize mod sec = 0 -> 0 <= wo -> zlen x = wo * sec -> wo * sec < psize ->
     refuses_reads (esp_port (zlen pre) psize sec wo) (fun w => (pre ++ x) ++ w ++ post) (psize - wo * sec)).
Proof.
  split; intros H.
  - specialize (H [] (fill 16 255) 16 8 ltac:(lia) ltac:(reflexivity) ltac:(lia) ltac:(reflexivity) ltac:(reflexivity) (fill 16 255) 16 [7] ltac:(reflexivity) ltac:(lia) ltac:(discriminate) ltac:(reflexivity) ltac:(reflexivity)). vm_compute in H. discriminate.
  - specialize (H [] (fill 8 0) (fill 16 42) 16 8 1 ltac:(lia) ltac:(reflexivity) ltac:(lia) ltac:(reflexivity) ltac:(reflexivity) ltac:(lia) ltac:(reflexivity) ltac:(lia) (fill 8 255) 8 8 ltac:(reflexivity) ltac:(lia) ltac:(lia) ltac:(lia) ltac:(lia)). vm_compute in H. discriminate.
Qed.
Print Assumptions C72_esp_idf_refuted.
Example C72_case :
  p_rd (nrf_port 64 192 32 true) (ex_pre ++ ex_old) 190 4 = Some None /\ p_wr (nrf_port 64 192 32 true) (ex_pre ++ ex_old) 190 [1; 2; 3; 4] = Some (false, ex_pre ++ ex_old) /\
  p_er (f4_port 64 192) (ex_pre ++ ex_old) 0 193 = Some (false, ex_pre ++ ex_old) /\ p_rd (nrf_port 64 192 32 true) (ex_pre ++ ex_old) 188 4 = Some (Some [17; 17; 17; 17]).
Proof. vm_compute. repeat split. Qed.

(** ** C73 *)
(** From when the coredump was to be cleared on, whatever flash operations are under way, however they end and
    however often clearing is asked for again, no coredump is found. *)
Theorem C73_none_found_after_clear start size before sd err after s0 s : 0 <= start < 2 ^ 32 -> nr_state s0 = NIdle ->
  Forall (fun ev => ev <> EvOff) before -> Forall (fun ev => ev <> EvOff) after ->
  nrf_run start (before ++ EvClear sd err :: after) s0 = Some s ->
  forall h, nrf_coredump_read start size s 0 12 = Some (Some h) -> cd_header_valid h = false.
Proof. exact (nrf_no_coredump start size before sd err after s0 s). Qed.
Print Assumptions C73_none_found_after_clear.
(** A clear is completed: after the operation under way, if any, and any number of failures, with the first
    success the word is zero and reads are possible again. *)
Theorem C73_clear_completes start b n s : 0 <= start -> start + 4 <= zlen (nr_flash s) ->
  exists s', nrf_run start (EvClear true false :: (match nr_op s with Some _ => [EvDone b true false] | None => [] end) ++ repeat (EvDone false true false) n ++ [EvDone true true false]) s = Some s' /\
    nr_state s' = NIdle /\ nr_op s' = None /\ read_at (nr_flash s') start 4 = Some [0; 0; 0; 0].
Proof. exact (nrf_clear_completes start b n s). Qed.
Print Assumptions C73_clear_completes.
(** A clear while another operation is under way, one failure; then a new clear during the clear. *)
Definition ex_nrf : nrf := mk_nrf (fill 4 1 ++ cd_header 16 ++ fill 4 0) NIdle (Some OpOther).
Example C73_case :
  match nrf_run 4 [EvClear true false; EvDone true true false; EvDone false true false] ex_nrf with
  | Some s => nrf_coredump_read 4 16 s 0 12 = Some None /\
              match nrf_run 4 [EvClear true false; EvDone true true false; EvDone true true false] s with
              | Some s => nr_state s = NIdle /\ match nrf_coredump_read 4 16 s 0 12 with Some (Some h) => cd_header_valid h = false | _ => False end
              | None => False end
  | None => False end /\ match nrf_coredump_read 4 16 ex_nrf 0 12 with Some (Some h) => cd_header_valid h = true | _ => False end.
Proof. vm_compute. repeat split. Qed.
(** What is not true: the same when the SoftDevice is switched off meanwhile, which drops the operation.  The
    next success of any other operation is taken for that of the clear, and the coredump is there again. *)
Theorem C73_softdevice_off_refuted : ~ (forall start size after s0 s, 0 <= start < 2 ^ 32 -> nr_state s0 = NIdle -> nr_op s0 = None ->
  nrf_run start (EvClear true false :: after) s0 = Some s -> forall h, nrf_coredump_read start size s 0 12 = Some (Some h) -> cd_header_valid h = false).
Proof.
  intros H. set (s0 := mk_nrf (cd_header 16 ++ fill 4 0) NIdle None).
  assert (E : nrf_run 0 [EvClear true false; EvOff; EvOther; EvDone true true false] s0 = Some s0) by (vm_compute; reflexivity).
  specialize (H 0 16 _ s0 s0 ltac:(lia) eq_refl eq_refl E (cd_header 16) ltac:(vm_compute; reflexivity)). vm_compute in H. discriminate.
Qed.
Print Assumptions C73_softdevice_off_refuted.
(** Nor is the storage readable after a clear with the SoftDevice off: the state stays what it was (:125-127). *)
Theorem C73_readable_after_clear_refuted : ~ (forall start size before s0 s, 0 <= start -> 12 <= size -> start + size <= zlen (nr_flash s0) -> zlen (nr_flash s0) < 2 ^ 32 -> nr_state s0 = NIdle -> nr_op s0 = None ->
  nrf_run start (before ++ [EvClear false false]) s0 = Some s -> nrf_coredump_read start size s 0 12 <> Some None).
Proof.
  intros H. set (s0 := mk_nrf (cd_header 16 ++ fill 4 0) NIdle None).
  destruct (nrf_run 0 ([EvClear true false; EvOff] ++ [EvClear false false]) s0) as [s|] eqn:E; [|vm_compute in E; discriminate].
  apply (H 0 16 [EvClear true false; EvOff] s0 s ltac:(lia) ltac:(lia) ltac:(vm_compute; discriminate) ltac:(reflexivity) eq_refl eq_refl E). vm_compute in E. injection E as <-. reflexivity.
Qed.
Print Assumptions C73_readable_after_clear_refuted.
