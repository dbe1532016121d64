(** Each coredump storage port does what storage has to do. *)
From Verif Require Import Base Coredump CoredumpSpec CoredumpSaveProofs StoragePorts StoragePortsSpec StoragePortsProofs.
Local Open Scope Z_scope.

Definition around (pre post w : list Z) : list Z := pre ++ w ++ post.
Ltac low := repeat match goal with |- context [u32 ?x] => rewrite (u32_id x) by (unfold is_u32; lia) end.
Lemma zeros4 : [0; 0; 0; 0] = fill 4 0. Proof. reflexivity. Qed.
Lemma zeros1 : [0] = fill 1 0. Proof. reflexivity. Qed.
Lemma cleared_by n w b : 0 < n <= zlen w -> b <> 0x43 -> zlen (replaced w 0 (fill n b)) = zlen w /\ cd_has_valid true (replaced w 0 (fill n b)) = None.
Proof. intros H N. split; [apply replaced_len; rewrite ?zlen_fill; lia|]. apply (not_valid _ b); [|exact N]. apply get_replaced_0, get_fill_0. lia. Qed.
Lemma nonempty (d : list Z) : d <> [] -> 0 < zlen d.
Proof. destruct d; [congruence|]. rewrite zlen_cons. pose proof (zlen_nonneg d). lia. Qed.

(** ** RAM *)
Lemma ram_wr size w off d : size < 2 ^ 32 -> zlen w = size -> 0 <= off -> off + zlen d <= size -> ram_write w off d = Some (true, replaced w off d).
Proof. intros HS L H1 H2. pose proof (zlen_nonneg d). unfold ram_write. rewrite bounds_in by lia. cbn [negb]. rewrite splice_some by lia. reflexivity. Qed.
Theorem ram_stores size : 0 < size < 2 ^ 32 -> stores ram_port (fun w => w) size 0 some_bytes.
Proof.
  intros HS. split; [|split; [|split]].
  - intros w off n L H1 H2 H3. cbn [p_rd ram_port]. rewrite bounds_in by lia. cbn [negb]. rewrite read_at_some by lia. reflexivity.
  - intros w L. cbn [p_er ram_port]. rewrite bounds_in by lia. cbn [negb]. rewrite splice_some by (rewrite ?zlen_fill; lia). cbn [bind]. do 2 f_equal. rewrite take_0, drop_all by (rewrite zlen_fill; lia). apply app_nil_r.
  - intros w off d L _ _ H1 H2 _. apply (ram_wr size); auto; lia.
  - intros w L _. exists (replaced w 0 [0]). split; [cbn [p_clr ram_port]; rewrite (ram_wr size) by (rewrite ?zlen_cons; change (zlen (@nil Z)) with 0; lia); reflexivity|].
    rewrite zeros1, <- L. apply cleared_by; lia.
Qed.
Theorem ram_refuses size : size < 2 ^ 32 -> refuses_reads ram_port (fun w => w) size /\ refuses_writes ram_port (fun w => w) size /\ refuses_erases ram_port (fun w => w) size.
Proof.
  intros HS. split; [|split].
  - intros w off n L H1 H2 H3 H4. cbn [p_rd ram_port]. now rewrite bounds_out by lia.
  - intros w off d L H1 H2 H3 H4. pose proof (zlen_nonneg d). cbn [p_wr ram_port]. unfold ram_write. now rewrite bounds_out by lia.
  - intros w off n L H1 H2 H3 H4. cbn [p_er ram_port]. now rewrite bounds_out by lia.
Qed.
Theorem ram_honest size : honest_erases ram_port (fun w => w) size 0.
Proof.
  intros w off n s L H1 H2 H3 H. cbn [p_er ram_port] in H. destruct (in_bounds _ _ _); cbn [negb] in H; [|discriminate].
  rewrite splice_some in H by (rewrite ?zlen_fill; lia). injection H as <-. reflexivity.
Qed.

(** ** NOR flash written directly *)
Section Nor.
Variables (pre post : list Z) (start size sec : Z).
Notation emb := (around pre post).
Hypothesis AT : zlen pre = start.
Hypothesis FITS : start + size < 2 ^ 32.
Hypothesis POS : 0 < size.

Lemma at_nonneg : 0 <= start.
Proof. rewrite <- AT. apply zlen_nonneg. Qed.
Lemma mapped_reads w off n : zlen w = size -> 0 <= off -> 0 < n -> off + n <= size -> mapped_read size start (emb w) off n = Some (Some (take n (drop off w))).
Proof.
  intros L H1 H2 H3. pose proof at_nonneg. unfold mapped_read, around. rewrite bounds_in by lia. cbn [negb]. low. rewrite <- AT, read_in by lia. reflexivity.
Qed.
Lemma mapped_refuses w off n : zlen w = size -> 0 <= off -> 0 < n -> size < off + n -> off + n < 2 ^ 32 -> mapped_read size start (emb w) off n = Some None.
Proof. intros L H1 H2 H3 H4. unfold mapped_read. now rewrite bounds_out by lia. Qed.
Lemma around_prog w off d : zlen w = size -> bytes d -> 0 <= off -> off + zlen d <= size -> take (zlen d) (drop off w) = fill (zlen d) 255 ->
  nor_prog (emb w) (start + off) d = Some (emb (replaced w off d)).
Proof. intros L B H1 H2 T. unfold around. rewrite <- AT. apply prog_in; auto; lia. Qed.
Lemma around_zero w off n : zlen w = size -> 0 <= off -> 0 <= n -> off + n <= size -> nor_prog (emb w) (start + off) (fill n 0) = Some (emb (replaced w off (fill n 0))).
Proof. intros L H1 H2 H3. unfold around. rewrite <- AT. apply zero_in; lia. Qed.
Lemma around_erase w off n : zlen w = size -> 0 <= off -> 0 <= n -> off + n <= size -> nor_erase (emb w) (start + off) n = Some (emb (replaced w off (fill n 255))).
Proof. intros L H1 H2 H3. unfold around. rewrite <- AT. apply erase_in; lia. Qed.
(** the end of clearing *)
Lemma clear_end (f : list Z -> option (list Z)) n b : 0 < n <= size -> b <> 0x43 ->
  (forall w, zlen w = size -> f (emb w) = Some (emb (replaced w 0 (fill n b)))) ->
  forall w, zlen w = size -> bytes w -> exists w', f (emb w) = Some (emb w') /\ zlen w' = size /\ cd_has_valid true w' = None.
Proof. intros H N F w L _. exists (replaced w 0 (fill n b)). split; [apply F; exact L|]. rewrite <- L. apply cleared_by; lia. Qed.

(** *** loops over sectors *)
Section Sectors.
Hypothesis SEC : 0 < sec.
Hypothesis AL : start mod sec = 0.
Hypothesis WHOLE : size mod sec = 0.
Lemma loop_erases : forall w, zlen w = size -> loop_erase start size sec (emb w) 0 size = Some (true, emb (fill size 255)).
Proof.
  intros w L. pose proof at_nonneg. unfold loop_erase. rewrite bounds_in by lia. rewrite Z.mod_0_l by lia. change (0 =? 0) with true. cbn [negb].
  rewrite (erase_loop_sectors (sector_erase sec) emb 255 start sec size size 0); try lia; try exact L; try exact WHOLE; [| |apply Z.mod_0_l; lia].
  - cbn [bind]. do 3 f_equal. rewrite Z.sub_0_r. change (0 + 0) with 0. apply replaced_all. rewrite zlen_fill; lia.
  - intros w0 k L0 K1 K2 K3. unfold sector_erase. assert (M : (start + k) mod sec = 0) by (rewrite Zplus_mod, AL, K3; apply Z.mod_0_l; lia).
    replace ((start + k) / sec * sec) with (start + k) by (pose proof (Z.div_mod (start + k) sec ltac:(lia)); lia). rewrite Z.add_0_l. apply around_erase; lia.
Qed.
Lemma loop_refuses w off n : zlen w = size -> 0 <= off -> 0 <= n -> size < off + n -> off + n < 2 ^ 32 -> loop_erase start size sec (emb w) off n = Some (false, emb w).
Proof. intros L H1 H2 H3 H4. unfold loop_erase. now rewrite bounds_out by lia. Qed.

Lemma nrf_wr al w off d : zlen w = size -> bytes d -> 0 <= off -> off + zlen d <= size -> take (zlen d) (drop off w) = fill (zlen d) 255 ->
  nrf_write start size al (emb w) off d = Some (true, emb (replaced w off d)).
Proof.
  intros L B H1 H2 T. pose proof (zlen_nonneg d). pose proof at_nonneg. unfold nrf_write. rewrite bounds_in by lia. cbn [negb]. low.
  destruct (_ && _); [|rewrite around_prog by (auto; lia); reflexivity]. set (k := zlen d / 4 * 4).
  assert (K : 0 <= k <= zlen d) by (unfold k; pose proof (Z.div_mod (zlen d) 4 ltac:(lia)); pose proof (Z.mod_pos_bound (zlen d) 4 ltac:(lia)); lia).
  assert (LT : zlen (take k d) = k) by (rewrite zlen_take; lia). assert (LD : zlen (drop k d) = zlen d - k) by (rewrite zlen_drop; lia).
  destruct (target_split w off k (zlen d - k) 255 H1 ltac:(lia) ltac:(lia)) as (T1 & T2); [replace (k + (zlen d - k)) with (zlen d) by lia; exact T|].
  rewrite around_prog; [|exact L|now apply bytes_take|lia|lia|rewrite LT; exact T1]. cbn [bind]. low. rewrite <- Z.add_assoc.
  rewrite around_prog; [|rewrite replaced_len by lia; exact L|now apply bytes_drop|lia|lia|rewrite LD, replaced_later by lia; exact T2]. cbn [bind]. do 3 f_equal.
  replace (off + k) with (off + zlen (take k d)) by lia. rewrite replaced_twice by lia. now rewrite take_drop.
Qed.
Theorem nrf_stores al : 4 <= size -> stores (nrf_port start size sec al) emb size 255 some_bytes.
Proof.
  intros H4. split; [exact mapped_reads|]. split; [exact loop_erases|]. split.
  - intros w off d L _ B H1 H2 T. now apply nrf_wr.
  - refine (clear_end (p_clr _) 4 0 _ _ _); [lia|lia|]. intros w L. cbn [p_clr nrf_port]. unfold nrf_clear. rewrite zeros4, <- (Z.add_0_r start). apply around_zero; lia.
Qed.
Theorem nrf_refuses al : refuses_reads (nrf_port start size sec al) emb size /\ refuses_writes (nrf_port start size sec al) emb size /\ refuses_erases (nrf_port start size sec al) emb size.
Proof.
  split; [exact mapped_refuses|]. split; [|exact loop_refuses]. intros w off d L H1 H2 H3 H4. pose proof (zlen_nonneg d). cbn [p_wr nrf_port]. unfold nrf_write. now rewrite bounds_out by lia.
Qed.

Lemma spi_wr w off d : zlen w = size -> bytes d -> 0 <= off -> off + zlen d <= size -> take (zlen d) (drop off w) = fill (zlen d) 255 ->
  spi_write start size (emb w) off d = Some (true, emb (replaced w off d)).
Proof. intros L B H1 H2 T. pose proof (zlen_nonneg d). pose proof at_nonneg. unfold spi_write. rewrite bounds_in by lia. cbn [negb]. low. rewrite around_prog by (auto; lia). reflexivity. Qed.
Lemma spi_zero w n : zlen w = size -> 0 <= n <= size -> spi_write start size (emb w) 0 (fill n 0) = Some (true, emb (replaced w 0 (fill n 0))).
Proof. intros L H. pose proof at_nonneg. unfold spi_write. rewrite bounds_in by (rewrite ?zlen_fill; lia). cbn [negb]. low. rewrite around_zero by lia. reflexivity. Qed.
Lemma spi_out w off d : zlen w = size -> 0 <= off -> d <> [] -> size < off + zlen d -> off + zlen d < 2 ^ 32 -> spi_write start size (emb w) off d = Some (false, emb w).
Proof. intros L H1 H2 H3 H4. pose proof (zlen_nonneg d). unfold spi_write. now rewrite bounds_out by lia. Qed.
Theorem da145_stores : 4 <= size -> stores (da145_port start size sec) emb size 255 some_bytes.
Proof.
  intros H4. split; [exact mapped_reads|]. split; [exact loop_erases|]. split.
  - intros w off d L _ B H1 H2 T. now apply spi_wr.
  - refine (clear_end (p_clr _) 4 0 _ _ _); [lia|lia|]. intros w L. cbn [p_clr da145_port]. rewrite zeros4, spi_zero by lia. reflexivity.
Qed.
Theorem da145_refuses : refuses_reads (da145_port start size sec) emb size /\ refuses_writes (da145_port start size sec) emb size /\ refuses_erases (da145_port start size sec) emb size.
Proof. split; [exact mapped_refuses|]. split; [exact spi_out|exact loop_refuses]. Qed.

Lemma page_wr : forall n d w off, (length d <= n)%nat -> zlen w = size -> bytes d -> 0 <= off -> off + zlen d <= size -> take (zlen d) (drop off w) = fill (zlen d) 255 ->
  page_writes n (start + off) d (emb w) = Some (emb (replaced w off d)).
Proof.
  pose proof at_nonneg as AN. induction n as [|n IH]; intros d w off N L B H1 H2 T.
  - destruct d; [|cbn in N; lia]. cbn. now rewrite replaced_nil.
  - destruct d as [|x d]; [cbn; now rewrite replaced_nil|]. cbn [page_writes]. set (D := x :: d) in *. assert (LD0 : 0 < zlen D) by (apply nonempty; discriminate).
    pose proof (Z.mod_pos_bound (start + off) 256 ltac:(lia)) as MB. set (k := Z.min (zlen D) (256 - (start + off) mod 256)). assert (K : 0 < k <= zlen D) by lia.
    assert (LT : zlen (take k D) = k) by (rewrite zlen_take; lia). assert (LD : zlen (drop k D) = zlen D - k) by (rewrite zlen_drop; lia).
    destruct (target_split w off k (zlen D - k) 255 H1 ltac:(lia) ltac:(lia)) as (T1 & T2); [replace (k + (zlen D - k)) with (zlen D) by lia; exact T|].
    rewrite around_prog; [|exact L|now apply bytes_take|lia|lia|rewrite LT; exact T1]. cbn [bind]. low. rewrite <- Z.add_assoc.
    rewrite IH; [|unfold zlen in *; lia|rewrite replaced_len by lia; exact L|now apply bytes_drop|lia|lia|rewrite LD, replaced_later by lia; exact T2].
    do 2 f_equal. replace (off + k) with (off + zlen (take k D)) by lia. rewrite replaced_twice by lia. now rewrite take_drop.
Qed.
Lemma page_zero w : zlen w = size -> 4 <= size -> page_writes 4 (start + 0) [0; 0; 0; 0] (emb w) = Some (emb (replaced w 0 (fill 4 0))).
Proof.
  intros L H4. pose proof at_nonneg as AN.
  assert (G : forall n k w, (0 <= k <= Z.of_nat n) -> zlen w = size -> forall off, 0 <= off -> off + k <= size -> page_writes n (start + off) (fill k 0) (emb w) = Some (emb (replaced w off (fill k 0)))).
  { clear w L H4. induction n as [|n IH]; intros k w K L off H1 H2.
    - replace k with 0 by lia. cbn. now rewrite replaced_nil.
    - destruct (Z.eq_dec k 0) as [->|Q]; [cbn; now rewrite replaced_nil|].
      assert (LF : zlen (fill k 0) = k) by (apply zlen_fill; lia). destruct (fill k 0) as [|x d] eqn:E; [change (zlen (@nil Z)) with 0 in LF; lia|]. cbn [page_writes]. rewrite <- E in *. rewrite LF.
      pose proof (Z.mod_pos_bound (start + off) 256 ltac:(lia)) as MB. set (j := Z.min k (256 - (start + off) mod 256)). assert (J : 0 < j <= k) by lia.
      rewrite take_fill, drop_fill by lia. rewrite around_zero by lia. cbn [bind]. low. rewrite <- Z.add_assoc.
      rewrite IH; [|lia|rewrite replaced_len by (rewrite ?zlen_fill; lia); exact L|lia|lia]. do 2 f_equal.
      replace (off + j) with (off + zlen (fill j 0)) by (rewrite zlen_fill; lia). rewrite replaced_twice by (rewrite ?zlen_fill by lia; lia). rewrite <- fill_split by lia. do 2 f_equal. lia. }
  rewrite zeros4. apply G; lia.
Qed.
Theorem da1469_stores : 4 <= size -> stores (da1469_port start size sec) emb size 255 some_bytes.
Proof.
  intros H4. pose proof at_nonneg. split; [exact mapped_reads|]. split; [exact loop_erases|]. split.
  - intros w off d L _ B H1 H2 T. pose proof (zlen_nonneg d). cbn [p_wr da1469_port]. unfold da1469_write. rewrite bounds_in by lia. cbn [negb]. low. rewrite page_wr by auto. reflexivity.
  - refine (clear_end (p_clr _) 4 0 _ _ _); [lia|lia|]. intros w L. cbn [p_clr da1469_port]. unfold da1469_write. change (zlen [0; 0; 0; 0]) with 4. rewrite bounds_in by lia. cbn [negb length]. low. rewrite page_zero by auto. reflexivity.
Qed.
Theorem da1469_refuses : refuses_reads (da1469_port start size sec) emb size /\ refuses_writes (da1469_port start size sec) emb size /\ refuses_erases (da1469_port start size sec) emb size.
Proof.
  split; [exact mapped_refuses|]. split; [|exact loop_refuses]. intros w off d L H1 H2 H3 H4. pose proof (zlen_nonneg d). cbn [p_wr da1469_port]. unfold da1469_write. now rewrite bounds_out by lia.
Qed.

Lemma range_er w off n : zlen w = size -> 0 <= off -> 0 <= n -> off + n <= size -> range_erase start size (emb w) off n = Some (true, emb (replaced w off (fill n 255))).
Proof. intros L H1 H2 H3. pose proof at_nonneg. unfold range_erase. rewrite bounds_in by lia. cbn [negb]. low. rewrite around_erase by lia. reflexivity. Qed.
Lemma range_out w off n : zlen w = size -> 0 <= off -> 0 <= n -> size < off + n -> off + n < 2 ^ 32 -> range_erase start size (emb w) off n = Some (false, emb w).
Proof. intros L H1 H2 H3 H4. unfold range_erase. now rewrite bounds_out by lia. Qed.
Lemma range_all w : zlen w = size -> range_erase start size (emb w) 0 size = Some (true, emb (fill size 255)).
Proof. intros L. rewrite range_er by lia. do 3 f_equal. apply replaced_all. rewrite zlen_fill; lia. Qed.
Theorem da1468_stores : sec <= size -> stores (da1468_port start size sec) emb size 255 some_bytes.
Proof.
  intros HC. split.
  { intros w off n L H1 H2 H3. cbn [p_rd da1468_port]. replace (n =? 0) with false by lia. now apply mapped_reads. }
  split; [exact range_all|]. split.
  - intros w off d L N B H1 H2 T. pose proof (nonempty d N). cbn [p_wr da1468_port]. unfold da1468_write. replace (zlen d =? 0) with false by lia. now apply spi_wr.
  - refine (clear_end (p_clr _) sec 255 _ _ _); [lia|lia|]. intros w L. cbn [p_clr da1468_port]. rewrite range_er by lia. reflexivity.
Qed.
Theorem da1468_refuses : refuses_reads (da1468_port start size sec) emb size /\ refuses_writes (da1468_port start size sec) emb size /\ refuses_erases (da1468_port start size sec) emb size.
Proof.
  split; [intros w off n L H1 H2 H3 H4; cbn [p_rd da1468_port]; replace (n =? 0) with false by lia; now apply mapped_refuses|]. split; [|exact range_out].
  intros w off d L H1 H2 H3 H4. pose proof (nonempty d H2). cbn [p_wr da1468_port]. unfold da1468_write. replace (zlen d =? 0) with false by lia. now apply spi_out.
Qed.
Lemma range_honest w off n s : zlen w = size -> 0 <= off -> 0 <= n -> off + n <= size -> range_erase start size (emb w) off n = Some (true, s) -> s = emb (replaced w off (fill n 255)).
Proof. intros L H1 H2 H3 H. rewrite range_er in H by lia. now injection H as <-. Qed.
Theorem mynewt_stores : stores (mynewt_port start size) emb size 255 some_bytes.
Proof.
  split; [exact mapped_reads|]. split; [exact range_all|]. split.
  - intros w off d L _ B H1 H2 T. now apply spi_wr.
  - refine (clear_end (p_clr _) 1 0 _ _ _); [lia|lia|]. intros w L. cbn [p_clr mynewt_port]. rewrite zeros1, spi_zero by lia. reflexivity.
Qed.
Theorem mynewt_refuses : refuses_reads (mynewt_port start size) emb size /\ refuses_writes (mynewt_port start size) emb size /\ refuses_erases (mynewt_port start size) emb size.
Proof. split; [exact mapped_refuses|]. split; [exact spi_out|exact range_out]. Qed.

Lemma byte_wr : forall d w off, zlen w = size -> bytes d -> 0 <= off -> off + zlen d <= size -> take (zlen d) (drop off w) = fill (zlen d) 255 ->
  byte_writes (start + off) d (emb w) = Some (emb (replaced w off d)).
Proof.
  pose proof at_nonneg as AN. induction d as [|x d IH]; intros w off L B H1 H2 T; [cbn; now rewrite replaced_nil|]. cbn [byte_writes]. rewrite zlen_cons in *. pose proof (zlen_nonneg d).
  destruct (target_split w off 1 (zlen d) 255 H1 ltac:(lia) ltac:(lia) T) as (T1 & T2).
  rewrite around_prog; [|exact L|constructor; [exact (Forall_inv B)|constructor]|lia|change (zlen [x]) with 1; lia|exact T1]. cbn [bind]. low. rewrite <- Z.add_assoc. change 1 with (zlen [x]) at 1.
  change (zlen [x]) with 1. rewrite IH; [|rewrite replaced_len by (change (zlen [x]) with 1; lia); exact L|exact (Forall_inv_tail B)|lia|lia|rewrite replaced_later by (change (zlen [x]) with 1; lia); exact T2].
  do 2 f_equal. change (off + 1) with (off + zlen [x]). rewrite replaced_twice by (change (zlen [x]) with 1; lia). reflexivity.
Qed.
Lemma byte_zero : forall k w off, zlen w = size -> 0 <= off -> off + Z.of_nat k <= size -> byte_writes (start + off) (repeat 0 k) (emb w) = Some (emb (replaced w off (repeat 0 k))).
Proof.
  pose proof at_nonneg as AN. induction k as [|k IH]; intros w off L H1 H2; [cbn; now rewrite replaced_nil|]. cbn [repeat byte_writes].
  rewrite zeros1, around_zero by lia. cbn [bind]. low. rewrite <- Z.add_assoc. rewrite IH; [|rewrite replaced_len by (change (zlen (fill 1 0)) with 1; lia); exact L|lia|lia].
  do 2 f_equal. change (off + 1) with (off + zlen (fill 1 0)). rewrite replaced_twice; [reflexivity|lia|]. change (zlen (fill 1 0)) with 1. assert (LR : zlen (repeat 0 k) = Z.of_nat k) by (unfold zlen; now rewrite repeat_length). lia.
Qed.
Theorem f4_stores : 4 <= size -> stores (f4_port start size) emb size 255 some_bytes.
Proof.
  intros H4. pose proof at_nonneg. split; [exact mapped_reads|]. split; [|split].
  - intros w L. cbn [p_er f4_port]. unfold f4_erase. rewrite bounds_in by lia. cbn [negb]. rewrite <- (Z.add_0_r start), around_erase by lia. cbn [bind]. do 3 f_equal. apply replaced_all. rewrite zlen_fill; lia.
  - intros w off d L _ B H1 H2 T. pose proof (zlen_nonneg d). cbn [p_wr f4_port]. unfold f4_write. rewrite bounds_in by lia. cbn [negb]. low. rewrite byte_wr by auto. reflexivity.
  - refine (clear_end (p_clr _) 4 0 _ _ _); [lia|lia|]. intros w L. cbn [p_clr f4_port]. unfold f4_write. change (zlen [0; 0; 0; 0]) with 4. rewrite bounds_in by lia. cbn [negb length]. low.
    change [0; 0; 0; 0] with (repeat 0 4). rewrite byte_zero by (try exact L; lia). reflexivity.
Qed.
Theorem f4_refuses : refuses_reads (f4_port start size) emb size /\ refuses_writes (f4_port start size) emb size /\ refuses_erases (f4_port start size) emb size.
Proof.
  split; [exact mapped_refuses|]. split; [intros w off d L H1 H2 H3 H4; pose proof (zlen_nonneg d); cbn [p_wr f4_port]; unfold f4_write; now rewrite bounds_out by lia|].
  intros w off n L H1 H2 H3 H4. cbn [p_er f4_port]. unfold f4_erase. now rewrite bounds_out by lia.
Qed.

Lemma esp8266_wr : forall n d w off, (length d <= n)%nat -> zlen w = size -> bytes d -> 0 <= off -> off + zlen d <= size -> take (zlen d) (drop off w) = fill (zlen d) 255 ->
  esp8266_writes start size n off d (emb w) = Some (true, emb (replaced w off d)).
Proof.
  pose proof at_nonneg as AN. induction n as [|n IH]; intros d w off N L B H1 H2 T.
  - destruct d; [|cbn in N; lia]. cbn. now rewrite replaced_nil.
  - destruct d as [|x d]; [cbn; now rewrite replaced_nil|]. cbn [esp8266_writes]. set (D := x :: d) in *. assert (LD0 : 0 < zlen D) by (apply nonempty; discriminate).
    set (k := Z.min 4096 (zlen D)). assert (LT : zlen (take 4096 D) = k) by (rewrite zlen_take; lia). assert (LD : zlen (drop 4096 D) = zlen D - k) by (rewrite zlen_drop; lia).
    destruct (target_split w off k (zlen D - k) 255 H1 ltac:(lia) ltac:(lia)) as (T1 & T2); [replace (k + (zlen D - k)) with (zlen D) by lia; exact T|].
    rewrite spi_wr; [|exact L|now apply bytes_take|lia|lia|rewrite LT; exact T1]. cbn [bind fst snd].
    destruct (Z_lt_ge_dec 4096 (zlen D)) as [Q|Q].
    + low. replace k with 4096 in * by lia. rewrite IH; [|unfold zlen in *; lia|rewrite replaced_len by lia; exact L|now apply bytes_drop|lia|lia|rewrite LD, replaced_later by lia; exact T2].
      do 3 f_equal. replace (off + 4096) with (off + zlen (take 4096 D)) by lia. rewrite replaced_twice by lia. now rewrite take_drop.
    + rewrite drop_all by lia. destruct n; cbn [esp8266_writes]; now rewrite take_all by lia.
Qed.
Theorem esp8266_stores : 4 <= size -> stores (esp8266_port start size sec) emb size 255 some_bytes.
Proof.
  intros H4. pose proof at_nonneg. split; [exact mapped_reads|]. split; [|split].
  - intros w L. cbn [p_er esp8266_port]. unfold esp8266_erase, spi_erase_range. low. rewrite Z.add_0_r, AL, WHOLE. change (0 =? 0) with true. cbn [negb orb]. rewrite <- (Z.add_0_r start), around_erase by lia. cbn [bind]. do 3 f_equal. apply replaced_all. rewrite zlen_fill; lia.
  - intros w off d L _ B H1 H2 T. now apply esp8266_wr.
  - refine (clear_end (p_clr _) 4 0 _ _ _); [lia|lia|]. intros w L. cbn [p_clr esp8266_port]. replace (size <? 4) with false by lia. rewrite zeros4, <- (Z.add_0_r start). apply around_zero; lia.
Qed.
Theorem esp8266_refuses_reads : refuses_reads (esp8266_port start size sec) emb size.
Proof. exact mapped_refuses. Qed.
Theorem esp8266_honest : honest_erases (esp8266_port start size sec) emb size 255.
Proof.
  intros w off n s L H1 H2 H3 H. pose proof at_nonneg. cbn [p_er esp8266_port] in H. unfold esp8266_erase, spi_erase_range in H. rewrite u32_id in H by (unfold is_u32; lia). destruct (_ || _); [discriminate|].
  rewrite around_erase in H by lia. now injection H as <-.
Qed.
End Sectors.
End Nor.

(** ** ESP-IDF: [pre] ends with the partition's first [wo] sectors, which are erased *)
Section EspIdf.
Variables (pre post : list Z) (start psize sec wo lim : Z).
Notation size := (esp_size psize sec wo lim).
Notation emb := (around (pre ++ fill (wo * sec) 255) post).
Hypothesis AT : zlen pre = start.
Hypothesis FITS : start + psize < 2 ^ 32.
Hypothesis SEC : 0 < sec.
Hypothesis WO : 0 <= wo.
Hypothesis LIM : 0 <= lim.
Hypothesis ROOM : wo * sec + 4 <= (if lim >? 0 then Z.min psize lim else psize).
Hypothesis AL : start mod sec = 0.
Hypothesis WHOLE : psize mod sec = 0.
Hypothesis LIMAL : lim mod sec = 0.
Lemma esp_facts : 0 <= start /\ 4 <= size /\ size + wo * sec <= psize /\ 0 <= wo * sec /\ (size + wo * sec) mod sec = 0 /\ zlen (pre ++ fill (wo * sec) 255) = start + wo * sec.
Proof.
  assert (W0 : 0 <= wo * sec) by nia. pose proof (zlen_nonneg pre) as ZP. rewrite zlen_app, zlen_fill by lia.
  assert (E : size = (if lim >? 0 then Z.min psize lim else psize) - wo * sec) by (unfold esp_size; apply u32_id; unfold is_u32; destruct (lim >? 0) eqn:Q; lia).
  rewrite E. replace ((if lim >? 0 then Z.min psize lim else psize) - wo * sec + wo * sec) with (if lim >? 0 then Z.min psize lim else psize) by lia.
  split; [lia|]. split; [lia|]. split; [destruct (lim >? 0); lia|]. split; [exact W0|]. split; [|lia]. destruct (lim >? 0); [|exact WHOLE]. destruct (Z.min_spec psize lim) as [(_ & ->)|(_ & ->)]; assumption.
Qed.
Theorem esp_stores : stores (esp_port start psize sec wo) emb size 255 some_bytes.
Proof.
  destruct esp_facts as (F1 & F2 & F3 & F4 & F5 & F6). split; [|split; [|split]].
  - intros w off n L H1 H2 H3. cbn [p_rd esp_port]. unfold esp_read. low. replace (off + n >? psize) with false by lia. unfold around. replace (start + off + wo * sec) with (zlen (pre ++ fill (wo * sec) 255) + off) by lia. rewrite read_in by lia. reflexivity.
  - intros w L. cbn [p_er esp_port]. unfold esp_erase, spi_erase_range. low. rewrite Z.add_0_r, AL, F5. change (0 =? 0) with true. cbn [negb orb]. unfold around. rewrite <- app_assoc, (app_assoc (fill _ _)), <- AT, <- (Z.add_0_r (zlen pre)).
    rewrite erase_in by (rewrite ?zlen_app, ?zlen_fill by lia; lia). cbn [bind]. do 2 f_equal. rewrite replaced_all by (rewrite zlen_app, !zlen_fill by lia; lia). rewrite <- app_assoc. f_equal. rewrite Z.add_comm, fill_split by lia. now rewrite <- app_assoc.
  - intros w off d L _ B H1 H2 T. pose proof (zlen_nonneg d). cbn [p_wr esp_port]. unfold esp_write. low. replace (start + off + wo * sec) with (zlen (pre ++ fill (wo * sec) 255) + off) by lia. unfold around. rewrite prog_in by (auto; lia). reflexivity.
  - refine (clear_end _ _ size (p_clr _) 4 0 _ _ _); [lia|lia|]. intros w L. cbn [p_clr esp_port]. replace (psize <? 4) with false by lia. low. rewrite zeros4. unfold around. replace (start + wo * sec) with (zlen (pre ++ fill (wo * sec) 255) + 0) by lia. apply zero_in; lia.
Qed.
(** erasing from any content of the partition *)
Theorem esp_erases_partition x w : zlen x = wo * sec -> zlen w = size -> p_er (esp_port start psize sec wo) (around (pre ++ x) post w) 0 size = Some (true, emb (fill size 255)).
Proof.
  destruct esp_facts as (F1 & F2 & F3 & F4 & F5 & F6). intros LX L. cbn [p_er esp_port]. unfold esp_erase, spi_erase_range. low. rewrite Z.add_0_r, AL, F5. change (0 =? 0) with true. cbn [negb orb]. unfold around. rewrite <- (app_assoc pre x), (app_assoc x), <- AT, <- (Z.add_0_r (zlen pre)).
  rewrite erase_in by (rewrite ?zlen_app by lia; lia). cbn [bind]. do 2 f_equal. rewrite replaced_all by (rewrite zlen_app, !zlen_fill by lia; lia). rewrite <- (app_assoc pre). f_equal. rewrite Z.add_comm, fill_split by lia. now rewrite <- app_assoc.
Qed.
End EspIdf.

(** ** Flash written in blocks *)
Lemma mod_add0 a b m : 0 < m -> a mod m = 0 -> b mod m = 0 -> (a + b) mod m = 0.
Proof. intros HM A B. rewrite Zplus_mod, A, B. apply Z.mod_0_l. lia. Qed.
Lemma mod_sub0 a b m : 0 < m -> a mod m = 0 -> b mod m = 0 -> (a - b) mod m = 0.
Proof. intros HM A B. rewrite Zminus_mod, A, B. apply Z.mod_0_l. lia. Qed.
Lemma mod_mod0 a m k : 0 < m -> 0 < k -> m mod k = 0 -> a mod m = 0 -> a mod k = 0.
Proof. intros HM HK M A. apply Z.mod_divide in M; [|lia]. apply Z.mod_divide in A; [|lia]. apply Z.mod_divide; [lia|]. eapply Z.divide_trans; eassumption. Qed.
Lemma div_mul0 a m : 0 < m -> a mod m = 0 -> a / m * m = a.
Proof. intros HM A. pose proof (Z.div_mod a m ltac:(lia)). lia. Qed.

Lemma based_reads pre post base start size w off n : 0 <= base -> zlen pre = start - base -> start + size < 2 ^ 32 -> zlen w = size -> 0 <= off -> 0 < n -> off + n <= size ->
  at_base_read base start size (around pre post w) off n = Some (Some (take n (drop off w))).
Proof.
  intros BASE AT FITS L H1 H2 H3. pose proof (zlen_nonneg pre). unfold at_base_read, around. rewrite bounds_in by lia. cbn [negb]. low. replace (start + off - base) with (zlen pre + off) by lia. rewrite read_in by lia. reflexivity.
Qed.
Lemma based_refuses base start size s off n : 0 <= off -> 0 < n -> size < off + n -> off + n < 2 ^ 32 -> at_base_read base start size s off n = Some None.
Proof. intros H1 H2 H3 H4. unfold at_base_read. now rewrite bounds_out by lia. Qed.
Lemma sec_le size sec : 0 < size -> 0 < sec -> size mod sec = 0 -> sec <= size.
Proof. intros HS HC M. apply Z.mod_divide in M; [|lia]. apply Z.divide_pos_le; assumption. Qed.
Lemma bank_er pre post base start size sec w off bank page n : zlen pre = start - base -> 0 < sec -> zlen w = size -> 0 <= off -> 0 <= n -> off + n <= size -> n mod sec = 0 -> off mod sec = 0 -> (bank + page * sec) = start - base + off ->
  bank_erase sec bank page (n / sec) (around pre post w) = Some (around pre post (replaced w off (fill n 255))).
Proof. intros AT SEC L H1 H2 H3 H4 H5 E. unfold bank_erase, around. rewrite E, div_mul0 by assumption. rewrite <- AT. apply erase_in; lia. Qed.

Section Blocks.
Variables (pre post : list Z) (base start size sec W : Z).
Notation emb := (around pre post).
Hypothesis BASE : 0 <= base.
Hypothesis AT : zlen pre = start - base.
Hypothesis FITS : start + size < 2 ^ 32.
Hypothesis POS : 0 < size.
Hypothesis SEC : 0 < sec.
Hypothesis BAL : base mod sec = 0.
Hypothesis AL : start mod sec = 0.
Hypothesis WHOLE : size mod sec = 0.
Hypothesis WPOS : 0 < W.

Lemma at_base : base <= start.
Proof. pose proof (zlen_nonneg pre). lia. Qed.
(** *** STM32L4, STM32WB *)
Hypothesis W8 : W mod 8 = 0.
Hypothesis SEC8 : sec mod 8 = 0.
Lemma unit_at off : off mod 8 = 0 -> (zlen pre + off) mod 8 = 0.
Proof. intros M. apply mod_add0; [lia| |exact M]. rewrite AT. apply (mod_mod0 _ sec); [lia|lia|exact SEC8|]. apply mod_sub0; [lia|exact AL|exact BAL]. Qed.
Lemma dwords_wr : forall n d w off, (length d <= n)%nat -> zlen d mod 8 = 0 -> off mod 8 = 0 -> zlen w = size -> 0 <= off -> off + zlen d <= size -> take (zlen d) (drop off w) = fill (zlen d) 255 ->
  dwords base n (start + off) d (emb w) = Some (emb (replaced w off d)).
Proof.
  pose proof at_base as AB. induction n as [|n IH]; intros d w off N M M2 L H1 H2 T.
  - destruct d; [|cbn in N; lia]. cbn. now rewrite replaced_nil.
  - destruct d as [|x d]; [cbn; now rewrite replaced_nil|]. cbn [dwords]. set (D := x :: d) in *. assert (LD0 : 0 < zlen D) by (apply nonempty; discriminate).
    assert (K : 8 <= zlen D) by (pose proof (Z.div_mod (zlen D) 8 ltac:(lia)); lia).
    assert (LT : zlen (take 8 D) = 8) by (rewrite zlen_take; lia). assert (LD : zlen (drop 8 D) = zlen D - 8) by (rewrite zlen_drop; lia).
    destruct (target_split w off 8 (zlen D - 8) 255 H1 ltac:(lia) ltac:(lia)) as (T1 & T2); [replace (8 + (zlen D - 8)) with (zlen D) by lia; exact T|].
    replace (start + off - base) with (zlen pre + off) by lia. unfold around at 1. rewrite ecc_in; [|exact LT|now apply unit_at|lia|lia|left; exact T1]. cbn [bind]. low. rewrite <- Z.add_assoc. fold (emb (replaced w off (take 8 D))).
    rewrite IH; [|unfold zlen in *; lia|rewrite LD; apply mod_sub0; [lia|exact M|reflexivity]|apply mod_add0; [lia|exact M2|reflexivity]|rewrite replaced_len by lia; exact L|lia|lia|rewrite LD, replaced_later by lia; exact T2].
    do 2 f_equal. replace (off + 8) with (off + zlen (take 8 D)) by lia. rewrite replaced_twice by lia. now rewrite take_drop.
Qed.
Lemma l4_writes (p : port (list Z)) : p_wr p = l4_block base start -> writes p emb size 255 (whole_blocks W).
Proof.
  intros E w off d L (LD & M) B H1 H2 T. pose proof at_base. rewrite E. unfold l4_block. low. rewrite dwords_wr; [reflexivity|lia|rewrite LD; exact W8| |exact L|exact H1|exact H2|exact T]. apply (mod_mod0 _ W); [lia|lia|exact W8|exact M].
Qed.
Lemma l4_clears (p : port (list Z)) : p_clr p = l4_clear base start -> clears p emb size.
Proof.
  intros E w L _. pose proof (sec_le size sec POS SEC WHOLE). assert (8 <= sec) by (pose proof (Z.div_mod sec 8 ltac:(lia)); lia). exists (replaced w 0 (fill 8 0)). split; [|rewrite <- L; apply cleared_by; lia].
  rewrite E. unfold l4_clear, around. replace (start - base) with (zlen pre + 0) by lia. apply ecc_in; [reflexivity|apply unit_at; reflexivity|lia|lia|now right].
Qed.
Variables (b1 fe : Z).
Hypothesis B1 : base <= b1 <= fe.
Hypothesis B1AL : b1 mod sec = 0.
Hypothesis END : start + size <= fe.
Lemma l4_er w off n : zlen w = size -> 0 <= off -> 0 <= n -> off + n <= size -> start + 2 * off < 2 ^ 32 -> off mod sec = 0 -> n mod sec = 0 ->
  l4_erase base start size sec b1 fe (emb w) off n = Some (true, emb (replaced w off (fill n 255))).
Proof.
  intros L H1 H2 H3 HW M1 M2. pose proof at_base. unfold l4_erase. rewrite bounds_in by lia. cbn [negb]. low.
  replace ((start + off <? base) || (start + off >? fe)) with false by lia. assert (MA : (start + off) mod sec = 0) by now apply mod_add0.
  rewrite (mod_add0 (start + off) off sec), M2 by assumption. change (0 =? 0) with true. cbn [negb orb].
  destruct (start + off <? b1) eqn:Q.
  - destruct (Z.min_spec b1 (start + off + n)) as [(Y & EM)|(Y & EM)]; rewrite EM.
    + assert (MB : (b1 - (start + off)) mod sec = 0) by now apply mod_sub0.
      low. rewrite (bank_er pre post base start size sec w off); [|exact AT|exact SEC|..]; [|exact L|lia|lia|lia|exact MB|exact M1|rewrite div_mul0 by (try assumption; now apply mod_sub0); lia]. cbn [bind]. replace (b1 =? start + off + n) with false by lia.
      rewrite Z.sub_diag. assert (MC : (start + off + n - b1) mod sec = 0) by (apply mod_sub0; [lia|apply mod_add0; assumption|assumption]).
      rewrite (bank_er pre post base start size sec _ (b1 - start)); [|exact AT|exact SEC|..]; [|rewrite replaced_len by (rewrite ?zlen_fill; lia); exact L|lia|lia|lia|exact MC|now apply mod_sub0|rewrite Z.div_0_l by lia; lia]. cbn [bind]. do 3 f_equal.
      replace (b1 - start) with (off + zlen (fill (b1 - (start + off)) 255)) by (rewrite zlen_fill; lia). rewrite replaced_twice by (rewrite ?zlen_fill by lia; lia). rewrite <- fill_split by lia. do 2 f_equal. lia.
    + low. replace (start + off + n - (start + off)) with n by lia. rewrite (bank_er pre post base start size sec w off); [|exact AT|exact SEC|..]; [|exact L|lia|lia|lia|exact M2|exact M1|rewrite div_mul0 by (try assumption; now apply mod_sub0); lia]. cbn [bind]. rewrite Z.eqb_refl. reflexivity.
  - replace (start + off + n - (start + off)) with n by lia. low. rewrite (bank_er pre post base start size sec w off); [|exact AT|exact SEC|..]; [reflexivity|exact L|lia|lia|lia|exact M2|exact M1|rewrite div_mul0 by (try assumption; now apply mod_sub0); lia].
Qed.
Theorem l4_stores : stores (l4_port base start size sec b1 fe) emb size 255 (whole_blocks W).
Proof.
  pose proof at_base. split; [intros w off n; now apply based_reads|]. split; [|split; [now apply l4_writes|now apply l4_clears]].
  intros w L. cbn [p_er l4_port]. rewrite l4_er; [|exact L|lia|lia|lia|lia|apply Z.mod_0_l; lia|exact WHOLE]. do 3 f_equal. apply replaced_all. rewrite zlen_fill; lia.
Qed.
Theorem l4_erases_sectors : start + 2 * size < 2 ^ 32 -> erases_sectors (l4_port base start size sec b1 fe) emb size 255 sec.
Proof. intros HW w off n L H1 H2 H3 M1 M2. cbn [p_er l4_port]. apply l4_er; auto; lia. Qed.
Theorem l4_refuses : refuses_reads (l4_port base start size sec b1 fe) emb size /\ refuses_erases (l4_port base start size sec b1 fe) emb size.
Proof. split; [intros w off n _; now apply based_refuses|]. intros w off n L H1 H2 H3 H4. cbn [p_er l4_port]. unfold l4_erase. now rewrite bounds_out by lia. Qed.
Lemma wb_er w off n : zlen w = size -> 0 <= off -> 0 <= n -> off + n <= size -> off < size -> start + 2 * off < 2 ^ 32 -> off mod sec = 0 -> n mod sec = 0 ->
  wb_erase base start size sec fe (emb w) off n = Some (true, emb (replaced w off (fill n 255))).
Proof.
  intros L H1 H2 H3 HX HW M1 M2. pose proof at_base. unfold wb_erase. rewrite bounds_in by lia. cbn [negb]. low.
  replace ((start + off <? base) || (start + off >=? fe)) with false by lia. assert (MA : (start + off) mod sec = 0) by now apply mod_add0.
  rewrite (mod_add0 (start + off) off sec), M2 by assumption. change (0 =? 0) with true. cbn [negb orb].
  replace (start + off + n - (start + off)) with n by lia. low. rewrite (bank_er pre post base start size sec w off); [|exact AT|exact SEC|..]; [reflexivity|exact L|lia|lia|lia|exact M2|exact M1|rewrite div_mul0 by (try assumption; now apply mod_sub0); lia].
Qed.
Theorem wb_stores : stores (wb_port base start size sec fe) emb size 255 (whole_blocks W).
Proof.
  pose proof at_base. split; [intros w off n; now apply based_reads|]. split; [|split; [now apply l4_writes|now apply l4_clears]].
  intros w L. cbn [p_er wb_port]. rewrite wb_er; [|exact L|lia|lia|lia|lia|lia|apply Z.mod_0_l; lia|exact WHOLE]. do 3 f_equal. apply replaced_all. rewrite zlen_fill; lia.
Qed.
Theorem wb_erases_sectors : start + 2 * size < 2 ^ 32 -> forall w off n, zlen w = size -> 0 <= off < size -> 0 <= n -> off + n <= size -> off mod sec = 0 -> n mod sec = 0 ->
  p_er (wb_port base start size sec fe) (emb w) off n = Some (true, emb (replaced w off (fill n 255))).
Proof. intros HW w off n L H1 H2 H3 M1 M2. cbn [p_er wb_port]. apply wb_er; auto; lia. Qed.
Theorem wb_refuses : refuses_reads (wb_port base start size sec fe) emb size /\ refuses_erases (wb_port base start size sec fe) emb size.
Proof. split; [intros w off n _; now apply based_refuses|]. intros w off n L H1 H2 H3 H4. cbn [p_er wb_port]. unfold wb_erase. now rewrite bounds_out by lia. Qed.
End Blocks.

(** *** STM32U5 *)
Section U5.
Variables (pre post : list Z) (base start size sec W b2 fe : Z).
Notation emb := (around pre post).
Hypothesis BASE : 0 <= base.
Hypothesis AT : zlen pre = start - base.
Hypothesis FITS : start + size < 2 ^ 32.
Hypothesis POS : 0 < size.
Hypothesis SEC : 0 < sec.
Hypothesis BAL : base mod sec = 0.
Hypothesis AL : start mod sec = 0.
Hypothesis WHOLE : size mod sec = 0.
Hypothesis WPOS : 0 < W.
Hypothesis SECW : sec mod W = 0.
Hypothesis B2AL : b2 mod sec = 0.
Hypothesis ONE_BANK : start + size <= b2 \/ b2 <= start /\ start + size <= fe.
Lemma u5_er w off n : zlen w = size -> 0 <= off -> 0 <= n -> off + n <= size -> off mod sec = 0 -> n mod sec = 0 ->
  u5_erase base start size sec b2 fe (emb w) off n = Some (true, emb (replaced w off (fill n 255))).
Proof.
  intros L H1 H2 H3 M1 M2. assert (AB : base <= start) by (pose proof (zlen_nonneg pre); lia). unfold u5_erase. rewrite bounds_in by lia. cbn [negb].
  set (bank := if start >=? b2 then b2 else base). assert (MB : bank mod sec = 0) by (unfold bank; destruct (start >=? b2); assumption).
  assert (E : ((start - bank) / sec + off / sec) * sec = start - bank + off).
  { rewrite Z.mul_add_distr_r, !div_mul0; [reflexivity|exact SEC|exact M1|exact SEC|now apply mod_sub0]. }
  rewrite Z.mul_add_distr_r, E, div_mul0 by assumption.
  replace ((if start >=? b2 then fe else b2) <? bank + (start - bank + off + n)) with false by (unfold bank; destruct (start >=? b2) eqn:Q; lia).
  rewrite (bank_er pre post base start size sec w off); [|exact AT|exact SEC|..]; [reflexivity|exact L|lia|lia|lia|exact M2|exact M1|]. rewrite E. lia.
Qed.
Theorem u5_stores : stores (u5_port base start size sec W b2 fe) emb size 255 (whole_blocks W).
Proof.
  assert (AB : base <= start) by (pose proof (zlen_nonneg pre); lia). pose proof (sec_le size sec POS SEC WHOLE) as SL. split; [intros w off n; now apply based_reads|]. split; [|split].
  - intros w L. cbn [p_er u5_port]. rewrite u5_er; [|exact L|lia|lia|lia|apply Z.mod_0_l; lia|exact WHOLE]. do 3 f_equal. apply replaced_all. rewrite zlen_fill; lia.
  - intros w off d L (LD & M) B H1 H2 T. cbn [p_wr u5_port]. unfold u5_block. rewrite bounds_in by lia. cbn [negb]. low. replace (off + start - base) with (zlen pre + off) by lia. unfold around.
    rewrite ecc_in; [reflexivity|exact LD| |lia|lia|left; rewrite <- LD; exact T]. apply mod_add0; [lia| |exact M]. rewrite AT. apply (mod_mod0 _ sec); [lia|lia|exact SECW|now apply mod_sub0].
  - refine (clear_end pre post size (p_clr _) sec 255 _ _ _); [lia|lia|]. intros w L. cbn [p_clr u5_port]. rewrite u5_er; [reflexivity|exact L|lia|lia|lia|apply Z.mod_0_l; lia|apply Z_mod_same_full].
Qed.
Theorem u5_erases_sectors : erases_sectors (u5_port base start size sec W b2 fe) emb size 255 sec.
Proof. intros w off n L H1 H2 H3 M1 M2. now apply u5_er. Qed.
Theorem u5_refuses : refuses_reads (u5_port base start size sec W b2 fe) emb size /\ refuses_writes (u5_port base start size sec W b2 fe) emb size /\ refuses_erases (u5_port base start size sec W b2 fe) emb size.
Proof.
  split; [intros w off n _; now apply based_refuses|]. split.
  - intros w off d L H1 H2 H3 H4. pose proof (zlen_nonneg d). cbn [p_wr u5_port]. unfold u5_block. now rewrite bounds_out by lia.
  - intros w off n L H1 H2 H3 H4. cbn [p_er u5_port]. unfold u5_erase. now rewrite bounds_out by lia.
Qed.
End U5.

(** *** EFM32 *)
Section Em.
Variables (pre post : list Z) (base start size sec W : Z).
Notation emb := (around pre post).
Hypothesis BASE : 0 <= base.
Hypothesis AT : zlen pre = start - base.
Hypothesis FITS : start + size < 2 ^ 32.
Hypothesis POS : 0 < size.
Hypothesis SEC : 0 < sec.
Hypothesis AL : start mod 4 = 0.
Hypothesis WHOLE : size mod sec = 0.
Hypothesis SEC4 : sec mod 4 = 0.
Hypothesis WPOS : 0 < W.
Hypothesis W4 : W mod 4 = 0.
Lemma em_er w off n : zlen w = size -> 0 <= off -> 0 <= n -> off + n <= size -> off mod sec = 0 -> n mod sec = 0 ->
  em_erase base start size sec (emb w) off n = Some (true, emb (replaced w off (fill n 255))).
Proof.
  intros L H1 H2 H3 M1 M2. assert (AB : base <= start) by (pose proof (zlen_nonneg pre); lia). unfold em_erase. rewrite bounds_in by lia. rewrite M1, M2. change (0 =? 0) with true. cbn [negb orb]. low.
  rewrite (erase_loop_sectors (fun fl a => nor_erase fl (a - base) sec) emb 255 (start + off) sec n size off); try lia; try exact L; try exact M2; [| |apply Z.mod_0_l; lia].
  - cbn [bind]. do 3 f_equal. rewrite Z.sub_0_r, Z.add_0_r. reflexivity.
  - intros w0 k L0 K1 K2 K3. replace (start + off + k - base) with (zlen pre + (off + k)) by lia. unfold around. apply erase_in; lia.
Qed.
Theorem em_stores : stores (em_port base start size sec) emb size 255 (whole_blocks W).
Proof.
  assert (AB : base <= start) by (pose proof (zlen_nonneg pre); lia). pose proof (sec_le size sec POS SEC WHOLE) as SL. split; [intros w off n; now apply based_reads|]. split; [|split].
  - intros w L. cbn [p_er em_port]. rewrite em_er; [|exact L|lia|lia|lia|apply Z.mod_0_l; lia|exact WHOLE]. do 3 f_equal. apply replaced_all. rewrite zlen_fill; lia.
  - intros w off d L (LD & M) B H1 H2 T. cbn [p_wr em_port]. unfold em_block, msc_write. low. rewrite LD, W4. rewrite (mod_add0 start off 4), Z.eqb_refl by (try lia; try assumption; apply (mod_mod0 _ W); (lia || assumption)). cbn [negb orb].
    replace (start + off - base) with (zlen pre + off) by lia. unfold around. rewrite prog_in by (auto; lia). reflexivity.
  - assert (4 <= sec) by (pose proof (Z.div_mod sec 4 ltac:(lia)); lia). refine (clear_end pre post size (p_clr _) 4 0 _ _ _); [lia|lia|]. intros w L. cbn [p_clr em_port]. unfold msc_write. rewrite AL. change (zlen [0; 0; 0; 0] mod 4) with 0. change (0 =? 0) with true. cbn [negb orb].
    rewrite zeros4. replace (start - base) with (zlen pre + 0) by lia. unfold around. apply zero_in; lia.
Qed.
Theorem em_erases_sectors : erases_sectors (em_port base start size sec) emb size 255 sec.
Proof. intros w off n L H1 H2 H3 M1 M2. now apply em_er. Qed.
Theorem em_honest : honest_erases (em_port base start size sec) emb size 255.
Proof.
  intros w off n s L H1 H2 H3 H. assert (AB : base <= start) by (pose proof (zlen_nonneg pre); lia). cbn [p_er em_port] in H. destruct (negb (off mod sec =? 0) || negb (n mod sec =? 0)) eqn:Q.
  - exfalso. unfold em_erase in H. rewrite bounds_in in H by lia. cbn [negb] in H. rewrite Q in H. discriminate.
  - apply orb_false_iff in Q. destruct Q as (Q1 & Q2). rewrite em_er in H by lia. now injection H as <-.
Qed.
Theorem em_refuses : refuses_reads (em_port base start size sec) emb size /\ refuses_erases (em_port base start size sec) emb size.
Proof. split; [intros w off n _; now apply based_refuses|]. intros w off n L H1 H2 H3 H4. cbn [p_er em_port]. unfold em_erase. now rewrite bounds_out by lia. Qed.
End Em.

(** *** S32K1xx *)
Section S32Keeps.
Variables (pre post other : list Z) (size ps ds W : Z).
Hypothesis POS : 0 < size.
Hypothesis PS : 0 < ps.
Hypothesis DS : 0 < ds.
Hypothesis WPOS : 0 < W.
Hypothesis W8 : W mod 8 = 0.
Hypothesis SMALL : zlen pre + size + zlen post < 0x800000.
Notation flash w := (around pre post w).
Lemma phrases_wr (emb : list Z -> list Z * list Z) fa :
  (forall w off d, zlen w = size -> zlen d = 8 -> 0 <= off -> off + 8 <= size -> off mod 8 = 0 -> take 8 (drop off w) = fill 8 255 -> s32_phrase (emb w) (fa + off) d = Some (emb (replaced w off d))) ->
  0 <= fa -> fa + size < 2 ^ 32 ->
  forall n d w off, (length d <= n)%nat -> zlen d mod 8 = 0 -> off mod 8 = 0 -> zlen w = size -> 0 <= off -> off + zlen d <= size -> take (zlen d) (drop off w) = fill (zlen d) 255 ->
  phrases n (fa + off) d (emb w) = Some (emb (replaced w off d)).
Proof.
  clear SMALL W8 WPOS DS PS. intros PH F1 F2. induction n as [|n IH]; intros d w off N M M2 L H1 H2 T.
  - destruct d; [|cbn in N; lia]. cbn. now rewrite replaced_nil.
  - destruct d as [|x d]; [cbn; now rewrite replaced_nil|]. cbn [phrases]. set (D := x :: d) in *. assert (LD0 : 0 < zlen D) by (apply nonempty; discriminate).
    assert (K : 8 <= zlen D) by (pose proof (Z.div_mod (zlen D) 8 ltac:(lia)); lia).
    assert (LT : zlen (take 8 D) = 8) by (rewrite zlen_take; lia). assert (LD : zlen (drop 8 D) = zlen D - 8) by (rewrite zlen_drop; lia).
    destruct (target_split w off 8 (zlen D - 8) 255 H1 ltac:(lia) ltac:(lia)) as (T1 & T2); [replace (8 + (zlen D - 8)) with (zlen D) by lia; exact T|].
    rewrite PH; [|exact L|exact LT|lia|lia|exact M2|exact T1]. cbn [bind]. rewrite (u32_id (fa + off + 8)) by (unfold is_u32; lia). rewrite <- Z.add_assoc.
    rewrite IH; [|unfold zlen in *; lia|rewrite LD; apply mod_sub0; [lia|exact M|reflexivity]|apply mod_add0; [lia|exact M2|reflexivity]|rewrite replaced_len by lia; exact L|lia|lia|rewrite LD, replaced_later by lia; exact T2].
    do 2 f_equal. replace (off + 8) with (off + zlen (take 8 D)) by lia. rewrite replaced_twice by lia. now rewrite take_drop.
Qed.
Lemma flash_len w : zlen w = size -> zlen (flash w) = zlen pre + size + zlen post.
Proof. intros L. unfold around. rewrite !zlen_app. lia. Qed.

(** in program flash *)
Section Program.
Notation start := (zlen pre).
Notation stop := (zlen pre + size).
Notation emb := (fun w => (flash w, other)).
Hypothesis SELF : start mod size = 0.
Hypothesis WHOLE : size mod ps = 0.
Hypothesis AT8 : start mod 8 = 0.
Hypothesis TAIL : start + 2 * (size - W) + W <= start + size + zlen post.
Lemma pf_nonneg : 0 <= start /\ 0 <= zlen post.
Proof. split; apply zlen_nonneg. Qed.
Lemma pf_lookup w a e : zlen w = size -> 0 <= a -> e <= start + size + zlen post -> s32_lookup ps ds (emb w) a e = Some (ps, a).
Proof. intros L H1 H2. unfold s32_lookup. cbn [fst]. rewrite flash_len by exact L. now replace ((0 <=? a) && (e <=? start + size + zlen post)) with true by lia. Qed.
Lemma pf_sector w k : zlen w = size -> 0 <= k -> k + ps <= size -> k mod ps = 0 -> s32_sector ps ds (emb w) (start + k) = Some (emb (replaced w k (fill ps 255))).
Proof.
  intros L H1 H2 M. destruct pf_nonneg as (P1 & P2). unfold s32_sector. cbn [fst snd]. rewrite Z.mod_small by lia. replace (start + k <? 0x800000) with true by lia.
  assert (MS : start mod ps = 0) by (apply (mod_mod0 _ size); assumption). rewrite div_mul0 by (try exact PS; now apply mod_add0). unfold around. rewrite erase_in by lia. reflexivity.
Qed.
Lemma pf_er w : zlen w = size -> s32_erase start ps ds (emb w) 0 size = Some (true, emb (fill size 255)).
Proof.
  intros L. destruct pf_nonneg as (P1 & P2). unfold s32_erase. rewrite Z.add_0_r. rewrite !(u32_id start), (u32_id (start + size)) by (unfold is_u32; lia). rewrite pf_lookup by lia.
  replace (size =? 0) with false by lia. rewrite Z.add_0_r, u32_id by (unfold is_u32; lia). rewrite SELF, WHOLE. change (0 =? 0) with true. cbn [negb orb].
  pose proof (erase_loop_sectors (s32_sector ps ds) emb 255 start ps size size 0 PS WHOLE P1 ltac:(lia) ltac:(lia) ltac:(lia)) as EL. cbn beta in EL.
  rewrite EL; [|intros w0 k L0 K1 K2 K3; rewrite Z.add_0_l; now apply pf_sector|exact L|lia|apply Z.mod_0_l; lia|lia]. cbn [bind]. do 4 f_equal. rewrite Z.sub_0_r. change (0 + 0) with 0. apply replaced_all. rewrite zlen_fill; lia.
Qed.
Theorem pf_stores : stores (s32_port start stop ps ds) emb size 255 (whole_blocks W).
Proof.
  destruct pf_nonneg as (P1 & P2). split; [|split; [exact pf_er|split]].
  - intros w off n L H1 H2 H3. cbn [p_rd s32_port]. unfold s32_read, DF_BASE. replace (start + size - start) with size by lia. rewrite (u32_id size) by (unfold is_u32; lia). rewrite bounds_in by lia. cbn [negb].
    rewrite (u32_id (start + off)) by (unfold is_u32; lia). replace (start + off <? 0x10000000) with true by lia. cbn [fst]. unfold around. rewrite read_in by lia. reflexivity.
  - intros w off d L (LD & M) B H1 H2 T. cbn [p_wr s32_port]. unfold s32_block. assert (OW : off <= size - W) by lia. rewrite (u32_id (start + off)) by (unfold is_u32; lia). rewrite (u32_id (start + off + off)) by (unfold is_u32; lia). rewrite (u32_id (_ + zlen d)) by (unfold is_u32; lia).
    rewrite pf_lookup by lia. rewrite LD, W8. change (0 =? 0) with true. cbn [negb].
    rewrite (phrases_wr emb start); [reflexivity| |lia|lia|lia|rewrite LD; exact W8|apply (mod_mod0 _ W); (lia || assumption)|exact L|exact H1|exact H2|exact T].
    intros w0 o d0 L0 LD0 O1 O2 O3 T0. unfold s32_phrase. cbn [fst snd]. rewrite Z.mod_small by lia. replace (start + o <? 0x800000) with true by lia. unfold around. rewrite ecc_in; [reflexivity|exact LD0|now apply mod_add0|lia|lia|left; exact T0].
  - intros w L _. pose proof (sec_le size ps POS PS WHOLE) as SL. exists (replaced w 0 (fill ps 255)). split; [|rewrite <- L; apply cleared_by; lia].
    cbn [p_clr s32_port]. unfold s32_clear. rewrite pf_lookup by lia. rewrite <- (Z.add_0_r start). apply pf_sector; [exact L|lia|lia|apply Z.mod_0_l; lia].
Qed.
End Program.

(** in data flash *)
Section Data.
Notation start := (DF_BASE + zlen pre).
Notation stop := (DF_BASE + zlen pre + size).
Notation emb := (fun w => (other, flash w)).
Hypothesis OTHER : zlen other < 0x800000.
Hypothesis SELF : start mod size = 0.
Hypothesis WHOLE : size mod ds = 0.
Hypothesis ATDS : zlen pre mod ds = 0.
Hypothesis AT8 : zlen pre mod 8 = 0.
Hypothesis TAIL : zlen pre + 2 * (size - W) + W <= zlen pre + size + zlen post.
Lemma df_nonneg : 0 <= zlen pre /\ 0 <= zlen post.
Proof. split; apply zlen_nonneg. Qed.
Lemma df_lookup w a e : zlen w = size -> 0 <= a -> DF_BASE <= e <= DF_BASE + zlen pre + size + zlen post -> DF_BASE <= a < DF_BASE + 0x800000 -> s32_lookup ps ds (emb w) a e = Some (ds, a - DF_BASE + 0x800000).
Proof.
  intros L H0 H1 H2. unfold s32_lookup. cbn [fst snd]. rewrite flash_len by exact L. unfold DF_BASE in *. replace (e <=? zlen other) with false by lia. rewrite andb_false_r.
  replace ((0x10000000 <=? a) && (e <=? 0x10000000 + (zlen pre + size + zlen post))) with true by lia. rewrite u32_id by (unfold is_u32; lia). do 2 f_equal. lia.
Qed.
Lemma df_sector w k : zlen w = size -> 0 <= k -> k + ds <= size -> k mod ds = 0 -> s32_sector ps ds (emb w) (0x800000 + zlen pre + k) = Some (emb (replaced w k (fill ds 255))).
Proof.
  intros L H1 H2 M. destruct df_nonneg as (P1 & P2). unfold s32_sector. cbn [fst snd]. rewrite Z.mod_small by lia. replace (0x800000 + zlen pre + k <? 0x800000) with false by lia.
  replace (0x800000 + zlen pre + k - 0x800000) with (zlen pre + k) by lia. rewrite div_mul0 by (try exact DS; now apply mod_add0). unfold around. rewrite erase_in by lia. reflexivity.
Qed.
Lemma df_er w : zlen w = size -> s32_erase start ps ds (emb w) 0 size = Some (true, emb (fill size 255)).
Proof.
  intros L. destruct df_nonneg as (P1 & P2). unfold s32_erase. rewrite Z.add_0_r. rewrite !(u32_id start), (u32_id (start + size)) by (unfold is_u32, DF_BASE; lia). rewrite df_lookup by (unfold DF_BASE; lia).
  replace (size =? 0) with false by lia. rewrite Z.add_0_r, u32_id by (unfold is_u32, DF_BASE; lia). rewrite SELF, WHOLE. change (0 =? 0) with true. cbn [negb orb].
  replace (start - DF_BASE + 0x800000) with (0x800000 + zlen pre) by lia.
  pose proof (erase_loop_sectors (s32_sector ps ds) emb 255 (0x800000 + zlen pre) ds size size 0 DS WHOLE ltac:(lia) ltac:(lia) ltac:(lia) ltac:(lia)) as EL. cbn beta in EL.
  rewrite EL; [|intros w0 k L0 K1 K2 K3; rewrite Z.add_0_l; now apply df_sector|exact L|lia|apply Z.mod_0_l; lia|lia]. cbn [bind]. do 4 f_equal. rewrite Z.sub_0_r. change (0 + 0) with 0. apply replaced_all. rewrite zlen_fill; lia.
Qed.
Theorem df_stores : stores (s32_port start stop ps ds) emb size 255 (whole_blocks W).
Proof.
  destruct df_nonneg as (P1 & P2). split; [|split; [exact df_er|split]].
  - intros w off n L H1 H2 H3. cbn [p_rd s32_port]. unfold s32_read. replace (start + size - start) with size by lia. rewrite (u32_id size) by (unfold is_u32; lia). rewrite bounds_in by lia. cbn [negb].
    rewrite (u32_id (start + off)) by (unfold is_u32, DF_BASE; lia). replace (start + off <? DF_BASE) with false by lia. cbn [snd]. replace (start + off - DF_BASE) with (zlen pre + off) by lia. unfold around. rewrite read_in by lia. reflexivity.
  - intros w off d L (LD & M) B H1 H2 T. cbn [p_wr s32_port]. unfold s32_block. assert (OW : off <= size - W) by lia. rewrite (u32_id (start + off)) by (unfold is_u32, DF_BASE; lia). rewrite (u32_id (start + off + off)) by (unfold is_u32, DF_BASE; lia). rewrite (u32_id (_ + zlen d)) by (unfold is_u32, DF_BASE; lia).
    rewrite df_lookup by (unfold DF_BASE; lia). rewrite LD, W8. change (0 =? 0) with true. cbn [negb]. replace (start + off - DF_BASE + 0x800000) with (0x800000 + zlen pre + off) by lia.
    rewrite (phrases_wr emb (0x800000 + zlen pre)); [reflexivity| |lia|lia|lia|rewrite LD; exact W8|apply (mod_mod0 _ W); (lia || assumption)|exact L|exact H1|exact H2|exact T].
    intros w0 o d0 L0 LD0 O1 O2 O3 T0. unfold s32_phrase. cbn [fst snd]. rewrite Z.mod_small by lia. replace (0x800000 + zlen pre + o <? 0x800000) with false by lia. replace (0x800000 + zlen pre + o - 0x800000) with (zlen pre + o) by lia.
    unfold around. rewrite ecc_in; [reflexivity|exact LD0|now apply mod_add0|lia|lia|left; exact T0].
  - intros w L _. pose proof (sec_le size ds POS DS WHOLE) as SL. exists (replaced w 0 (fill ds 255)). split; [|rewrite <- L; apply cleared_by; lia].
    cbn [p_clr s32_port]. unfold s32_clear. rewrite df_lookup by (unfold DF_BASE; lia). replace (start - DF_BASE + 0x800000) with (0x800000 + zlen pre + 0) by lia. apply df_sector; [exact L|lia|lia|apply Z.mod_0_l; lia].
Qed.
End Data.
End S32Keeps.

(** ** Clearing next to the SoftDevice *)
Definition word_zero (start : Z) (fl : list Z) : Prop := read_at fl start 4 = Some (fill 4 0).
Lemma prog_zero fl a fl' : nor_prog fl a [0; 0; 0; 0] = Some fl' -> word_zero a fl'.
Proof.
  unfold nor_prog. intros H. apply bind_inv in H. destruct H as (old & R & H). change (zlen [0; 0; 0; 0]) with 4 in R. apply read_at_inv in R. destruct R as (R1 & _ & R3 & RE & R4).
  change [0; 0; 0; 0] with (fill 4 0) in H. rewrite and_zeros in H by exact R4. apply splice_inv in H. destruct H as (_ & H). change (zlen (fill 4 0)) with 4 in H. destruct H as (HL & ->).
  unfold word_zero. rewrite read_at_some; [|lia|lia|rewrite !zlen_app, zlen_take, zlen_drop; change (zlen (fill 4 0)) with 4; lia]. f_equal.
  rewrite drop_app_exact by (rewrite zlen_take; lia). apply take_app_exact. reflexivity.
Qed.
Lemma nrf_clear_after start sd err s s' : nrf_sd_clear start sd err s = Some s' ->
  (sd = true /\ nr_state s' <> NIdle /\ nr_flash s' = nr_flash s) \/ (sd = false /\ word_zero start (nr_flash s') /\ nr_state s' = nr_state s /\ nr_op s' = nr_op s).
Proof.
  unfold nrf_sd_clear. destruct sd.
  - intros H. left. destruct (nr_op s); [|destruct err]; injection H as <-; (split; [reflexivity|]; split; [discriminate|reflexivity]).
  - intros H. apply bind_inv in H. destruct H as (f & E & H). injection H as <-. right. split; [reflexivity|]. split; [now apply (prog_zero _ _ _ E)|]. auto.
Qed.
Definition nrf_calm (ev : nrf_event) : Prop := ev <> EvOff.
Definition nrf_prior (start : Z) (s : nrf) : Prop := nr_state s = NInProgress -> nr_op s = Some OpClear \/ word_zero start (nr_flash s).
Definition nrf_later (start : Z) (s : nrf) : Prop := nrf_prior start s /\ (nr_state s = NIdle -> word_zero start (nr_flash s)).
Lemma sd_clear_prior start sd err s s' : nrf_prior start s -> nrf_sd_clear start sd err s = Some s' -> nrf_later start s'.
Proof.
  intros P H. unfold nrf_sd_clear in H. destruct sd.
  - destruct (nr_op s); [injection H as <-; split; [intros Q; discriminate|intros Q; discriminate]|]. destruct err; injection H as <-; (split; [intros Q; (discriminate || (left; reflexivity))|intros Q; discriminate]).
  - apply bind_inv in H. destruct H as (f & E & H). injection H as <-. apply prog_zero in E. split; [intros _; right; exact E|intros _; exact E].
Qed.
(** completing an operation: [Z] is whether the word is known to be zero already *)
Lemma done_step start success sd err s s' (later : bool) : nrf_prior start s -> (later = true -> nrf_later start s) ->
  nrf_step start (EvDone success sd err) s = Some s' -> nrf_prior start s' /\ (later = true -> nrf_later start s').
Proof.
  intros P LT H. cbn [nrf_step] in H. destruct (nr_op s) as [op|] eqn:EO; [|injection H as <-; auto].
  apply bind_inv in H. destruct H as (f & E & H).
  assert (ZK : word_zero start (nr_flash s) -> word_zero start f) by (intros Q; destruct op, success; try (injection E as <-; exact Q); now apply prog_zero in E).
  assert (ZD : op = OpClear -> success = true -> word_zero start f) by (intros -> ->; now apply prog_zero in E).
  unfold nrf_op_complete in H. cbn [nr_state] in H.
  destruct (nr_state s) eqn:ES.
  - injection H as <-. split; [intros Q; discriminate|]. intros LQ. split; [intros Q; discriminate|]. intros _. cbn [nr_flash]. apply ZK. now apply (LT LQ).
  - assert (H2 : nrf_sd_clear start sd err (mk_nrf f NRequested None) = Some s') by (destruct success; exact H). apply sd_clear_prior in H2; [split; [exact (proj1 H2)|auto]|intros Q; discriminate].
  - destruct success.
    + injection H as <-. split; [intros Q; discriminate|]. intros _. split; [intros Q; discriminate|]. intros _. cbn [nr_flash]. destruct (P ES) as [Q|Q]; [rewrite EO in Q; injection Q as ->; now apply ZD|now apply ZK].
    + assert (H2 := H). unfold nrf_sd_clear in H2. destruct sd.
      * cbn [nr_op] in H2. destruct err; injection H2 as <-; (split; [intros Q; (discriminate || (left; reflexivity))|intros _; split; [intros Q; (discriminate || (left; reflexivity))|intros Q; discriminate]]).
      * apply bind_inv in H2. destruct H2 as (g & E2 & H2). injection H2 as <-. apply prog_zero in E2. split; [intros _; right; exact E2|]. intros _. split; [intros _; right; exact E2|intros _; exact E2].
Qed.
Lemma step_prior start ev s s' : ev <> EvOff -> nrf_prior start s -> nrf_step start ev s = Some s' -> nrf_prior start s'.
Proof.
  intros N P H. destruct ev as [sd err| |success sd err|]; [|injection H as <-|exact (proj1 (done_step start success sd err s s' false P ltac:(discriminate) H))|congruence].
  - exact (proj1 (sd_clear_prior _ _ _ _ _ P H)).
  - destruct (nr_op s) eqn:E; [exact P|]. intros Q. cbn [nr_state] in Q. destruct (P Q) as [X|X]; [congruence|right; exact X].
Qed.
Lemma step_later start ev s s' : ev <> EvOff -> nrf_later start s -> nrf_step start ev s = Some s' -> nrf_later start s'.
Proof.
  intros N P H. destruct ev as [sd err| |success sd err|]; [|injection H as <-|exact (proj2 (done_step start success sd err s s' true (proj1 P) (fun _ => P) H) eq_refl)|congruence].
  - exact (sd_clear_prior _ _ _ _ _ (proj1 P) H).
  - destruct P as (P & Z). destruct (nr_op s) eqn:E; [split; [exact P|exact Z]|]. split; [|intros Q; exact (Z Q)]. intros Q. cbn [nr_state] in Q. destruct (P Q) as [X|X]; [congruence|right; exact X].
Qed.
Lemma run_prior start l : forall s s', Forall nrf_calm l -> nrf_prior start s -> nrf_run start l s = Some s' -> nrf_prior start s'.
Proof. induction l as [|ev l IH]; intros s s' F P H; cbn [nrf_run] in H; [now injection H as <-|]. apply bind_inv in H. destruct H as (s1 & E & H). exact (IH _ _ (Forall_inv_tail F) (step_prior _ _ _ _ (Forall_inv F) P E) H). Qed.
Lemma run_later start l : forall s s', Forall nrf_calm l -> nrf_later start s -> nrf_run start l s = Some s' -> nrf_later start s'.
Proof. induction l as [|ev l IH]; intros s s' F P H; cbn [nrf_run] in H; [now injection H as <-|]. apply bind_inv in H. destruct H as (s1 & E & H). exact (IH _ _ (Forall_inv_tail F) (step_later _ _ _ _ (Forall_inv F) P E) H). Qed.
Lemma run_app start a : forall b s, nrf_run start (a ++ b) s = do s <- nrf_run start a s; nrf_run start b s.
Proof. induction a as [|ev a IH]; intros b s; [reflexivity|]. cbn [app nrf_run]. destruct (nrf_step start ev s); [apply IH|reflexivity]. Qed.
Theorem nrf_no_coredump start size before sd err after s0 s : 0 <= start < 2 ^ 32 -> nr_state s0 = NIdle -> Forall (fun ev => ev <> EvOff) before -> Forall (fun ev => ev <> EvOff) after ->
  nrf_run start (before ++ EvClear sd err :: after) s0 = Some s ->
  forall h, nrf_coredump_read start size s 0 12 = Some (Some h) -> cd_header_valid h = false.
Proof.
  intros HS I F1 F2 H h R. rewrite run_app in H. apply bind_inv in H. destruct H as (s1 & H1 & H). cbn [nrf_run nrf_step] in H. apply bind_inv in H. destruct H as (s2 & H2 & H).
  assert (P1 : nrf_prior start s1) by (apply (run_prior start before s0); [exact F1|intros Q; congruence|exact H1]).
  pose proof (run_later start after s2 s F2 (sd_clear_prior _ _ _ _ _ P1 H2) H) as (_ & Z).
  unfold nrf_coredump_read in R. destruct (nr_state s); [|discriminate|discriminate]. specialize (Z eq_refl).
  unfold mapped_read in R. destruct (in_bounds size 0 12); [|discriminate]. cbn [negb] in R. rewrite Z.add_0_r, u32_id in R by (unfold is_u32; lia). apply bind_inv in R. destruct R as (d & E & R). injection R as <-.
  unfold word_zero in Z. apply read_at_inv in Z. destruct Z as (_ & _ & _ & Z & _). apply read_at_inv in E. destruct E as (_ & _ & _ & -> & _). unfold cd_header_valid. rewrite take_take. change (Z.min 4 12) with 4. rewrite <- Z.
  match goal with |- context [list_eq_dec ?a ?b ?c] => destruct (list_eq_dec a b c) as [Q|Q]; [discriminate|reflexivity] end.
Qed.
Lemma prog_zero_some fl a : 0 <= a -> a + 4 <= zlen fl -> exists fl', nor_prog fl a [0; 0; 0; 0] = Some fl' /\ zlen fl' = zlen fl.
Proof.
  intros H1 H2. unfold nor_prog. change (zlen [0; 0; 0; 0]) with 4. rewrite read_at_some by lia. cbn [bind]. rewrite splice_some by (rewrite ?and_len, ?zlen_take, ?zlen_drop; change (zlen [0; 0; 0; 0]) with 4; lia). eexists. split; [reflexivity|].
  rewrite !zlen_app, and_len, zlen_take, !zlen_drop, zlen_take, zlen_drop. change (zlen [0; 0; 0; 0]) with 4. lia.
Qed.
Lemma retries start n : forall fl, nrf_run start (repeat (EvDone false true false) n) (mk_nrf fl NInProgress (Some OpClear)) = Some (mk_nrf fl NInProgress (Some OpClear)).
Proof. induction n as [|n IH]; intros fl; [reflexivity|]. cbn [repeat nrf_run nrf_step nr_op nr_flash nr_state bind]. unfold nrf_op_complete, nrf_sd_clear. cbn [nr_state nr_op nr_flash bind]. apply IH. Qed.
Theorem nrf_clear_completes start b n s : 0 <= start -> start + 4 <= zlen (nr_flash s) ->
  exists s', nrf_run start (EvClear true false :: (match nr_op s with Some _ => [EvDone b true false] | None => [] end) ++ repeat (EvDone false true false) n ++ [EvDone true true false]) s = Some s' /\
    nr_state s' = NIdle /\ nr_op s' = None /\ read_at (nr_flash s') start 4 = Some [0; 0; 0; 0].
Proof.
  intros H1 H2. assert (END : forall fl, start + 4 <= zlen fl -> exists s', nrf_run start (repeat (EvDone false true false) n ++ [EvDone true true false]) (mk_nrf fl NInProgress (Some OpClear)) = Some s' /\
    nr_state s' = NIdle /\ nr_op s' = None /\ read_at (nr_flash s') start 4 = Some [0; 0; 0; 0]).
  { intros fl L. rewrite run_app, retries. cbn [bind nrf_run nrf_step nr_op nr_flash nr_state]. destruct (prog_zero_some fl start H1 L) as (f & E & _). rewrite E. cbn [bind]. unfold nrf_op_complete. cbn [nr_state bind]. eexists. split; [reflexivity|].
    split; [reflexivity|]. split; [reflexivity|]. cbn [nr_flash]. now apply prog_zero in E. }
  cbn [nrf_run nrf_step]. unfold nrf_sd_clear at 1. destruct (nr_op s) as [op|] eqn:EO; cbn [bind].
  - cbn [app nrf_run nrf_step nr_op nr_flash nr_state]. destruct op, b; cbn [bind]; unfold nrf_op_complete, nrf_sd_clear; cbn [nr_state nr_op nr_flash bind]; try (apply END; exact H2).
    destruct (prog_zero_some (nr_flash s) start H1 H2) as (f & E & LF). rewrite E. cbn [bind nr_state nr_op nr_flash]. apply END. lia.
  - cbn [app]. apply END. exact H2.
Qed.
