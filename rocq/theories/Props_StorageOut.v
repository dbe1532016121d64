(** C72, on the ESP8266: writes are in pieces, so a write that reaches out of the storage may write the first ones. *)
From Verif Require Import Base StoragePorts StoragePortsSpec StoragePortsProofs StoragePortsKeep.

Lemma nor_prog_any pre post w off d : 0 <= off -> off + zlen d <= zlen w ->
  exists w', nor_prog (pre ++ w ++ post) (zlen pre + off) d = Some (pre ++ w' ++ post) /\ zlen w' = zlen w
    /\ take off w' = take off w /\ drop (off + zlen d) w' = drop (off + zlen d) w.
Proof.
  intros H1 H2. pose proof (zlen_nonneg d). unfold nor_prog. rewrite read_in by lia. cbn [bind].
  set (x := and_bytes (take (zlen d) (drop off w)) d).
  assert (X : zlen x = zlen d) by (unfold x; rewrite and_len, zlen_take, zlen_drop; lia).
  exists (replaced w off x). rewrite splice_in by lia. split; [reflexivity|]. split; [apply replaced_len; lia|].
  unfold replaced. rewrite X. split.
  - rewrite take_app_le by (rewrite zlen_take; lia). apply take_all. rewrite zlen_take. lia.
  - rewrite app_assoc, drop_app_ge by (rewrite zlen_app, zlen_take; lia). rewrite zlen_app, zlen_take, X.
    replace (off + zlen d - _) with 0 by lia. now rewrite drop_0.
Qed.

Lemma writes_out pre post size : zlen pre + size < 2 ^ 32 -> forall n d w off, (length d <= n)%nat -> zlen w = size -> d <> [] -> 0 <= off ->
  size < off + zlen d -> off + zlen d < 2 ^ 32 ->
  exists w', esp8266_writes (zlen pre) size n off d (pre ++ w ++ post) = Some (false, pre ++ w' ++ post) /\ zlen w' = size /\ take off w' = take off w.
Proof.
  intros FITS. pose proof (zlen_nonneg pre). induction n as [|n IH]; intros d w off N L D H1 H2 H3.
  - destruct d; [contradiction|cbn in N; lia].
  - destruct d as [|x d]; [contradiction|]. cbn [esp8266_writes]. set (E := x :: d) in *. assert (0 < zlen E) by (unfold E; rewrite zlen_cons; pose proof (zlen_nonneg d); lia).
    assert (LT : zlen (take 4096 E) = Z.min 4096 (zlen E)) by (rewrite zlen_take; lia). unfold spi_write.
    destruct (Z_le_gt_dec (off + zlen (take 4096 E)) size) as [Q|Q].
    + rewrite bounds_in by lia. cbn [negb]. rewrite u32_id by (unfold is_u32; lia).
      destruct (nor_prog_any pre post w off (take 4096 E) H1 ltac:(lia)) as (w1 & -> & L1 & T1 & _). cbn [bind fst snd].
      assert (LD : zlen (drop 4096 E) = zlen E - 4096) by (rewrite zlen_drop; lia).
      rewrite u32_id by (unfold is_u32; lia).
      destruct (IH (drop 4096 E) w1 (off + 4096)) as (w2 & E2 & L2 & T2); try lia.
      * unfold zlen in *. lia.
      * intros C. rewrite C, zlen_nil in LD. lia.
      * exists w2. split; [exact E2|]. split; [exact L2|]. rewrite <- T1.
        replace (take off w2) with (take off (take (off + 4096) w2)) by (rewrite take_take; f_equal; lia).
        rewrite T2, take_take. f_equal. lia.
    + rewrite bounds_out by lia. cbn [negb bind fst snd]. eauto.
Qed.

(** Such a write is reported as failed, and changes nothing outside the storage or before it in the storage. *)
Theorem C72_esp8266_write_out_of_bounds : forall pre post size sec w off d, zlen pre + size < 2 ^ 32 -> zlen w = size -> d <> [] -> 0 <= off ->
  size < off + zlen d -> off + zlen d < 2 ^ 32 ->
  exists w', p_wr (esp8266_port (zlen pre) size sec) (pre ++ w ++ post) off d = Some (false, pre ++ w' ++ post) /\ zlen w' = size /\ take off w' = take off w.
Proof. intros pre post size sec w off d H L D H1 H2 H3. exact (writes_out pre post size H (length d) d w off (le_n _) L D H1 H2 H3). Qed.
Print Assumptions C72_esp8266_write_out_of_bounds.
(** The storage itself is changed. *)
Theorem C72_esp8266_write_unchanged_refuted : ~ (forall pre post size sec, 0 < size -> zlen pre + size < 2 ^ 32 ->
  refuses_writes (esp8266_port (zlen pre) size sec) (fun w => pre ++ w ++ post) size).
Proof.
  intros H. specialize (H [] [] 4096 4096 ltac:(lia) ltac:(reflexivity) (fill 4096 255) 0 (fill 4097 1) ltac:(reflexivity) ltac:(lia) ltac:(vm_compute; discriminate)
    ltac:(vm_compute; reflexivity) ltac:(vm_compute; reflexivity)). vm_compute in H. discriminate.
Qed.
Print Assumptions C72_esp8266_write_unchanged_refuted.
Example C72_esp8266_case :
  p_wr (esp8266_port 1 4100 4096) ([7] ++ fill 4100 255 ++ [9]) 3 (fill 4098 1) = Some (false, [7] ++ (fill 3 255 ++ fill 4096 1 ++ [255]) ++ [9]).
Proof. vm_compute. reflexivity. Qed.
