From Verif Require Import Base CircularBuffer CircularBufferSpec CircularBufferProofs Cbor CborProofs
  EventStorage EventStorageSpec.

Lemma u32_in x : 0 <= x < 4294967296 -> u32 x = x.
Proof. apply u32_id. Qed.

Definition ev_bytes (e : list Z) : list Z := hdr_bytes (2 + zlen e) ++ e.
Definition enc (l : list (list Z)) : list Z := concat (map ev_bytes l).
Definition part_bytes (p : option (list Z)) : list Z :=
  match p with Some d => hdr_bytes in_progress_mark ++ d | None => [] end.
Definition ev_fine (e : list Z) : Prop := bytes e /\ 1 <= zlen e <= 65532.

Lemma hdr_roundtrip v : 0 <= v < 65536 -> hdr_value (hdr_bytes v) = v.
Proof. intros. unfold hdr_value, hdr_bytes. rewrite (Z.mod_small (v / 256)) by (split; [apply Z.div_pos; lia|apply Z.div_lt_upper_bound; lia]).
  pose proof (Z.div_mod v 256). lia. Qed.
Lemma hdr_bytes_bytes v : bytes (hdr_bytes v).
Proof. unfold hdr_bytes. repeat constructor; unfold is_u8; apply Z.mod_pos_bound; lia. Qed.
Lemma hdr_bytes_len v : zlen (hdr_bytes v) = 2. Proof. reflexivity. Qed.
Lemma ev_bytes_len e : zlen (ev_bytes e) = 2 + zlen e.
Proof. unfold ev_bytes. now rewrite zlen_app. Qed.
Lemma cost_cons e l : cost (e :: l) = 2 + zlen e + cost l.
Proof. unfold cost. cbn [concat]. rewrite zlen_app, zlen_cons. lia. Qed.
Lemma cost_app a b : cost (a ++ b) = cost a + cost b.
Proof. unfold cost. rewrite concat_app, !zlen_app. lia. Qed.
Lemma cost_nil : cost [] = 0. Proof. reflexivity. Qed.
Lemma cost_nonneg l : 0 <= cost l.
Proof. unfold cost. pose proof (zlen_nonneg (concat l)). pose proof (zlen_nonneg l). lia. Qed.
Lemma enc_len l : zlen (enc l) = cost l.
Proof. induction l as [|e l IH]; [reflexivity|]. rewrite cost_cons. unfold enc in *. cbn [map concat].
  rewrite zlen_app, ev_bytes_len, IH. lia. Qed.
Lemma enc_app a b : enc (a ++ b) = enc a ++ enc b.
Proof. unfold enc. now rewrite map_app, concat_app. Qed.
Lemma enc_cons e l : enc (e :: l) = hdr_bytes (2 + zlen e) ++ e ++ enc l.
Proof. unfold enc. cbn [map concat]. unfold ev_bytes at 1. now rewrite <- app_assoc. Qed.
Lemma part_len p : zlen (part_bytes p) = match p with Some d => 2 + zlen d | None => 0 end.
Proof. destruct p; [|reflexivity]. cbn [part_bytes]. now rewrite zlen_app. Qed.
Lemma cost_zlen l : Forall ev_fine l -> 3 * zlen l <= cost l.
Proof. induction 1 as [|e l [_ H] Hl IH]; [reflexivity|]. rewrite cost_cons, zlen_cons. lia. Qed.
Lemma cost_take_drop k l : cost (take k l) + cost (drop k l) = cost l.
Proof. rewrite <- cost_app. now rewrite take_drop. Qed.

Lemma cb_read2 c a d rest : cb_wf c -> content c = a ++ d ++ rest ->
  cb_read c (zlen a) (zlen d) = Some (Some d).
Proof.
  intros W C. pose proof (content_len c W) as L. rewrite C, !zlen_app in L. pose proof W as (H1 & _ & _ & H4 & _).
  pose proof (zlen_nonneg a). pose proof (zlen_nonneg d). pose proof (zlen_nonneg rest).
  rewrite cb_read_ok by (try assumption; lia). replace (_ <=? _) with true by lia.
  rewrite C, drop_app_exact, take_app_exact by reflexivity. reflexivity.
Qed.
Lemma cb_read2' c a d rest off n : cb_wf c -> content c = a ++ d ++ rest -> off = zlen a -> n = zlen d ->
  cb_read c off n = Some (Some d).
Proof. intros W C -> ->. eapply cb_read2; eassumption. Qed.

Lemma es_total_eq a n h : 0 <= n -> 0 <= a -> 0 <= h -> a + h < 4294967296 -> 2 * n <= a + h ->
  es_total a n h = if n =? 0 then 0 else a + h - 2 * n.
Proof.
  intros. unfold es_total. destruct (n =? 0) eqn:E; [reflexivity|].
  rewrite (u32_in (a + h)) by lia. rewrite (u32_in (n * 2)) by lia. rewrite u32_in by lia. lia.
Qed.

Definition fits_all max l a b := forall j, a < j <= b -> fits max l j = true.

(** What the scan stops at. *)
Definition stops (cfg : es_cfg) (l : list (list Z)) (k : Z) : Prop :=
  match cfg with
  | None => k = Z.min 1 (zlen l)
  | Some max => fits_all max l 0 k /\ (k < zlen l -> fits max l (k + 1) = false)
  end.

Lemma scan_ok cfg c p : forall rest pre fuel, cb_wf c -> content c = enc (pre ++ rest) ++ part_bytes p ->
  Forall ev_fine (pre ++ rest) -> (length rest < fuel)%nat ->
  match cfg with None => pre = [] | Some max => fits_all max (pre ++ rest) 0 (zlen pre) end ->
  exists k, es_scan fuel cfg c (zlen pre) (cost pre) = Some (k, cost (take k (pre ++ rest))) /\
    0 <= k <= zlen (pre ++ rest) /\ stops cfg (pre ++ rest) k.
Proof.
  induction rest as [|e rest IH]; intros pre fuel W C F Hf Hc.
  - rewrite app_nil_r in *. destruct fuel; [cbn in Hf; lia|]. cbn [es_scan].
    pose proof (content_len c W) as L. pose proof W as (W1 & _ & _ & W4 & _).
    rewrite C, zlen_app, enc_len, part_len in L. pose proof (cost_nonneg pre).
    assert (G : stops cfg pre (zlen pre)).
    { unfold stops. destruct cfg; [split; [assumption|lia]|]. subst pre. reflexivity. }
    exists (zlen pre). pose proof (zlen_nonneg pre). rewrite (take_all (zlen pre)) by lia.
    split; [|split; [lia|exact G]].
    destruct p as [d|].
    + rewrite (cb_read2' c (enc pre) (hdr_bytes in_progress_mark) d) by (try assumption; try (rewrite enc_len; reflexivity); reflexivity).
      cbn [bind]. rewrite hdr_roundtrip by (unfold in_progress_mark; lia). reflexivity.
    + rewrite cb_read_ok by (try assumption; lia). replace (_ <=? _) with false by lia. reflexivity.
  - destruct fuel; [cbn in Hf; lia|]. cbn [es_scan]. cbn [length] in Hf.
    pose proof (content_len c W) as L. pose proof W as (W1 & _ & _ & W4 & _).
    rewrite C, zlen_app, enc_len, part_len, cost_app, cost_cons in L.
    pose proof (cost_nonneg pre). pose proof (cost_nonneg rest). pose proof (zlen_nonneg pre).
    pose proof (proj1 (Forall_app _ _ _) F) as [Fp Fr]. pose proof (Forall_inv Fr) as [Be Le].
    pose proof (cost_zlen _ Fp) as CZ.
    assert (0 <= match p with Some d => 2 + zlen d | None => 0 end) by (destruct p as [d|]; [pose proof (zlen_nonneg d)|]; lia).
    rewrite (cb_read2' c (enc pre) (hdr_bytes (2 + zlen e)) (e ++ enc rest ++ part_bytes p));
      [|assumption|rewrite C, enc_app, enc_cons, <- !app_assoc; reflexivity|now rewrite enc_len|reflexivity].
    cbn [bind]. rewrite hdr_roundtrip by lia. unfold in_progress_mark. ifz. cbn zeta.
    rewrite (u32_in (zlen pre + 1)) by lia. rewrite (u32_in (cost pre + _)) by lia.
    replace (pre ++ e :: rest) with ((pre ++ [e]) ++ rest) in * by now rewrite <- app_assoc.
    assert (CP : cost (pre ++ [e]) = cost pre + (2 + zlen e)) by (rewrite cost_app, cost_cons, cost_nil; lia).
    assert (ZP : zlen (pre ++ [e]) = zlen pre + 1) by (rewrite zlen_app; reflexivity).
    assert (T1 : take (zlen pre + 1) ((pre ++ [e]) ++ rest) = pre ++ [e]) by (apply take_app_exact; lia).
    destruct cfg as [max|].
    + rewrite es_total_eq by lia. replace (zlen pre + 1 =? 0) with false by lia.
      assert (FE : fits max ((pre ++ [e]) ++ rest) (zlen pre + 1) = negb ((1 <? zlen pre + 1) && (max <? cost pre + (2 + zlen e) + 0 - 2 * (zlen pre + 1)))).
      { unfold fits. rewrite T1. assert (zlen (concat (pre ++ [e])) = cost pre + (2 + zlen e) - 2 * (zlen pre + 1)) by (unfold cost in *; lia). lia. }
      destruct ((1 <? zlen pre + 1) && _) eqn:EE.
      * exists (zlen pre). split; [|split].
        -- rewrite <- app_assoc, take_app_exact by reflexivity. reflexivity.
        -- rewrite zlen_app, ZP. pose proof (zlen_nonneg rest). lia.
        -- split; [assumption|]. intros _. exact FE.
      * destruct (IH (pre ++ [e]) fuel W C F) as (k & E & K & S); [lia| |].
        { intros j Hj. rewrite ZP in Hj. destruct (Z.eq_dec j (zlen pre + 1)) as [->|]; [exact FE|apply Hc; lia]. }
        exists k. rewrite ZP, CP in E. split; [exact E|auto].
    + subst pre. exists 1. rewrite zlen_app, ZP. change (zlen (@nil (list Z))) with 0 in *. change (0 + 1) with 1 in *. rewrite T1.
      pose proof (zlen_nonneg rest). split; [now rewrite CP|]. split; [lia|]. unfold stops. rewrite zlen_app, ZP. lia.
Qed.

Lemma fits_mono max l j k : 0 <= j <= k -> fits max l j = false -> 1 < j -> fits max l k = false.
Proof.
  intros H F J. unfold fits in *. replace (take k l) with (take j l ++ take (k - j) (drop j l)).
  - rewrite concat_app, zlen_app. pose proof (zlen_nonneg (concat (take (k - j) (drop j l)))). lia.
  - rewrite <- take_plus by lia. now replace (j + (k - j)) with k by lia.
Qed.
Lemma filter_all {A} (f : A -> bool) l : (forall x, In x l -> f x = true) -> filter f l = l.
Proof. induction l; cbn; intros H; [reflexivity|]. rewrite (H a) by (now left). f_equal. apply IHl. auto. Qed.
Lemma filter_none {A} (f : A -> bool) l : (forall x, In x l -> f x = false) -> filter f l = [].
Proof. induction l; cbn; intros H; [reflexivity|]. rewrite (H a) by (now left). apply IHl. auto. Qed.

Lemma stops_batch cfg l k : 0 <= k <= zlen l -> stops cfg l k -> batch cfg l = k.
Proof.
  unfold stops, batch. destruct cfg as [max|]; [|intros _ ->; reflexivity]. intros K [A B].
  assert (NK : (length l = Z.to_nat k + (length l - Z.to_nat k))%nat) by (unfold zlen in K; lia). rewrite NK.
  rewrite seq_app, map_app, filter_app, filter_all, filter_none, app_nil_r, zlen_map.
  - unfold zlen. rewrite seq_length. lia.
  - intros x Hx. apply in_map_iff in Hx. destruct Hx as (i & <- & Hi). apply in_seq in Hi.
    unfold zlen in K, B.
    destruct (Z.eq_dec k 0) as [->|]; [specialize (B ltac:(lia)); discriminate B|].
    apply (fits_mono max l (k + 1)); [lia| |lia]. apply B. lia.
  - intros x Hx. apply in_map_iff in Hx. destruct Hx as (i & <- & Hi). apply in_seq in Hi. apply A. lia.
Qed.

Lemma batch_bounds cfg l : 0 <= batch cfg l <= zlen l /\ (1 <= zlen l -> 1 <= batch cfg l).
Proof.
  unfold batch. destruct cfg as [max|]; [|pose proof (zlen_nonneg l); lia].
  set (f := fits max l). split.
  - split; [apply zlen_nonneg|].
    assert (G : forall (xs : list Z), zlen (filter f xs) <= zlen xs).
    { induction xs; cbn; [lia|]. destruct (f a); rewrite ?zlen_cons; lia. }
    rewrite G, zlen_map. unfold zlen. rewrite seq_length. lia.
  - destruct l as [|x l0]; [change (zlen (@nil (list Z))) with 0; lia|]. intros _. cbn [length seq map filter]. change (1 + Z.of_nat 0) with 1.
    unfold f at 1, fits at 1. cbn [Z.eqb orb]. change (1 =? 1) with true. cbn [orb]. rewrite zlen_cons. pose proof (zlen_nonneg (filter f (map (fun i => 1 + Z.of_nat i) (seq 1 (length l0))))). lia.
Qed.

Lemma land255 x : Z.land x 255 = x mod 256.
Proof. change 255 with (Z.ones 8). now rewrite Z.land_ones by lia. Qed.
Lemma array_head_eq n : 0 <= n < 4294967296 -> cbor_head 4 n = array_head n.
Proof.
  intros H. unfold cbor_head, array_head. change (cbor_mt 4) with 128.
  rewrite !land255, !Z.shiftr_div_pow2 by lia. change (2^24) with 16777216. change (2^16) with 65536. change (2^8) with 256.
  change (u8 (128 + 24)) with 152. change (u8 (128 + 25)) with 153. change (u8 (128 + 26)) with 154.
  replace (n <=? 255) with (n <? 256) by lia. replace (n <=? 65535) with (n <? 65536) by lia.
  destruct (n <? 24) eqn:E1; [|destruct (n <? 256) eqn:E2; [|destruct (n <? 65536) eqn:E3]].
  - unfold u8. change (2^8) with 256. rewrite (Z.mod_small n) by lia. rewrite Z.mod_small by lia. reflexivity.
  - rewrite Z.mod_small by lia. reflexivity.
  - rewrite (Z.mod_small (n / 256)) by (split; [apply Z.div_pos; lia|apply Z.div_lt_upper_bound; lia]). reflexivity.
  - rewrite (Z.mod_small (n / 16777216)) by (split; [apply Z.div_pos; lia|apply Z.div_lt_upper_bound; lia]). reflexivity.
Qed.
Lemma array_head_len n : 1 <= zlen (array_head n) <= 5.
Proof. unfold array_head. destruct (n <? 24), (n <? 256), (n <? 65536); split; cbv; discriminate. Qed.
Lemma batch_header_eq n : 0 <= n < 4294967296 -> batch_header n = if 2 <=? n then array_head n else [].
Proof.
  intros H. unfold batch_header. destruct (n <=? 1) eqn:E; replace (2 <=? n) with (negb (n <=? 1)) by lia; rewrite E; [reflexivity|].
  unfold cbor_encode_array_begin, cbor_uint, cbor_add. rewrite array_head_eq by lia. cbn [negb].
  pose proof (array_head_len n) as L. replace (zlen (array_head n) =? 0) with false by lia. cbn [cbor_init ce_size_only ce_len ce_size ce_writes].
  rewrite u32_in by lia. replace (5 <? _) with false by lia. unfold cbor_deinit; cbn [ce_size ce_writes app memcpy_writes].
  rewrite splice_some by (rewrite ?zlen_fill; lia). cbn [bind]. rewrite take_0. cbn [app].
  apply take_app_exact. lia.
Qed.

Lemma read_loop_ok c p : forall rest pre fuel n off cur, cb_wf c -> content c = pre ++ enc rest ++ p ->
  Forall ev_fine rest -> (length rest < fuel)%nat ->
  0 <= cur -> 0 <= n -> cur <= off -> off - cur + n <= zlen (concat rest) -> cur + cost rest <= 4294967295 ->
  es_read_loop fuel c n off cur (zlen pre) = Some (Some (take n (drop (off - cur) (concat rest)))).
Proof.
  induction rest as [|e rest IH]; intros pre fuel n off cur W C F Hf Hc Hn Ho Hl Hb.
  - cbn [concat] in Hl. change (zlen (@nil Z)) with 0 in Hl. replace n with 0 by lia.
    rewrite take_0. destruct fuel; reflexivity.
  - destruct fuel as [|fuel]; [cbn in Hf; lia|]. cbn [length] in Hf. cbn [es_read_loop].
    destruct (n =? 0) eqn:N0; [replace n with 0 by lia; now rewrite take_0|].
    pose proof (content_len c W) as L. pose proof W as (W1 & _ & _ & W4 & _).
    rewrite C, !zlen_app, enc_len, cost_cons in L. rewrite cost_cons in Hb.
    pose proof (zlen_nonneg pre). pose proof (zlen_nonneg p). pose proof (cost_nonneg rest).
    pose proof (Forall_inv F) as [Be Le]. pose proof (Forall_inv_tail F) as Fr.
    cbn [concat] in *. rewrite zlen_app in Hl.
    assert (zlen (concat rest) <= cost rest) by (unfold cost; pose proof (zlen_nonneg rest); lia).
    rewrite (cb_read2' c pre (hdr_bytes (2 + zlen e)) (e ++ enc rest ++ p));
      [|assumption|rewrite C, enc_cons, <- !app_assoc; reflexivity|reflexivity|reflexivity].
    cbn [bind]. rewrite hdr_roundtrip by lia. cbn zeta.
    rewrite (u32_in (2 + zlen e - 2)) by lia. replace (2 + zlen e - 2) with (zlen e) by lia.
    rewrite (u32_in (cur + zlen e)) by lia. rewrite (u32_in (zlen pre + 2)) by lia.
    rewrite (u32_in (zlen pre + 2 + zlen e)) by lia.
    set (pre' := pre ++ hdr_bytes (2 + zlen e) ++ e).
    assert (LP : zlen pre + 2 + zlen e = zlen pre') by (unfold pre'; rewrite !zlen_app, hdr_bytes_len; lia).
    assert (C' : content c = pre' ++ enc rest ++ p) by (unfold pre'; rewrite C, enc_cons, <- !app_assoc; reflexivity).
    destruct (cur + zlen e <? off) eqn:SK.
    + rewrite LP, IH by (try assumption; lia). rewrite drop_app_ge by lia. now replace (off - cur - zlen e) with (off - (cur + zlen e)) by lia.
    + rewrite (u32_in (off - cur)) by lia. rewrite (u32_in (zlen e - (off - cur))) by lia.
      rewrite (u32_in (zlen pre + 2 + (off - cur))) by lia.
      set (k := Z.min (zlen e - (off - cur)) n).
      assert (Hk : 0 <= k <= n) by lia.
      rewrite (cb_read2' c (pre ++ hdr_bytes (2 + zlen e) ++ take (off - cur) e) (take k (drop (off - cur) e))
                 (drop k (drop (off - cur) e) ++ enc rest ++ p)); cycle 1.
      * assumption.
      * rewrite C, enc_cons, <- !app_assoc. do 2 f_equal. rewrite <- (take_drop (off - cur) e) at 1. rewrite <- app_assoc. f_equal.
        rewrite <- (take_drop k (drop (off - cur) e)) at 1. now rewrite <- app_assoc.
      * rewrite !zlen_app, hdr_bytes_len, zlen_take. lia.
      * rewrite zlen_take, zlen_drop. lia.
      * cbn [bind]. rewrite (u32_in (n - k)) by lia. rewrite (u32_in (off + k)) by lia. rewrite LP.
        destruct (Z.eq_dec k n) as [KN|KN].
        -- rewrite KN, Z.sub_diag. replace (es_read_loop fuel c 0 (off + n) (cur + zlen e) (zlen pre')) with (Some (Some (@nil Z))) by (destruct fuel; reflexivity).
           cbn [bind]. rewrite app_nil_r. do 2 f_equal. rewrite (drop_app_le (off - cur)) by lia. symmetry. apply take_app_le. rewrite zlen_drop. lia.
        -- assert (HK : k = zlen e - (off - cur)) by lia.
           rewrite IH by (try assumption; lia). cbn [bind]. do 2 f_equal.
           replace (off + k - (cur + zlen e)) with 0 by lia. rewrite drop_0.
           rewrite (drop_app_le (off - cur)) by lia. rewrite take_all by (rewrite zlen_drop; lia).
           rewrite take_app_ge by (rewrite zlen_drop; lia). f_equal. f_equal. rewrite zlen_drop; lia.
Qed.

Definition hdr_of (cfg : es_cfg) (k : Z) : list Z :=
  match cfg with Some _ => if 2 <=? k then array_head k else [] | None => [] end.
Record esim (cfg : es_cfg) (cap : Z) (s : es) (v : sev) : Prop := {
  m_wf : cb_wf (es_cb s);
  m_tot : tot (es_cb s) = cap;
  m_cont : content (es_cb s) = enc (v_events v) ++ part_bytes (v_part v);
  m_wip : match v_part v with
          | Some d => es_wip s = true /\ es_written s = 2 + zlen d /\ bytes d
          | None => es_wip s = false end;
  m_fine : Forall ev_fine (v_events v);
  m_k : 0 <= v_reading v <= zlen (v_events v);
  m_num : es_num s = v_reading v;
  m_active : es_active s = cost (take (v_reading v) (v_events v));
  m_hdr : es_hdr s = hdr_of cfg (v_reading v) }.

Lemma esim_sz cfg cap s v : esim cfg cap s v -> sz (es_cb s) = used v /\ 0 < cap <= 2147483648 /\ 0 <= used v <= cap /\
  0 <= cost (v_events v) <= used v /\ 0 <= used v - cost (v_events v).
Proof.
  intros M. pose proof (content_len _ (m_wf _ _ _ _ M)) as L. rewrite (m_cont _ _ _ _ M), zlen_app, enc_len, part_len in L.
  pose proof (m_wf _ _ _ _ M) as (W1 & _ & _ & W4 & _). pose proof (m_tot _ _ _ _ M). pose proof (cost_nonneg (v_events v)).
  unfold used. destruct (v_part v) as [d|]; [pose proof (zlen_nonneg d)|]; lia.
Qed.
Lemma hdr_of_len cfg k : 0 <= zlen (hdr_of cfg k) <= 5.
Proof. unfold hdr_of. destruct cfg; [destruct (2 <=? k); [pose proof (array_head_len k); lia|]|]; change (zlen (@nil Z)) with 0; lia. Qed.
Lemma zlen_concat l : zlen (concat l) = cost l - 2 * zlen l.
Proof. unfold cost. lia. Qed.
Lemma message_len cfg l k : 0 <= k <= zlen l -> zlen (message cfg l k) = zlen (hdr_of cfg k) + cost (take k l) - 2 * k.
Proof. intros. unfold message. fold (hdr_of cfg k). rewrite zlen_app, zlen_concat, zlen_take. lia. Qed.
Lemma hdr_of_0 cfg : hdr_of cfg 0 = []. Proof. destruct cfg; reflexivity. Qed.

Lemma esim_total cfg cap s v : esim cfg cap s v ->
  es_total (es_active s) (es_num s) (zlen (es_hdr s)) = zlen (message cfg (v_events v) (v_reading v)) /\
  (zlen (message cfg (v_events v) (v_reading v)) =? 0) = (v_reading v =? 0).
Proof.
  intros M. destruct (esim_sz _ _ _ _ M) as (_ & Hc & Hu & Hcost & _). pose proof (m_k _ _ _ _ M) as K.
  rewrite (m_num _ _ _ _ M), (m_active _ _ _ _ M), (m_hdr _ _ _ _ M).
  pose proof (hdr_of_len cfg (v_reading v)). pose proof (cost_take_drop (v_reading v) (v_events v)).
  pose proof (cost_nonneg (drop (v_reading v) (v_events v))).
  assert (F : Forall ev_fine (take (v_reading v) (v_events v))).
  { pose proof (m_fine _ _ _ _ M) as F. rewrite <- (take_drop (v_reading v) (v_events v)), Forall_app in F. apply F. }
  pose proof (cost_zlen _ F) as CZ. rewrite zlen_take in CZ.
  rewrite es_total_eq by lia. rewrite message_len by lia.
  destruct (v_reading v =? 0) eqn:E; [|lia].
  assert (v_reading v = 0) by lia. rewrite H2, hdr_of_0. rewrite take_0. split; reflexivity.
Qed.

Lemma es_has_ok cfg cap s v : esim cfg cap s v -> let k := if v_reading v =? 0 then batch cfg (v_events v) else v_reading v in
  exists s', es_has cfg s = Some (1 <=? k, zlen (message cfg (v_events v) k), s') /\ esim cfg cap s' (mk_sev (v_events v) (v_part v) k).
Proof.
  intros M k. destruct (esim_total _ _ _ _ M) as (ET & EZ). unfold es_has. rewrite ET, EZ.
  pose proof (m_k _ _ _ _ M) as K.
  destruct (v_reading v =? 0) eqn:E0; cbn [negb].
  - unfold es_compute. destruct (esim_sz _ _ _ _ M) as (Hsz & Hc & Hu & Hcost & _).
    pose proof (m_fine _ _ _ _ M) as F. pose proof (cost_zlen _ F) as CZ.
    destruct (scan_ok cfg (es_cb s) (v_part v) (v_events v) [] (S (Z.to_nat (sz (es_cb s))))) as (k' & ES & KR & ST).
    + apply M. + apply M. + exact F. + unfold zlen in CZ. lia.
    + destruct cfg; [intros j Hj; change (zlen (@nil (list Z))) with 0 in Hj; lia|reflexivity].
    + change (zlen (@nil (list Z))) with 0 in ES. rewrite cost_nil in ES. rewrite app_nil_l in *. rewrite ES. cbn [bind].
      pose proof (stops_batch _ _ _ KR ST) as EB. fold k in EB.
      assert (HB : k' = k) by (unfold k; rewrite (stops_batch _ _ _ KR ST); reflexivity). rewrite HB in *.
      set (s' := set_r s (cost (take k (v_events v))) k (match cfg with None => [] | Some _ => batch_header k end)).
      assert (M' : esim cfg cap s' (mk_sev (v_events v) (v_part v) k)).
      { destruct M. constructor; cbn [s' set_r es_cb es_wip es_written es_num es_active es_hdr v_events v_part v_reading]; try assumption; try reflexivity.
        unfold hdr_of. destruct cfg; [|reflexivity]. apply batch_header_eq. lia. }
      destruct (esim_total _ _ _ _ M') as (ET' & EZ'). cbn [v_events v_part v_reading] in *.
      rewrite ET', EZ'. exists s'. split; [|exact M']. do 3 f_equal. lia.
  - exists s. split; [|destruct v; exact M]. subst k. repeat f_equal. lia.
Qed.

Lemma es_read_ok cfg cap s v off n : esim cfg cap s v -> 0 <= off -> 0 <= n -> off + n < 4294967296 ->
  let m := message cfg (v_events v) (v_reading v) in
  es_read s off n = Some (if off + n <=? zlen m then Some (take n (drop off m)) else None).
Proof.
  intros M Ho Hn Hb m. destruct (esim_total _ _ _ _ M) as (ET & _). unfold es_read. rewrite ET. fold m.
  rewrite u32_in by lia. destruct (off + n <=? zlen m) eqn:E; [|replace (_ <? _) with true by lia; reflexivity].
  replace (_ <? _) with false by lia.
  destruct (esim_sz _ _ _ _ M) as (Hsz & Hc & Hu & Hcost & _). pose proof (m_k _ _ _ _ M) as K.
  pose proof (m_fine _ _ _ _ M) as F. pose proof (cost_zlen _ F) as CZ.
  rewrite (m_hdr _ _ _ _ M). set (h := hdr_of cfg (v_reading v)). pose proof (hdr_of_len cfg (v_reading v)) as HL. fold h in HL.
  assert (EM : m = h ++ concat (take (v_reading v) (v_events v))) by reflexivity.
  set (body := concat (take (v_reading v) (v_events v))) in *.
  assert (EB : concat (v_events v) = body ++ concat (drop (v_reading v) (v_events v))).
  { unfold body. rewrite <- concat_app. now rewrite take_drop. }
  assert (LM : zlen m = zlen h + zlen body) by (rewrite EM; apply zlen_app).
  assert (LB : zlen (concat (v_events v)) <= cost (v_events v)) by (rewrite zlen_concat; pose proof (zlen_nonneg (v_events v)); lia).
  assert (LB2 : zlen body <= zlen (concat (v_events v))) by (rewrite EB, zlen_app; pose proof (zlen_nonneg (concat (drop (v_reading v) (v_events v)))); lia).
  assert (RL : forall o k, 0 <= k -> 0 <= o -> o + k <= zlen body ->
     es_read_loop (S (Z.to_nat (sz (es_cb s)))) (es_cb s) k o 0 0 = Some (Some (take k (drop o body)))).
  { intros o k H1 H2 H3.
    pose proof (read_loop_ok (es_cb s) (part_bytes (v_part v)) (v_events v) [] (S (Z.to_nat (sz (es_cb s)))) k o 0) as R.
    change (zlen (@nil Z)) with 0 in R. rewrite R; try assumption; try lia; try apply M.
    - rewrite Z.sub_0_r. do 2 f_equal. rewrite EB, drop_app_le by lia. apply take_app_le. rewrite zlen_drop. lia.
    - unfold zlen in CZ. lia. }
  pose proof (zlen_nonneg body).
  destruct (off <? zlen h) eqn:EH.
  - rewrite read_at_some by lia. cbn [bind]. rewrite u32_in by lia. rewrite RL by lia. cbn [bind]. do 2 f_equal.
    rewrite EM, drop_app_le by lia. rewrite drop_0.
    destruct (Z.le_gt_cases n (zlen h - off)).
    + replace (Z.min n (zlen h - off)) with n by lia. rewrite Z.sub_diag, take_0, app_nil_r.
      symmetry. apply take_app_le. rewrite zlen_drop. lia.
    + replace (Z.min n (zlen h - off)) with (zlen h - off) by lia.
      rewrite take_all by (rewrite zlen_drop; lia). rewrite take_app_ge by (rewrite zlen_drop; lia). f_equal. f_equal. rewrite zlen_drop; lia.
  - rewrite u32_in by lia. rewrite RL by lia. do 2 f_equal. rewrite EM. now rewrite drop_app_ge by lia.
Qed.

Lemma es_step_ok cfg cap s v o r v' : esim cfg cap s v -> ev_ok o ->
  sev_step cfg cap v o = Some (r, v') ->
  exists s', es_step cfg s o = Some (r, s') /\ esim cfg cap s' v'.
Proof.
  intros M Hok HS. destruct (esim_sz _ _ _ _ M) as (Hsz & Hc & Hu & Hcost & Hpc).
  pose proof (content_len _ (m_wf _ _ _ _ M)) as LC.
  destruct o as [|d|rb| |off n| | |]; cbn [sev_step ev_ok] in *.
  - cbn [es_step]. unfold es_begin. pose proof (m_wip _ _ _ _ M) as Hw. destruct (v_part v) as [p|] eqn:EP.
    + destruct Hw as (-> & _). injection HS as <- <-. exists s. split; [reflexivity|exact M].
    + rewrite Hw. unfold cb_write.
      destruct (cb_write_at_ok (es_cb s) 0 (hdr_bytes in_progress_mark)) as (b & c' & EW & W' & T & Hb & Hf & Ht);
        [apply M|apply hdr_bytes_bytes|unfold is_u32; lia|rewrite hdr_bytes_len; unfold is_u32; lia|].
      rewrite EW. cbn [bind]. rewrite hdr_bytes_len, LC, (m_tot _ _ _ _ M) in *.
      replace (0 <=? sz (es_cb s)) with true in Hb by lia. rewrite Z.sub_0_r, Hsz in Hb. cbn [andb] in Hb.
      destruct (used v + 2 <=? cap) eqn:EC; subst b; cbn [negb].
      * injection HS as <- <-. specialize (Ht eq_refl). rewrite Z.sub_0_r in Ht. rewrite take_all, drop_all, app_nil_r in Ht by lia.
        assert (SZ : sz c' = used v + 2).
        { pose proof (content_len _ W') as L'. rewrite Ht, zlen_app, hdr_bytes_len, LC, Hsz in L'. lia. }
        exists (set_w (set_cb s c') true 2). split.
        -- unfold cb_get_write_size. rewrite SZ, T. cbn [bind]. do 2 f_equal. f_equal. lia.
        -- destruct M. rewrite EP in *. cbn [part_bytes] in *. rewrite app_nil_r in *.
           constructor; cbn [set_w set_cb es_cb es_wip es_written es_active es_num es_hdr v_events v_part v_reading part_bytes]; try assumption.
           ++ now rewrite Ht, m_cont0, app_nil_r.
           ++ repeat split; constructor.
      * injection HS as <- <-. exists s. split; [reflexivity|exact M].
  - cbn [es_step]. unfold es_append. pose proof (m_wip _ _ _ _ M) as Hw. destruct (v_part v) as [p|] eqn:EP; [|discriminate].
    destruct Hw as (Hw & Hwr & Hbp). destruct Hok as [Hbd Hld]. pose proof (zlen_nonneg d). pose proof (zlen_nonneg p). unfold cb_write.
    destruct (cb_write_at_ok (es_cb s) 0 d) as (b & c' & EW & W' & T & Hb & Hf & Ht); [apply M|exact Hbd|unfold is_u32; lia|unfold is_u32; lia|].
    rewrite EW. cbn [bind]. rewrite LC, (m_tot _ _ _ _ M) in *.
    replace (0 <=? sz (es_cb s)) with true in Hb by lia. rewrite Z.sub_0_r, Hsz in Hb. cbn [andb] in Hb.
    destruct (used v + zlen d <=? cap) eqn:EC; subst b; cbn [negb]; injection HS as <- <-.
    + specialize (Ht eq_refl). rewrite Z.sub_0_r in Ht. rewrite take_all, drop_all, app_nil_r in Ht by lia.
      eexists. split; [reflexivity|]. destruct M. rewrite EP in *. cbn [part_bytes] in *.
      constructor; cbn [set_w set_cb es_cb es_wip es_written es_active es_num es_hdr v_events v_part v_reading part_bytes]; try assumption.
      * rewrite Ht, m_cont0, <- !app_assoc. reflexivity.
      * split; [assumption|]. split; [|apply bytes_app; split; assumption].
        assert (used v = cost (v_events v) + (2 + zlen p)) by (unfold used; now rewrite EP).
        rewrite zlen_app, Hwr. rewrite u32_in; lia.
    + exists s. split; [reflexivity|exact M].
  - cbn [es_step]. unfold es_finish. pose proof (m_wip _ _ _ _ M) as Hw. destruct (v_part v) as [p|] eqn:EP.
    2:{ rewrite Hw. injection HS as <- <-. exists s. split; [reflexivity|exact M]. }
    destruct Hw as (Hw & Hwr & Hbp). rewrite Hw, Hwr. cbn [negb]. pose proof (zlen_nonneg p).
    assert (HU : used v = cost (v_events v) + (2 + zlen p)) by (unfold used; now rewrite EP).
    pose proof (m_cont _ _ _ _ M) as HC. rewrite EP in HC. cbn [part_bytes] in HC.
    assert (LE : zlen (enc (v_events v)) = used v - (2 + zlen p)) by (rewrite enc_len; lia).
    destruct rb.
    + injection HS as <- <-. pose proof (cb_consume_end_ok (es_cb s) (2 + zlen p)) as CE. cbn zeta in CE.
      destruct (cb_consume_from_end (es_cb s) (2 + zlen p)) as [b c'].
      destruct CE as (W' & T & Hb & Hf & Ht); [apply M|unfold is_u32; lia|]. rewrite LC, Hsz in *.
      replace b with true in * by lia. specialize (Ht eq_refl). rewrite HC, take_app_exact in Ht by lia.
      eexists. split; [reflexivity|]. destruct M.
      constructor; cbn [set_w set_cb es_cb es_wip es_written es_active es_num es_hdr v_events v_part v_reading part_bytes]; try assumption; try reflexivity; try (now rewrite T).
      now rewrite app_nil_r.
    + destruct ((1 <=? zlen p) && (zlen p <=? 65532)) eqn:EL; [|discriminate]. injection HS as <- <-.
      destruct (cb_write_at_ok (es_cb s) (2 + zlen p) (hdr_bytes (u16 (2 + zlen p)))) as (b & c' & EW & W' & T & Hb & Hf & Ht);
        [apply M|apply hdr_bytes_bytes|unfold is_u32; lia|rewrite hdr_bytes_len; unfold is_u32; lia|].
      rewrite EW. cbn [bind snd]. rewrite hdr_bytes_len, LC, Hsz, (m_tot _ _ _ _ M) in *.
      replace b with true in * by lia. specialize (Ht eq_refl).
      rewrite HC in Ht. rewrite take_app_exact in Ht by lia. rewrite drop_app_ge, drop_app_exact in Ht by (rewrite ?hdr_bytes_len; lia).
      replace (u16 (2 + zlen p)) with (2 + zlen p) in Ht by (unfold u16; rewrite Z.mod_small; lia).
      eexists. split; [reflexivity|]. destruct M.
      constructor; cbn [set_w set_cb es_cb es_wip es_written es_active es_num es_hdr v_events v_part v_reading part_bytes]; try assumption; try reflexivity; try (now rewrite T).
      * rewrite app_nil_r, enc_app, enc_cons, Ht. now rewrite app_nil_r.
      * apply Forall_app. split; [assumption|]. constructor; [|constructor]. split; [assumption|lia].
      * rewrite zlen_app. change (zlen [p]) with 1. lia.
      * rewrite take_app_le by lia. assumption.
  - injection HS as <- <-. destruct (es_has_ok _ _ _ _ M) as (s' & E & M'). exists s'. cbn [es_step]. rewrite E. cbn [bind]. split; [reflexivity|exact M'].
  - destruct ((0 <=? off) && (0 <=? n) && (off + n <? 4294967296)) eqn:E; [|discriminate]. injection HS as <- <-.
    exists s. cbn [es_step]. rewrite (es_read_ok cfg cap s v) by (try assumption; lia). cbn [bind]. split; [reflexivity|exact M].
  - injection HS as <- <-. cbn [es_step]. eexists. split; [reflexivity|]. unfold es_mark.
    rewrite (m_active _ _ _ _ M). pose proof (m_k _ _ _ _ M) as K.
    pose proof (cost_take_drop (v_reading v) (v_events v)) as CT.
    pose proof (cost_nonneg (drop (v_reading v) (v_events v))). pose proof (cost_nonneg (take (v_reading v) (v_events v))).
    assert (F : Forall ev_fine (take (v_reading v) (v_events v)) /\ Forall ev_fine (drop (v_reading v) (v_events v))).
    { pose proof (m_fine _ _ _ _ M) as F. rewrite <- (take_drop (v_reading v) (v_events v)), Forall_app in F. exact F. }
    pose proof (cost_zlen _ (proj1 F)) as CZ. rewrite zlen_take in CZ.
    destruct (cost _ =? 0) eqn:E0.
    + assert (K0 : v_reading v = 0) by lia. destruct M. rewrite K0 in *. rewrite drop_0.
      constructor; cbn [v_events v_part v_reading]; assumption.
    + pose proof (cb_consume_ok (es_cb s) (cost (take (v_reading v) (v_events v)))) as CE. cbn zeta in CE.
      destruct (cb_consume (es_cb s) (cost (take (v_reading v) (v_events v)))) as [b c'].
      destruct CE as (W' & T & Hb & Hf & Ht); [apply M|unfold is_u32; lia|]. rewrite LC, Hsz in *.
      replace b with true in * by lia. specialize (Ht eq_refl).
      destruct M.
      constructor; cbn [set_r set_cb es_cb es_wip es_written es_active es_num es_hdr v_events v_part v_reading part_bytes]; try assumption; try reflexivity; try (now rewrite T); try apply F.
      * rewrite Ht, m_cont0. replace (enc (v_events v)) with (enc (take (v_reading v) (v_events v)) ++ enc (drop (v_reading v) (v_events v))) by (rewrite <- enc_app; now rewrite take_drop).
        rewrite <- app_assoc, drop_app_exact by now rewrite enc_len. reflexivity.
      * pose proof (zlen_nonneg (drop (v_reading v) (v_events v))). lia.
      * now rewrite hdr_of_0.
  - injection HS as <- <-. exists s. split; [|exact M]. cbn [es_step]. unfold es_bytes_used, cb_get_read_size. now rewrite Hsz.
  - injection HS as <- <-. exists s. split; [|exact M]. cbn [es_step]. unfold es_bytes_free, cb_get_write_size. rewrite Hsz, (m_tot _ _ _ _ M). reflexivity.
Qed.

Lemma es_run_ok cfg cap ops : forall s v rs v', esim cfg cap s v -> Forall ev_ok ops ->
  sev_run cfg cap v ops = Some (rs, v') ->
  exists s', es_run cfg s ops = Some (rs, s') /\ esim cfg cap s' v'.
Proof.
  induction ops as [|o ops IH]; intros s v rs v' M F H; cbn [sev_run es_run] in *.
  - inv H. exists s. auto.
  - apply bind_inv in H. destruct H as ((r & v1) & E & H). apply bind_inv in H. destruct H as ((rs1 & v2) & E2 & H). inv H.
    destruct (es_step_ok _ _ _ _ _ _ _ M (Forall_inv F) E) as (s1 & E1 & M1). rewrite E1. cbn [bind].
    destruct (IH _ _ _ _ M1 (Forall_inv_tail F) E2) as (s2 & E3 & M2). rewrite E3. cbn [bind]. eauto.
Qed.
Lemma es_boot_ok cfg storage : 0 < zlen storage <= 2147483648 ->
  exists s, es_boot storage (zlen storage) = Some (Some s) /\ esim cfg (zlen storage) s (mk_sev [] None 0).
Proof.
  intros H. destruct (cb_init_ok storage (zlen storage)) as (c & E & W & T & C); [unfold is_u8; lia|lia|reflexivity|].
  unfold es_boot. rewrite E. cbn [bind]. eexists. split; [reflexivity|].
  constructor; cbn [es_cb es_wip es_written es_active es_num es_hdr v_events v_part v_reading].
  - exact W.
  - exact T.
  - exact C.
  - reflexivity.
  - constructor.
  - change (zlen (@nil (list Z))) with 0. lia.
  - reflexivity.
  - reflexivity.
  - now rewrite hdr_of_0.
Qed.

(** ** Rollback *)
Lemma sev_run_app cfg cap a b : forall v, sev_run cfg cap v (a ++ b) =
  do x <- sev_run cfg cap v a; let (r, v1) := x in do y <- sev_run cfg cap v1 b; let (r2, v2) := y in Some (r ++ r2, v2).
Proof.
  induction a as [|o a IH]; intros v.
  - cbn [app sev_run bind]. destruct (sev_run cfg cap v b) as [[r v2]|]; reflexivity.
  - cbn [app sev_run]. destruct (sev_step cfg cap v o) as [[r v1]|]; [cbn [bind]|reflexivity].
    rewrite IH. destruct (sev_run cfg cap v1 a) as [[r1 v2]|]; [cbn [bind]|reflexivity].
    destruct (sev_run cfg cap v2 b) as [[r2 v3]|]; reflexivity.
Qed.
Lemma sev_run_len cfg cap ops : forall v rs v', sev_run cfg cap v ops = Some (rs, v') -> length rs = length ops.
Proof.
  induction ops as [|o ops IH]; intros v rs v' H; cbn [sev_run] in H; [inv H; reflexivity|].
  apply bind_inv in H. destruct H as ((r & v1) & E & H). apply bind_inv in H. destruct H as ((rs1 & v2) & E2 & H). inv H.
  cbn [length]. f_equal. eauto.
Qed.

Definition same_queue (v w : sev) : Prop := v_events v = v_events w /\ v_reading v = v_reading w.
Lemma write_window cfg cap mid : forall v w rm v', same_queue v w -> v_part w = None ->
  forallb in_write mid = true -> sev_run cfg cap v mid = Some (rm, v') ->
  exists w', sev_run cfg cap w (filter is_reader mid) = Some (reader_results mid rm, w') /\ same_queue v' w' /\ v_part w' = None.
Proof.
  induction mid as [|o mid IH]; intros v w rm v' SQ P F H; cbn [sev_run] in H.
  - inv H. exists w. auto.
  - cbn [forallb] in F. apply andb_prop in F. destruct F as [Fo F].
    apply bind_inv in H. destruct H as ((r & v1) & E & H). apply bind_inv in H. destruct H as ((rs1 & v2) & E2 & H). inv H.
    destruct SQ as [SE SR]. unfold reader_results. cbn [combine filter fst].
    destruct o as [|d|rb| |off n| | |]; cbn [in_write is_reader] in *; try discriminate Fo.
    + cbn [sev_step] in E. destruct (v_part v) as [p|]; [|discriminate].
      assert (SQ1 : same_queue v1 w) by (destruct (used v + zlen d <=? cap); inv E; split; assumption).
      destruct (IH _ _ _ _ SQ1 P F E2) as (w' & R & S & P'). exists w'. auto.
    + cbn [sev_step] in E. rewrite SE, SR in E. inv E.
      edestruct (IH (mk_sev (v_events w) (v_part v) (if v_reading w =? 0 then batch cfg (v_events w) else v_reading w)) (mk_sev (v_events w) (v_part w) (if v_reading w =? 0 then batch cfg (v_events w) else v_reading w)) _ _ (conj eq_refl eq_refl) P F E2) as (w' & R & S & P').
      cbn [sev_run sev_step bind]. rewrite R. cbn [bind map snd]. exists w'. auto.
    + cbn [sev_step] in E. rewrite SE, SR in E. cbn [sev_run sev_step].
      destruct ((0 <=? off) && (0 <=? n) && (off + n <? 4294967296)); [|discriminate]. inv E.
      destruct (IH _ w _ _ (conj SE SR) P F E2) as (w' & R & S & P').
      cbn [bind]. rewrite R. cbn [bind map snd]. exists w'. auto.
    + cbn [sev_step] in E. rewrite SE, SR in E. inv E.
      destruct (IH (mk_sev (drop (v_reading w) (v_events w)) (v_part v) 0) (mk_sev (drop (v_reading w) (v_events w)) (v_part w) 0) _ _ (conj eq_refl eq_refl) P F E2) as (w' & R & S & P').
      cbn [sev_run sev_step bind]. rewrite R. cbn [bind map snd]. exists w'. auto.
Qed.

Lemma rollback_ok cfg storage s ops0 mid ops1 r0 v rs v' :
  0 < zlen storage <= 2147483648 -> es_boot storage (zlen storage) = Some (Some s) ->
  Forall ev_ok (ops0 ++ EBegin :: mid ++ EFinish true :: ops1) ->
  sev_run cfg (zlen storage) (mk_sev [] None 0) ops0 = Some (r0, v) -> v_part v = None ->
  forallb in_write mid = true ->
  sev_run cfg (zlen storage) v (EBegin :: mid ++ EFinish true :: ops1) = Some (rs, v') ->
  exists b rm r1 s1 s2, length rm = length mid /\
    es_run cfg s (ops0 ++ EBegin :: mid ++ EFinish true :: ops1) = Some (r0 ++ b :: rm ++ RUnit :: r1, s1) /\
    es_run cfg s (ops0 ++ filter is_reader mid ++ ops1) = Some (r0 ++ reader_results mid rm ++ r1, s2).
Proof.
  intros HS HB FO H0 HP FM H1. destruct (es_boot_ok cfg storage HS) as (s' & EB & M). rewrite HB in EB. injection EB as <-.
  pose proof (sev_run_app cfg (zlen storage) ops0 (EBegin :: mid ++ EFinish true :: ops1) (mk_sev [] None 0)) as HA.
  rewrite H0 in HA. cbn [bind] in HA. rewrite H1 in HA. cbn [bind] in HA.
  change (EBegin :: mid ++ EFinish true :: ops1) with ([EBegin] ++ mid ++ [EFinish true] ++ ops1) in H1.
  rewrite sev_run_app in H1. apply bind_inv in H1. destruct H1 as ((rb & vb) & EBg & H1).
  apply bind_inv in H1. destruct H1 as ((rest & vx) & E1 & H1). inv H1.
  rewrite sev_run_app in E1. apply bind_inv in E1. destruct E1 as ((rm & vm) & EM & E1).
  apply bind_inv in E1. destruct E1 as ((rest2 & vy) & E2 & E1). inv E1.
  rewrite sev_run_app in E2. apply bind_inv in E2. destruct E2 as ((rf & vf) & EF & E2).
  apply bind_inv in E2. destruct E2 as ((r1 & vz) & E3 & E2). inv E2.
  assert (SB : same_queue vb v /\ exists b, rb = [b]).
  { cbn [sev_run sev_step] in EBg. rewrite HP in EBg. destruct (used v + 2 <=? zlen storage); cbn [bind] in EBg; inv EBg; (split; [split; reflexivity|eauto]). }
  destruct SB as [SB (b & ->)].
  destruct (write_window _ _ _ _ _ _ _ SB HP FM EM) as (w' & EW & SW & PW).
  assert (SF : vf = w' /\ rf = [RUnit]).
  { cbn [sev_run sev_step] in EF. destruct SW as [SW1 SW2]. destruct w' as [we wp wr]. cbn in *. subst wp.
    destruct (v_part vm) as [p|] eqn:EP; cbn [bind] in EF; inv EF; split; try reflexivity; destruct vf; cbn in *; congruence. }
  destruct SF as [-> ->].
  destruct (es_run_ok _ _ _ _ _ _ _ M FO HA) as (s1 & R1 & _).
  assert (HA2 : sev_run cfg (zlen storage) (mk_sev [] None 0) (ops0 ++ filter is_reader mid ++ ops1) = Some (r0 ++ reader_results mid rm ++ r1, v')).
  { rewrite sev_run_app, H0. cbn [bind]. rewrite sev_run_app, EW. cbn [bind]. rewrite E3. reflexivity. }
  assert (FO2 : Forall ev_ok (ops0 ++ filter is_reader mid ++ ops1)).
  { rewrite Forall_app in *. destruct FO as [F1 F2]. split; [exact F1|]. apply Forall_inv_tail in F2. rewrite Forall_app in *.
    destruct F2 as [F2 F3]. apply Forall_inv_tail in F3. split; [|exact F3]. rewrite Forall_forall in *. intros x Hx. apply filter_In in Hx. apply F2. apply Hx. }
  destruct (es_run_ok _ _ _ _ _ _ _ M FO2 HA2) as (s2 & R2 & _).
  exists b, rm, r1, s1, s2. split; [eapply sev_run_len; eassumption|]. split; [exact R1|exact R2].
Qed.

(** ** Batching *)
Lemma batch_spec max l : let k := batch (Some max) l in
  0 <= k <= zlen l /\ (l <> [] -> 1 <= k) /\
  (k <= 1 \/ zlen (concat (take k l)) <= max) /\
  (k < zlen l -> max < zlen (concat (take (k + 1) l))).
Proof.
  cbn zeta. destruct (batch_bounds (Some max) l) as [B1 B2].
  assert (HL : l <> [] -> 1 <= zlen l) by (destruct l; [congruence|rewrite zlen_cons; pose proof (zlen_nonneg l0); lia]).
  split; [exact B1|]. split; [auto|].
  (* a stopping point exists *)
  assert (X : exists k, 0 <= k <= zlen l /\ stops (Some max) l k).
  { assert (G : forall n : nat, Z.of_nat n <= zlen l -> (exists k, 0 <= k <= zlen l /\ stops (Some max) l k) \/ fits_all max l 0 (Z.of_nat n)).
    { induction n as [|n IHn]; intros Hn; [right; intros j Hj; lia|].
      destruct (IHn ltac:(lia)) as [|A]; [now left|].
      destruct (fits max l (Z.of_nat n + 1)) eqn:E.
      - right. intros j Hj. destruct (Z.eq_dec j (Z.of_nat n + 1)) as [->|]; [exact E|]. apply A. lia.
      - left. exists (Z.of_nat n). split; [lia|]. split; [exact A|auto]. }
    destruct (G (length l)) as [|A]; [unfold zlen; lia|assumption|].
    exists (zlen l). pose proof (zlen_nonneg l). split; [lia|]. split; [exact A|lia]. }
  destruct X as (k & K & S). rewrite (stops_batch _ _ _ K S). destruct S as [A B].
  split.
  - destruct (Z.le_gt_cases k 1); [now left|]. right. specialize (A k ltac:(lia)). unfold fits in A. lia.
  - intros H. specialize (B H). unfold fits in B. lia.
Qed.

Lemma batched_read_ok max storage s ops rs v : 0 < zlen storage <= 2147483648 -> es_boot storage (zlen storage) = Some (Some s) ->
  Forall ev_ok ops -> sev_run (Some max) (zlen storage) (mk_sev [] None 0) ops = Some (rs, v) -> v_reading v = 0 ->
  v_events v <> [] ->
  exists k n s1 m v2,
    es_run (Some max) s (ops ++ [EHas; ERead 0 n; EMark]) = Some (rs ++ [RSome true n; RBytes (Some m); RUnit], s1) /\
    m = (if 2 <=? k then array_head k else []) ++ concat (take k (v_events v)) /\ n = zlen m /\
    1 <= k <= zlen (v_events v) /\ (k = 1 \/ zlen (concat (take k (v_events v))) <= max) /\
    (k < zlen (v_events v) -> max < zlen (concat (take (k + 1) (v_events v)))) /\
    sev_run (Some max) (zlen storage) (mk_sev [] None 0) (ops ++ [EHas; ERead 0 n; EMark]) = Some (rs ++ [RSome true n; RBytes (Some m); RUnit], v2) /\
    v_events v2 = drop k (v_events v).
Proof.
  intros HS HB FO H V0 VN. destruct (es_boot_ok (Some max) storage HS) as (s' & EB & M). rewrite HB in EB. injection EB as <-.
  pose proof (batch_spec max (v_events v)) as BS. cbn zeta in BS. set (k := batch (Some max) (v_events v)) in *.
  destruct BS as (B1 & B2 & B3 & B4). specialize (B2 VN).
  set (m := message (Some max) (v_events v) k).
  assert (HM : zlen m < 4294967296).
  { destruct (es_run_ok _ _ _ _ _ _ _ M FO H) as (sx & _ & MX). destruct (esim_sz _ _ _ _ MX) as (_ & Hc & Hu & Hcost & _).
    unfold m. rewrite message_len by lia. pose proof (hdr_of_len (Some max) k). pose proof (cost_take_drop k (v_events v)). pose proof (cost_nonneg (drop k (v_events v))). lia. }
  assert (HR : sev_run (Some max) (zlen storage) v [EHas; ERead 0 (zlen m); EMark] = Some ([RSome true (zlen m); RBytes (Some m); RUnit], mk_sev (drop k (v_events v)) (v_part v) 0)).
  { cbn [sev_run]. cbn [sev_step]. rewrite V0. change (0 =? 0) with true. cbn iota. fold k. cbn [bind v_events v_part v_reading]. fold m.
    pose proof (zlen_nonneg m). change (0 <=? 0) with true. replace (0 <=? zlen m) with true by lia. replace (0 + zlen m <? 4294967296) with true by lia.
    replace (0 + zlen m <=? zlen m) with true by lia. cbn [andb bind]. replace (1 <=? k) with true by lia. rewrite drop_0, take_all by lia. reflexivity. }
  assert (HA : sev_run (Some max) (zlen storage) (mk_sev [] None 0) (ops ++ [EHas; ERead 0 (zlen m); EMark]) =
     Some (rs ++ [RSome true (zlen m); RBytes (Some m); RUnit], mk_sev (drop k (v_events v)) (v_part v) 0)).
  { rewrite sev_run_app, H. cbn [bind]. rewrite HR. reflexivity. }
  destruct (es_run_ok _ _ (ops ++ [EHas; ERead 0 (zlen m); EMark]) _ _ _ _ M ltac:(apply Forall_app; split; [exact FO|repeat constructor]) HA) as (s1 & R1 & _).
  exists k, (zlen m), s1, m, (mk_sev (drop k (v_events v)) (v_part v) 0).
  repeat split; try assumption; try lia.
Qed.

(** ** The size that looks like the in-progress mark *)
Lemma large_event_lost cfg storage d : 65535 <= zlen storage <= 2147483648 -> bytes d -> zlen d = 65533 ->
  exists s s', es_boot storage (zlen storage) = Some (Some s) /\
    es_run cfg s [EBegin; EAppend d; EFinish false; EHas] = Some ([RSpace (zlen storage - 2); ROk true; RUnit; RSome false 0], s').
Proof.
  intros HS HD HL. destruct (es_boot_ok cfg storage ltac:(lia)) as (s & EB & M0).
  assert (H1 : sev_run cfg (zlen storage) (mk_sev [] None 0) [EBegin; EAppend d] = Some ([RSpace (zlen storage - 2); ROk true], mk_sev [] (Some d) 0)).
  { cbn [sev_run]. cbn [sev_step]. unfold used. cbn [v_events v_part v_reading]. rewrite cost_nil. replace (0 + 0 + 2 <=? zlen storage) with true by lia.
    cbn [bind v_part v_events v_reading]. rewrite cost_nil. change (zlen (@nil Z)) with 0. rewrite HL. replace (0 + (2 + 0) + 65533 <=? zlen storage) with true by lia.
    cbn [bind app]. do 3 f_equal. f_equal. lia. }
  assert (FO : Forall ev_ok [EBegin; EAppend d]) by (constructor; [exact I|constructor; [split; [exact HD|lia]|constructor]]).
  destruct (es_run_ok _ _ _ _ _ _ _ M0 FO H1) as (s1 & R1 & M1).
  destruct (esim_sz _ _ _ _ M1) as (Hsz & _). unfold used in Hsz. cbn [v_events v_part] in Hsz. rewrite cost_nil, HL in Hsz.
  pose proof (content_len _ (m_wf _ _ _ _ M1)) as LC. pose proof (m_cont _ _ _ _ M1) as HC. cbn [v_events v_part part_bytes] in HC. change (enc [] ++ ?x) with x in HC.
  destruct (m_wip _ _ _ _ M1) as (Hw & Hwr & _). rewrite HL in Hwr.
  destruct (cb_write_at_ok (es_cb s1) (2 + 65533) (hdr_bytes (u16 (2 + 65533)))) as (b & c' & EW & W' & T & Hb & Hf & Ht);
    [apply M1|apply hdr_bytes_bytes|unfold is_u32; lia|rewrite hdr_bytes_len; unfold is_u32; lia|].
  rewrite hdr_bytes_len, LC, Hsz, (m_tot _ _ _ _ M1) in Hb. replace b with true in * by lia. specialize (Ht eq_refl).
  rewrite HC, zlen_app, hdr_bytes_len, HL in Ht. change (2 + 65533 - (2 + 65533)) with 0 in Ht. rewrite take_0, app_nil_l in Ht.
  rewrite drop_app_exact in Ht by reflexivity. change (u16 (2 + 65533)) with in_progress_mark in *.
  set (s2 := set_w (set_cb s1 c') false 0).
  assert (E3 : es_step cfg s1 (EFinish false) = Some (RUnit, s2)).
  { cbn [es_step]. unfold es_finish. rewrite Hw, Hwr. cbn [negb]. change (u16 (2 + 65533)) with in_progress_mark. rewrite EW. reflexivity. }
  exists s. eexists. split; [exact EB|].
  cbn [es_run] in R1. apply bind_inv in R1. destruct R1 as ((ra & sa) & Ea & R1). apply bind_inv in R1. destruct R1 as ((rl & sb) & Eb & R1).
  apply bind_inv in Eb. destruct Eb as ((rc & sc) & Ec & Eb). cbn [bind] in Eb. inv Eb. inv R1.
  cbn [es_run]. rewrite Ea. cbn [bind]. rewrite Ec. cbn [bind]. rewrite E3. cbn [bind].
  cbn [es_step]. unfold es_has. cbn [s2 set_w set_cb es_active es_num es_hdr].
  rewrite (m_num _ _ _ _ M1), (m_active _ _ _ _ M1), (m_hdr _ _ _ _ M1), hdr_of_0. cbn [v_reading v_events]. rewrite take_0, cost_nil.
  change (zlen (@nil Z)) with 0. change (es_total 0 0 0) with 0. change (negb (0 =? 0)) with false. cbn iota.
  unfold es_compute. cbn [es_scan]. cbn [s2 set_w set_cb es_cb].
  rewrite (cb_read2' c' [] (hdr_bytes in_progress_mark) d) by (try assumption; reflexivity).
  cbn [bind]. rewrite hdr_roundtrip by (unfold in_progress_mark; lia). change (in_progress_mark =? in_progress_mark) with true. cbn iota.
  cbn [bind set_r es_active es_num es_hdr]. change (es_total 0 0 ?x) with 0. cbn [bind negb]. reflexivity.
Qed.
