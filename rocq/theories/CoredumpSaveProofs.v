(** The saved image, crashes while saving, and the size computation. *)
From Verif Require Import Base Coredump CoredumpSpec CoredumpProofs.

(** ** No failing writes *)
Theorem sections_none env info size0 : dump_ok env info -> size0 < 4294967296 -> 28 + blocks_size (meta_blocks env info) <= size0 ->
  exists ds t L, cd_sections none env info false size0 = (true, off_of ds + 16,
      mk_cctx size0 12 false t false (evs 12 (ds ++ [cd_footer (if t then 1 else 0)]) ++ [mk_cwrite 0 (cd_header (off_of ds + 16)) true 12])) /\
    concat ds = encs (meta_blocks env info ++ L) /\ Forall blk_ok L /\ off_of ds + 16 <= size0 /\
    beginning (memory_blocks env info) (strip L) /\
    (t = false -> strip L = memory_blocks env info /\ off_of ds + 16 = size_needed env info /\ Forall aligned (offs (12 + blocks_size (meta_blocks env info)) L)) /\
    (size_needed env info <= size0 -> t = false).
Proof.
  intros HO HS HM. pose proof (meta_size env info) as MS. assert (SB : (if 16 <? size0 then size0 - 16 else size0) = size0 - 16) by (destruct (16 <? size0) eqn:X; lia).
  unfold cd_sections. rewrite SB. change (mk_cctx (size0 - 16) 12 false false false []) with (C (size0 - 16) [] false).
  destruct (meta_ok env info (size0 - 16) HO ltac:(lia)) as (bm & dm & tm & EM & [(-> & -> & EC & SZ)|(_ & X)]); [|lia].
  rewrite EM. cbn [negb]. unfold cd_write_regions. rewrite seq3.
  assert (OM : off_of dm = 12 + blocks_size (meta_blocks env info)) by (unfold off_of; rewrite EC, encs_len; reflexivity).
  destruct (nf_regions (size0 - 16) ltac:(lia) (ce_arch env ++ ce_sdk env ++ ci_regions info) dm false) as (b & d2 & t & L & ER & EC2 & OKL & LE & _ & BG & FF & FT); [apply HO|].
  rewrite ER. cbn [C cx_err]. rewrite andb_false_r. cbn [C cx_off cx_only cx_trunc cx_log].
  change (mk_cctx size0 (12 + zlen (concat (dm ++ d2))) false t false (evs 12 (dm ++ d2))) with (C size0 (dm ++ d2) t).
  rewrite nf_write by (rewrite footer_len; lia). cbn [negb]. cbv zeta. cbn [C cx_off cx_size cx_only cx_trunc cx_err cx_log].
  fold (off_of ((dm ++ d2) ++ [cd_footer (if t then 1 else 0)])). rewrite (off_app (dm ++ d2)). cbn [concat]. rewrite app_nil_r, footer_len.
  unfold cd_write. cbn [cx_only cx_log cx_size cx_off cx_trunc cx_err]. unfold none. rewrite header_len. rewrite u32_in by lia.
  exists (dm ++ d2), t, L. split; [reflexivity|]. split; [rewrite concat_app, EC, EC2, encs_app; reflexivity|]. split; [exact OKL|]. split; [lia|]. split; [exact BG|]. unfold size_needed. rewrite <- OM. split.
  - intros HT. destruct (FF HT) as (F1 & F2 & F3 & F4). split; [exact F1|]. split; [lia|exact F4].
  - intros HT. apply FT; [reflexivity|lia].
Qed.
Lemma sections_none_small env info size0 : dump_ok env info -> size0 < 4294967296 -> size0 < 28 + blocks_size (meta_blocks env info) -> fst (fst (cd_sections none env info false size0)) = false.
Proof.
  intros HO HS HM. pose proof (meta_size env info) as MS. unfold cd_sections. fold (sizes size0). assert (SB : sizes size0 = size0 - 16 \/ size0 <= 16 /\ sizes size0 = size0) by (unfold sizes; destruct (16 <? size0) eqn:X; lia).
  change (mk_cctx (sizes size0) 12 false false false []) with (C (sizes size0) [] false).
  destruct (meta_ok env info (sizes size0) HO ltac:(lia)) as (bm & dm & tm & EM & [(_ & _ & _ & SZ)|(-> & X)]); [lia|]. rewrite EM. reflexivity.
Qed.

(** ** The image *)
Definition image (ds : list (list Z)) (t : bool) : list Z := cd_header (off_of ds + 16) ++ concat ds ++ cd_footer (if t then 1 else 0).
Lemma image_len ds t : zlen (image ds t) = off_of ds + 16.
Proof. unfold image. rewrite !zlen_app, header_len, footer_len. unfold off_of. lia. Qed.
Lemma fill_split n m b : 0 <= n -> 0 <= m -> fill (n + m) b = fill n b ++ fill m b.
Proof. intros H1 H2. unfold fill. rewrite Z2Nat.inj_add by lia. apply repeat_app. Qed.
Lemma drop_fill n m b : 0 <= n <= m -> drop n (fill m b) = fill (m - n) b.
Proof. intros H. replace m with (n + (m - n)) at 1 by lia. rewrite fill_split by lia. apply drop_app_exact. symmetry. apply zlen_fill. lia. Qed.
Lemma apply_image ds (t : bool) n e : off_of ds + 16 <= n ->
  cd_apply (fill n e) (evs 12 (ds ++ [cd_footer (if t then 1 else 0)]) ++ [mk_cwrite 0 (cd_header (off_of ds + 16)) true 12]) =
  Some (image ds t ++ fill (n - (off_of ds + 16)) e).
Proof.
  intros H. assert (CC : zlen (concat (ds ++ [cd_footer (if t then 1 else 0)])) = off_of ds + 4) by (rewrite concat_app, zlen_app; cbn [concat]; rewrite app_nil_r, footer_len; unfold off_of; lia).
  assert (OF : 12 <= off_of ds) by (unfold off_of; pose proof (zlen_nonneg (concat ds)); lia).
  rewrite apply_app. replace n with (12 + (n - 12)) at 1 by lia. rewrite fill_split by lia.
  assert (L12 : zlen (fill 12 e) = 12) by (apply zlen_fill; lia). rewrite <- L12 at 2.
  rewrite apply_evs by (rewrite CC, zlen_fill; lia). rewrite CC, drop_fill by lia. cbn [bind cd_apply]. unfold cd_apply1. cbn [cw_off cw_data cw_done]. rewrite header_len.
  replace ((0 <=? 0) && (0 + 12 <=? _)) with true.
  2:{ symmetry. apply andb_true_iff. split; [reflexivity|]. rewrite zlen_app, L12. pose proof (zlen_nonneg (concat (ds ++ [cd_footer (if t then 1 else 0)]) ++ fill (n - 12 - (off_of ds + 4)) e)). lia. }
  rewrite take_all by (rewrite header_len; lia).
  rewrite ?L12. pose proof (splice_app_pre [] (fill 12 e ++ concat (ds ++ [cd_footer (if t then 1 else 0)]) ++ fill (n - 12 - (off_of ds + 4)) e) 0 (cd_header (off_of ds + 16))) as SP.
  cbn [app] in SP. rewrite SP; [|reflexivity|]. 2:{ rewrite zlen_app, L12, header_len. pose proof (zlen_nonneg (concat (ds ++ [cd_footer (if t then 1 else 0)]) ++ fill (n - 12 - (off_of ds + 4)) e)). lia. }
  cbn [bind]. rewrite header_len, drop_app_exact by (symmetry; exact L12). rewrite concat_app. cbn [concat]. rewrite app_nil_r. unfold image. rewrite <- !app_assoc. do 5 f_equal. lia.
Qed.

Lemma parse_image ds t l : concat ds = encs l -> Forall blk_ok l -> off_of ds + 16 < 4294967296 ->
  parse_dump (image ds t) = Some (offs 12 l, if t then 1 else 0).
Proof.
  intros EC OK LT. assert (OF : 12 <= off_of ds) by (unfold off_of; pose proof (zlen_nonneg (concat ds)); lia). unfold parse_dump. rewrite image_len.
  assert (T1 : take 4 (image ds t) = cd_le32 CD_MAGIC) by reflexivity.
  assert (T2 : take 4 (drop 4 (image ds t)) = cd_le32 CD_VERSION) by reflexivity.
  assert (T3 : take 4 (drop 8 (image ds t)) = cd_le32 (off_of ds + 16)) by reflexivity.
  assert (D12 : drop 12 (image ds t) = concat ds ++ cd_footer (if t then 1 else 0)) by reflexivity.
  assert (LC : zlen (concat ds) = off_of ds - 12) by (unfold off_of; lia).
  assert (DF : drop (off_of ds) (image ds t) = cd_footer (if t then 1 else 0)).
  { replace (off_of ds) with ((off_of ds - 12) + 12) by lia. rewrite <- drop_drop by lia. rewrite D12. apply drop_app_exact. symmetry. exact LC. }
  assert (DF2 : drop (off_of ds + 4) (image ds t) = drop 4 (cd_footer (if t then 1 else 0))). { rewrite <- DF, drop_drop by lia. f_equal. lia. }
  rewrite T1, T2, T3. replace (off_of ds + 16 - 16) with (off_of ds) by lia. replace (off_of ds + 16 - 12) with (off_of ds + 4) by lia. rewrite DF, DF2, D12.
  rewrite (le_word (off_of ds + 16)) by (unfold is_u32; lia). rewrite (Z.eqb_refl (off_of ds + 16)).
  replace (28 <=? off_of ds + 16) with true by (symmetry; apply Z.leb_le; lia).
  change (le (cd_le32 CD_MAGIC) =? 1163022147) with true. change (le (cd_le32 CD_VERSION) =? 2) with true. change (le (take 4 (cd_footer (if t then 1 else 0))) =? 1347245380) with true. cbn [andb].
  replace (off_of ds + 16 - 28) with (off_of ds - 12) by lia. rewrite take_app_exact by (symmetry; exact LC). rewrite EC, parse_encs; [|exact OK|].
  - cbn [bind]. destruct t; reflexivity.
  - rewrite <- EC. unfold zlen in LC. lia.
Qed.
Lemma valid_image ds t rest : off_of ds + 16 < 4294967296 -> cd_has_valid true (image ds t ++ rest) = Some (off_of ds + 16).
Proof.
  intros LT. assert (OF : 12 <= off_of ds) by (unfold off_of; pose proof (zlen_nonneg (concat ds)); lia). pose proof (zlen_nonneg rest).
  unfold cd_has_valid, cd_get_header. replace (zlen (image ds t ++ rest) =? 0) with false by (symmetry; apply Z.eqb_neq; rewrite zlen_app, image_len; lia).
  assert (RD : read_at (image ds t ++ rest) 0 12 = Some (cd_header (off_of ds + 16))).
  { rewrite read_at_some; [reflexivity|lia|lia|]. rewrite zlen_app, image_len. lia. }
  rewrite RD. change (cd_header_valid (cd_header (off_of ds + 16))) with true. cbv iota.
  change (drop 8 (cd_header (off_of ds + 16))) with (cd_le32 (off_of ds + 16)). unfold cd_le32. f_equal.
  pose proof (le_word (off_of ds + 16) ltac:(unfold is_u32; lia)) as W. unfold le, cd_le32 in W. cbn [fold_right] in W. lia.
Qed.
Lemma meta_types env info : Forall (fun b => d_type b <> 1 /\ d_type b <> 9 /\ d_type b <> 6) (meta_blocks env info).
Proof.
  assert (SB : forall ty d, ty <> 1 /\ ty <> 9 /\ ty <> 6 -> Forall (fun b => d_type b <> 1 /\ d_type b <> 9 /\ d_type b <> 6) (some_block ty d)).
  { intros ty [[|x d]|] H; cbn [some_block]; constructor; [exact H|constructor]. }
  unfold meta_blocks. repeat (apply Forall_app; split); try (apply SB; lia).
  - destruct (ci_regs info) as [regs|]; [|constructor]. induction (slices _ _ _) as [|s l IH]; [constructor|]. cbn [flat_map]. apply Forall_app. split; [apply SB; lia|exact IH].
  - repeat constructor; discriminate.
Qed.
Lemma content_offs off l : content_blocks (offs off l) = strip l.
Proof. unfold content_blocks. now rewrite offs_snd. Qed.
Lemma strip_meta env info : strip (meta_blocks env info) = meta_blocks env info.
Proof. apply strip_all. pose proof (meta_types env info) as M. revert M. apply Forall_impl. intros b (_ & _ & H). apply negb_true_iff, Z.eqb_neq. exact H. Qed.
Lemma offs_Forall (P : dblock -> Prop) (Q : Z * dblock -> Prop) l : (forall o b, P b -> Q (o, b)) -> Forall P l -> forall off, Forall Q (offs off l).
Proof. intros H. induction 1 as [|b l HB F IH]; intros off; cbn [offs]; constructor; auto. Qed.

Definition save_facts (pl : cplat) (env : cenv) (info : cinfo) (st st' : list Z) : Prop :=
  exists img blocks flags,
    28 + blocks_size (meta_blocks env info) <= zlen img <= zlen st /\
    st' = img ++ fill (zlen st - zlen img) (pl_erased pl) /\
    cd_has_valid true st' = Some (zlen img) /\ cd_read true st' 0 (zlen img) = Some img /\
    parse_dump img = Some (blocks, flags) /\
    (flags = 0 /\ content_blocks blocks = meta_blocks env info ++ memory_blocks env info /\ zlen img = size_needed env info /\
       Forall (fun p => d_type (snd p) = 1 \/ d_type (snd p) = 9 -> fst p mod 4 = 0) blocks \/
     flags = 1 /\ zlen st < size_needed env info /\ exists saved, content_blocks blocks = meta_blocks env info ++ saved /\ beginning (memory_blocks env info) saved).

Lemma facts pl env info st ds t L : concat ds = encs (meta_blocks env info ++ L) -> Forall blk_ok L -> off_of ds + 16 <= zlen st ->
  beginning (memory_blocks env info) (strip L) ->
  (t = false -> strip L = memory_blocks env info /\ off_of ds + 16 = size_needed env info /\ Forall aligned (offs (12 + blocks_size (meta_blocks env info)) L)) ->
  (size_needed env info <= zlen st -> t = false) -> zlen st < 4294967296 -> dump_ok env info ->
  save_facts pl env info st (image ds t ++ fill (zlen st - (off_of ds + 16)) (pl_erased pl)).
Proof.
  intros EC OKL LE BG FF FT HS HO. exists (image ds t), (offs 12 (meta_blocks env info ++ L)), (if t then 1 else 0). rewrite image_len.
  pose proof (blocks_size_nonneg L) as BN.
  assert (OD : off_of ds = 12 + blocks_size (meta_blocks env info) + blocks_size L) by (unfold off_of; rewrite EC, encs_len, blocks_size_app; lia).
  split; [lia|]. split; [reflexivity|]. split; [apply valid_image; lia|]. split.
  { unfold cd_read. pose proof (meta_size env info). rewrite read_at_some; [|lia|lia|]. 2:{ pose proof (zlen_nonneg (fill (zlen st - (off_of ds + 16)) (pl_erased pl))). rewrite zlen_app, image_len. pose proof (meta_size env info). lia. }
    rewrite drop_0. f_equal. apply take_app_exact. symmetry. apply image_len. }
  split; [apply parse_image; [exact EC|apply Forall_app; split; [now apply meta_blk_ok|exact OKL]|lia]|].
  rewrite content_offs, strip_app, strip_meta. destruct t.
  - right. split; [reflexivity|]. split. { destruct (Z_lt_ge_dec (zlen st) (size_needed env info)) as [X|X]; [exact X|]. exfalso. enough (true = false) by discriminate. apply FT. lia. }
    exists (strip L). split; [reflexivity|exact BG].
  - left. destruct (FF eq_refl) as (F1 & F2 & F3). split; [reflexivity|]. split; [now rewrite F1|]. split; [exact F2|].
    rewrite offs_app. apply Forall_app. split.
    + apply (offs_Forall (fun b => d_type b <> 1 /\ d_type b <> 9 /\ d_type b <> 6)); [|apply meta_types]. intros o b (H1 & H2 & _) [X|X]; cbn [snd] in X; contradiction.
    + revert F3. apply Forall_impl. intros (o & b) [H|H] X; cbn [fst snd] in *; [|exact H]. rewrite H in X. destruct X; discriminate.
Qed.

(** ** Saving *)
Lemma apply_inb lim l : Forall (inb lim) l -> forall st, zlen st = lim -> exists st', cd_apply st l = Some st' /\ zlen st' = zlen st /\ take 12 st' = take 12 st.
Proof.
  induction 1 as [|w l (H1 & H2 & H3 & _) F IH]; intros st L; cbn [cd_apply]; [eauto|].
  unfold cd_apply1. assert (LT : zlen (take (cw_done w) (cw_data w)) = cw_done w) by (rewrite zlen_take; lia).
  replace ((0 <=? cw_off w) && (cw_off w + zlen (cw_data w) <=? zlen st)) with true by (symmetry; apply andb_true_iff; lia).
  rewrite splice_some by lia. cbn [bind].
  set (s1 := take (cw_off w) st ++ take (cw_done w) (cw_data w) ++ drop (cw_off w + zlen (take (cw_done w) (cw_data w))) st).
  assert (L1 : zlen s1 = zlen st) by (unfold s1; rewrite !zlen_app, LT, zlen_take, zlen_drop; lia).
  assert (T1 : take 12 s1 = take 12 st) by (unfold s1; rewrite take_app_le by (rewrite zlen_take; lia); rewrite take_take; f_equal; lia).
  destruct (IH s1 ltac:(lia)) as (st' & E & L' & T'). exists st'. split; [exact E|]. split; congruence.
Qed.
Lemma apply_header st w tot : 12 <= zlen st -> cw_off w = 0 -> cw_data w = cd_header tot -> 0 <= cw_done w <= 12 ->
  exists st', cd_apply st [w] = Some st' /\ zlen st' = zlen st.
Proof.
  intros H1 H2 H3 H4. cbn [cd_apply]. unfold cd_apply1. rewrite H2, H3, header_len. replace ((0 <=? 0) && (0 + 12 <=? zlen st)) with true by (symmetry; apply andb_true_iff; lia).
  assert (LT : zlen (take (cw_done w) (cd_header tot)) = cw_done w) by (rewrite zlen_take, header_len; lia).
  rewrite splice_some by lia. cbn [bind]. eexists. split; [reflexivity|]. rewrite !zlen_app, LT, zlen_take, zlen_drop. lia.
Qed.

(** What a save does, whatever the platform. *)
Definition quiet (r : option (bool * list Z * list cwrite)) (st : list Z) : Prop := r = Some (false, st, []).
Theorem save_any pl env info st : dump_ok env info -> zlen st < 4294967296 ->
  quiet (cd_save pl env info st) st \/
  (pl_read pl = true /\ cd_has_valid true st = None /\ 12 <= zlen st /\ exists ok st' new tail,
     cd_save pl env info st = Some (ok, st', new ++ tail) /\ zlen st' = zlen st /\ Forall (inb (zlen st)) new /\
     cd_apply (fill (zlen st) (pl_erased pl)) (new ++ tail) = Some st' /\
     (tail = [] /\ ok = false \/
      Forall (okp padding_write) new /\ exists tot w, tail = [w] /\ 28 <= tot <= zlen st /\ cw_off w = 0 /\ cw_data w = cd_header tot /\ cw_ok w = ok /\ 0 <= cw_done w <= 12) /\
     (Forall wok (new ++ tail) -> exists tot c, cd_sections none env info false (zlen st) = (ok, tot, c) /\ cx_log c = new ++ tail)).
Proof.
  intros HO HS. pose proof (zlen_nonneg st) as NS. unfold quiet, cd_save. destruct (zlen (ci_regions info) =? 0); [now left|]. destruct (pl_begin pl); cbn [negb]; [|now left].
  destruct (cd_get_header (pl_read pl) st) as [h|] eqn:EH; [|now left]. destruct (cd_header_valid h) eqn:EV; [now left|]. destruct (pl_erase pl); cbn [negb]; [|now left].
  right. assert (PR : pl_read pl = true) by (unfold cd_get_header in EH; destruct (zlen st =? 0); [discriminate|]; destruct (pl_read pl); [reflexivity|discriminate]).
  rewrite PR in EH. split; [exact PR|]. split; [unfold cd_has_valid; now rewrite EH, EV|].
  assert (L12 : 12 <= zlen st). { unfold cd_get_header in EH. destruct (zlen st =? 0); [discriminate|]. unfold read_at in EH. destruct ((0 <=? 0) && (0 <=? 12) && (0 + 12 <=? zlen st)) eqn:X; [|discriminate]. rewrite !andb_true_iff in X. lia. }
  split; [exact L12|].
  destruct (sections_any (pl_fail pl) env info (zlen st) HO HS) as (ok & tot & c & new & tail & ES & EL & FN & X & KN). rewrite ES, EL.
  assert (LF : zlen (fill (zlen st) (pl_erased pl)) = zlen st) by (apply zlen_fill; lia).
  destruct (apply_inb (zlen st) new FN _ LF) as (s1 & A1 & L1 & _).
  assert (exists st', cd_apply (fill (zlen st) (pl_erased pl)) (new ++ tail) = Some st' /\ zlen st' = zlen st) as (st' & AP & LP).
  { rewrite apply_app, A1. cbn [bind]. destruct X as [(-> & _)|(_ & HT & w & -> & W1 & W2 & W3 & W4 & _)]; [exists s1; split; [reflexivity|lia]|].
    destruct (apply_header s1 w tot ltac:(lia) W1 W2 W4) as (s2 & E2 & L2). exists s2. split; [exact E2|lia]. }
  rewrite AP. cbn [bind]. exists ok, st', new, tail. split; [reflexivity|]. split; [exact LP|]. split; [exact FN|]. split; [exact AP|]. split.
  - destruct X as [X|(X1 & X2 & w & -> & W1 & W2 & W3 & W4 & _)]; [now left|]. right. split; [exact X1|]. exists tot, w. auto 8.
  - intros XX. rewrite (KN XX). exists tot, c. auto.
Qed.

Theorem save_image pl env info st st' log : dump_ok env info -> zlen st < 4294967296 ->
  cd_save pl env info st = Some (true, st', log) -> Forall (fun w => cw_ok w = true) log -> save_facts pl env info st st'.
Proof.
  intros HO HS ES OK. destruct (save_any pl env info st HO HS) as [Q|(_ & _ & _ & ok & s1 & new & tail & E & L & F & AP & X & K)]; [unfold quiet in Q; congruence|].
  rewrite ES in E. injection E as E1 E2 E3. subst ok s1 log. destruct (K OK) as (tot & c & EN & EL).
  destruct (Z_lt_ge_dec (zlen st) (28 + blocks_size (meta_blocks env info))) as [Q|Q].
  { pose proof (sections_none_small env info (zlen st) HO HS Q) as SM. rewrite EN in SM. discriminate. }
  destruct (sections_none env info (zlen st) HO HS ltac:(lia)) as (ds & t & Lb & E & EC & OKL & LE & BG & FF & FT). rewrite EN in E. injection E as E1 E2. subst c. cbn [cx_log] in EL.
  rewrite <- EL, apply_image in AP by exact LE. injection AP as AP. subst st'. now apply (facts pl env info st ds t Lb).
Qed.
Theorem save_fits e env info st : dump_ok env info -> zlen st < 4294967296 -> 28 + blocks_size (meta_blocks env info) <= zlen st ->
  zlen (ci_regions info) <> 0 -> cd_has_valid true st = None ->
  exists st' log, cd_save (mk_cplat true true true e (fun _ => None)) env info st = Some (true, st', log) /\ Forall (fun w => cw_ok w = true) log.
Proof.
  intros HO HS HM HR HV. unfold cd_save. cbn [pl_begin pl_read pl_erase pl_erased pl_fail]. replace (zlen (ci_regions info) =? 0) with false by lia. cbn [negb]. pose proof (meta_size env info).
  unfold cd_has_valid in HV. assert (EH : cd_get_header true st = Some (take 12 st)). { unfold cd_get_header. replace (zlen st =? 0) with false by lia. rewrite read_at_some by lia. now rewrite drop_0. }
  rewrite EH in *. destruct (cd_header_valid (take 12 st)) eqn:EV.
  { exfalso. assert (L12 : zlen (drop 8 (take 12 st)) = 4) by (rewrite zlen_drop, zlen_take; lia). destruct (drop 8 (take 12 st)) as [|a [|b [|c [|d r]]]] eqn:ED; try discriminate HV; vm_compute in L12; discriminate L12. }
  change (fun _ : Z => @None Z) with none. destruct (sections_none env info (zlen st) HO HS HM) as (ds & t & Lb & E & EC & OKL & LE & _). rewrite E. cbn [cx_log]. rewrite apply_image by exact LE. cbn [bind].
  eexists _, _. split; [reflexivity|]. apply Forall_app. split; [|constructor; [reflexivity|constructor]]. generalize 12. generalize (ds ++ [cd_footer (if t then 1 else 0)]). clear. intros ds.
  induction ds as [|d ds IH]; intros o; cbn [evs]; constructor; [reflexivity|apply IH].
Qed.

(** ** Losing power *)
Lemma valid_bytes st n : cd_has_valid true st = Some n -> get st 0 = Some 0x43 /\ get st 1 = Some 0x4f /\ get st 2 = Some 0x52 /\ get st 3 = Some 0x45.
Proof.
  unfold cd_has_valid. destruct (cd_get_header true st) as [h|] eqn:EH; [|discriminate]. destruct (cd_header_valid h) eqn:EV; [|discriminate]. intros _.
  unfold cd_get_header in EH. destruct (zlen st =? 0); [discriminate|]. unfold read_at in EH. destruct ((0 <=? 0) && (0 <=? 12) && (0 + 12 <=? zlen st)); [|discriminate].
  injection EH as EH. rewrite drop_0 in EH. unfold cd_header_valid in EV. destruct (list_eq_dec Z.eq_dec (take 4 h) (cd_le32 CD_MAGIC)) as [X|]; [|discriminate].
  rewrite <- EH, take_take in X. replace (Z.min 4 12) with 4 in X by lia. destruct st as [|a [|b [|c [|d r]]]]; try discriminate X.
  change (take 4 (a :: b :: c :: d :: r)) with [a; b; c; d] in X. change (cd_le32 CD_MAGIC) with [0x43; 0x4f; 0x52; 0x45] in X. injection X as -> -> -> ->. repeat split; reflexivity.
Qed.
Lemma bytes_valid st : 12 <= zlen st -> get st 0 = Some 0x43 -> get st 1 = Some 0x4f -> get st 2 = Some 0x52 -> get st 3 = Some 0x45 -> cd_has_valid true st <> None.
Proof.
  intros L H0 H1 H2 H3. unfold cd_has_valid, cd_get_header. replace (zlen st =? 0) with false by lia. rewrite read_at_some by lia. rewrite drop_0.
  destruct st as [|a [|b [|c [|d [|e1 [|e2 [|e3 [|e4 [|e5 [|e6 [|e7 [|e8 r]]]]]]]]]]]]; try (vm_compute in L; exfalso; apply L; reflexivity).
  injection H0 as ->. injection H1 as ->. injection H2 as ->. injection H3 as ->. vm_compute. discriminate.
Qed.
Lemma get_take12 (a b : list Z) i : take 12 a = take 12 b -> 0 <= i < 12 -> get a i = get b i.
Proof.
  intros H L. assert (G : forall l : list Z, get l i = get (take 12 l) i).
  { intros l. unfold get, take. replace (i <? 0) with false by lia. assert (NI : (Z.to_nat i < 12)%nat) by lia. change (Z.to_nat 12) with 12%nat. revert l NI. generalize (Z.to_nat i) as k. generalize 12%nat as m.
    induction m as [|m IH]; intros k l NI; [lia|]. destruct l as [|x l]; [destruct k; reflexivity|]. destruct k as [|k]; [reflexivity|]. cbn [firstn nth_error]. apply IH. lia. }
  rewrite (G a), (G b), H. reflexivity.
Qed.
Lemma get_fill n e i x : get (fill n e) i = Some x -> x = e.
Proof. intros H. apply get_in in H. unfold fill in H. now apply repeat_spec in H. Qed.

(** A storage whose first bytes are mixed from two erased storages is not valid. *)
Lemma erased_invalid e a b c : (forall i x, 0 <= i < 12 -> get a i = Some x -> x = e) -> (forall i x, 0 <= i < 12 -> get b i = Some x -> x = e) -> mixed a b c -> cd_has_valid true c = None.
Proof.
  intros HA HB (_ & _ & HC). destruct (cd_has_valid true c) as [n|] eqn:E; [|reflexivity]. apply valid_bytes in E. destruct E as (G0 & G1 & _).
  apply HC in G0. apply HC in G1. assert (0x43 = e) by (destruct G0 as [G0|G0]; [eapply HA|eapply HB]; try eassumption; lia).
  assert (0x4f = e) by (destruct G1 as [G1|G1]; [eapply HA|eapply HB]; try eassumption; lia). lia.
Qed.
Lemma Forall_split {A} (P : A -> Prop) a x b : Forall P (a ++ x :: b) -> Forall P a /\ P x.
Proof. intros H. apply Forall_app in H. destruct H as (H1 & H2). split; [exact H1|]. now inversion H2. Qed.

Theorem crash_safe pl env info st ok st' done w rest before c : dump_ok env info -> zlen st < 4294967296 ->
  cd_save pl env info st = Some (ok, st', done ++ w :: rest) ->
  cd_apply (fill (zlen st) (pl_erased pl)) done = Some before -> mixed before (overwritten before w) c ->
  cd_has_valid true c <> None ->
  rest = [] /\ cw_off w = 0 /\ (exists total, 28 <= total <= zlen st /\ cw_data w = cd_header total) /\ Forall (fun w => cw_ok w = true \/ padding_write w) done.
Proof.
  intros HO HS ES AB MX HV. pose proof (zlen_nonneg st) as NS. destruct (save_any pl env info st HO HS) as [Q|(_ & _ & _ & ok1 & s1 & new & tail & E & L & F & AP & X & K)].
  { unfold quiet in Q. rewrite Q in ES. injection ES as _ _ ES. destruct done; discriminate. }
  rewrite ES in E. injection E as E1 E2 E3.
  assert (LF : zlen (fill (zlen st) (pl_erased pl)) = zlen st) by (apply zlen_fill; lia).
  (* either [w] is one of the writes before the header, or the header *)
  assert (CASES : (exists r, new = done ++ w :: r) \/ (rest = [] /\ done = new /\ tail = [w])).
  { destruct X as [(-> & _)|(_ & tot & w' & -> & _)]; [rewrite app_nil_r in E3; eauto|].
    clear -E3. revert new E3. induction done as [|d dn IH]; intros [|x new] E3; cbn [app] in E3.
    - injection E3 as -> ->. right. auto.
    - injection E3 as -> E3. left. exists new. reflexivity.
    - injection E3 as _ E3. destruct dn; discriminate.
    - injection E3 as -> E3. destruct (IH new E3) as [(r & ->)|(-> & -> & X)]; [left; exists r; reflexivity|right; auto]. }
  destruct CASES as [(r & EN)|(-> & -> & ET)].
  - exfalso. apply HV. rewrite EN in F. apply Forall_split in F. destruct F as (FD & (W1 & W2 & _)).
    destruct (apply_inb (zlen st) done FD _ LF) as (s2 & A2 & L2 & T2). rewrite A2 in AB. injection AB as ->.
    assert (EB : forall i x, 0 <= i < 12 -> get before i = Some x -> x = pl_erased pl).
    { intros i x HI HG. rewrite (get_take12 _ _ i T2 HI) in HG. eapply get_fill; eauto. }
    eapply (erased_invalid (pl_erased pl) before (overwritten before w) c); [exact EB| |exact MX].
    intros i x HI HG. apply (EB i x HI). rewrite <- HG. apply get_take12; [|exact HI]. pose proof (zlen_nonneg (cw_data w)) as WN. unfold overwritten. rewrite take_app_le by (rewrite zlen_take; lia). rewrite take_take. f_equal. lia.
  - destruct X as [(X & _)|(FP & tot & w' & EW & HT & O1 & O2 & _)]; [congruence|]. rewrite EW in ET. injection ET as ->. split; [reflexivity|]. split; [exact O1|]. split; [exists tot; auto|exact FP].
Qed.
Theorem failed_save pl env info st st' log : dump_ok env info -> zlen st < 4294967296 ->
  cd_save pl env info st = Some (false, st', log) -> cd_has_valid true st = None -> cd_has_valid true st' <> None ->
  exists done w, log = done ++ [w] /\ cw_off w = 0 /\ cw_ok w = false /\ Forall (fun w => cw_ok w = true \/ padding_write w) done.
Proof.
  intros HO HS ES HN HV. pose proof (zlen_nonneg st) as NS. destruct (save_any pl env info st HO HS) as [Q|(_ & _ & _ & ok1 & s1 & new & tail & E & L & F & AP & X & K)].
  { unfold quiet in Q. rewrite Q in ES. injection ES as ES _. congruence. }
  rewrite ES in E. injection E as E1 E2 E3. subst ok1 s1 log.
  assert (LF : zlen (fill (zlen st) (pl_erased pl)) = zlen st) by (apply zlen_fill; lia).
  destruct X as [(-> & _)|(FP & tot & w' & -> & HT & O1 & O2 & O3 & _)].
  - exfalso. apply HV. rewrite app_nil_r in AP. destruct (apply_inb (zlen st) new F _ LF) as (s2 & A2 & L2 & T2). rewrite A2 in AP. injection AP as ->.
    assert (EB : forall i x, 0 <= i < 12 -> get st' i = Some x -> x = pl_erased pl). { intros i x HI HG. rewrite (get_take12 _ _ i T2 HI) in HG. eapply get_fill; eauto. }
    apply (erased_invalid (pl_erased pl) st' st' st' EB EB). split; [reflexivity|]. split; [reflexivity|]. auto.
  - exists new, w'. split; [reflexivity|]. split; [exact O1|]. split; [exact O3|exact FP].
Qed.
Theorem saved_writes pl env info st st' log : dump_ok env info -> zlen st < 4294967296 ->
  cd_save pl env info st = Some (true, st', log) -> exists done w, log = done ++ [w] /\ cw_off w = 0 /\ cw_ok w = true /\ Forall (fun w => 12 <= cw_off w) done /\ Forall (fun w => cw_ok w = true \/ padding_write w) done.
Proof.
  intros HO HS ES. destruct (save_any pl env info st HO HS) as [Q|(_ & _ & _ & ok1 & s1 & new & tail & E & L & F & AP & X & K)]; [unfold quiet in Q; congruence|].
  rewrite ES in E. injection E as E1 E2 E3. subst ok1 s1 log. destruct X as [(_ & X)|(FP & tot & w & -> & HT & O1 & O2 & O3 & _)]; [discriminate|].
  exists new, w. split; [reflexivity|]. split; [exact O1|]. split; [exact O3|]. split; [|exact FP]. revert F. apply Forall_impl. intros x (H & _). exact H.
Qed.
Theorem keeps_old pl env info st n : cd_has_valid true st = Some n -> cd_save pl env info st = Some (false, st, []).
Proof.
  intros HV. unfold cd_save. destruct (zlen (ci_regions info) =? 0); [reflexivity|]. destruct (pl_begin pl); cbn [negb]; [|reflexivity].
  unfold cd_has_valid in HV. destruct (pl_read pl) eqn:EP.
  - destruct (cd_get_header true st) as [h|]; [|reflexivity]. destruct (cd_header_valid h); [reflexivity|discriminate].
  - unfold cd_get_header. destruct (zlen st =? 0); reflexivity.
Qed.
Theorem torn_erase st e c : 12 <= zlen st -> e <> 0x43 -> e <> 0x4f -> e <> 0x52 -> e <> 0x45 -> mixed st (fill (zlen st) e) c -> cd_has_valid true c <> None -> cd_has_valid true st <> None.
Proof.
  intros L12 N0 N1 N2 N3 (M1 & M2 & M3) HV. destruct (cd_has_valid true c) as [n|] eqn:E; [|congruence]. apply valid_bytes in E. destruct E as (G0 & G1 & G2 & G3).
  apply bytes_valid; [exact L12| | | |].
  - destruct (M3 _ _ G0) as [H|H]; [exact H|]. apply get_fill in H. congruence.
  - destruct (M3 _ _ G1) as [H|H]; [exact H|]. apply get_fill in H. congruence.
  - destruct (M3 _ _ G2) as [H|H]; [exact H|]. apply get_fill in H. congruence.
  - destruct (M3 _ _ G3) as [H|H]; [exact H|]. apply get_fill in H. congruence.
Qed.
Theorem save_in_bounds pl env info st : dump_ok env info -> zlen st < 4294967296 -> exists ok st' log, cd_save pl env info st = Some (ok, st', log) /\ zlen st' = zlen st.
Proof.
  intros HO HS. destruct (save_any pl env info st HO HS) as [Q|(_ & _ & _ & ok1 & s1 & new & tail & E & L & _)]; [unfold quiet in Q|]; eauto 8.
Qed.

(** ** The size computation *)
Definition O (x : Z) : cctx := mk_cctx 0 (u32 x) true false false [].
Lemma u32_add_l a b : u32 (u32 a + b) = u32 (a + b).
Proof. unfold u32. apply Z.add_mod_idemp_l. lia. Qed.
Lemma u32_mod4 a : u32 a mod 4 = a mod 4.
Proof. unfold u32. Z.div_mod_to_equations. lia. Qed.
Lemma o_write fail d x : cd_write fail d (O x) = (true, O (x + zlen d)).
Proof. unfold cd_write, O. cbn [cx_only cx_off cx_size cx_trunc cx_err cx_log]. now rewrite u32_add_l. Qed.
Lemma o_words fail n : forall d x, zlen d = 4 * Z.of_nat n -> cd_write_words fail n d (O x) = (true, O (x + zlen d)).
Proof.
  induction n as [|n IH]; intros d x H; cbn [cd_write_words]; [rewrite H, Z.add_0_r; reflexivity|].
  rewrite o_write. assert (zlen (take 4 d) = 4) by (rewrite zlen_take; lia). assert (zlen (drop 4 d) = 4 * Z.of_nat n) by (rewrite zlen_drop; lia). rewrite IH by assumption. do 2 f_equal. lia.
Qed.
Lemma o_block fail ty nu d a w x : cd_write_block fail ty nu d a w (O x) = (true, O (x + if (zlen d =? 0) || nu then 0 else 12 + zlen d)).
Proof.
  unfold cd_write_block. destruct ((zlen d =? 0) || nu); [now rewrite Z.add_0_r|]. cbv zeta. cbn [O cx_only negb andb]. fold (O x). pose proof (zlen_nonneg d).
  unfold cd_write_payload. rewrite o_write, block_len. cbn [negb]. destruct (negb w || negb (zlen d mod 4 =? 0)) eqn:E.
  - rewrite o_write. do 2 f_equal. lia.
  - apply orb_false_iff in E. destruct E as (_ & E). apply negb_false_iff, Z.eqb_eq in E. pose proof (Z.div_mod (zlen d) 4 ltac:(lia)). assert (0 <= zlen d / 4) by (apply Z.div_pos; lia).
    rewrite o_words by lia. cbn [O cx_trunc negb]. do 2 f_equal. lia.
Qed.
Lemma o_opt fail ty d x : cd_write_opt fail ty d (O x) = (true, O (x + blocks_size (some_block ty d))).
Proof.
  destruct d as [d|]; cbn [cd_write_opt some_block]; [|now rewrite Z.add_0_r]. unfold cd_write_meta. rewrite o_block. do 3 f_equal. destruct d as [|y d]; [reflexivity|].
  pose proof (cons_len y d). replace (zlen (y :: d) =? 0) with false by lia. cbn [orb blocks_size fold_right]. unfold block_size. cbn [d_data]. lia.
Qed.
Lemma o_fields fail l : forall x, cd_seq (map (fwrite fail) l) (O x) = (true, O (x + blocks_size (fblocks l))).
Proof.
  induction l as [|f l IH]; intros x; cbn [map cd_seq fblocks flat_map]; [change (blocks_size []) with 0; now rewrite Z.add_0_r|]. fold (fblocks l). unfold fwrite at 1. rewrite o_opt, IH, blocks_size_app. do 2 f_equal. lia.
Qed.
Lemma o_region fail r x : cd_write_region fail r (O x) = (true, O (region_end x r)).
Proof.
  unfold cd_write_region, cd_pad, cd_write_meta. cbn [O cx_off]. rewrite u32_mod4. fold (O x). cbv zeta. pose proof (Z.mod_pos_bound x 4 ltac:(lia)) as MB.
  assert (EP : (if x mod 4 =? 0 then O x else snd (cd_write_block fail 6 false (fill (4 - x mod 4) 0) 0 false (O x))) = O (x + (if x mod 4 =? 0 then 0 else 12 + (4 - x mod 4)))).
  { destruct (x mod 4 =? 0) eqn:E; [now rewrite Z.add_0_r|]. rewrite o_block. cbn [snd]. rewrite zlen_fill by lia. replace (4 - x mod 4 =? 0) with false by lia. reflexivity. }
  rewrite EP. unfold region_end. set (y := x + (if x mod 4 =? 0 then 0 else 12 + (4 - x mod 4))). destruct r as [ty a d|va a d]; cbn [region_block].
  - rewrite o_block. do 3 f_equal. destruct ((zlen d =? 0) || (a =? 0)); [reflexivity|]. cbn [blocks_size fold_right]. unfold block_size. cbn [d_data]. lia.
  - destruct (va =? 0) eqn:EV.
    + rewrite orb_true_r. change (blocks_size []) with 0. now rewrite Z.add_0_r.
    + rewrite o_block. do 3 f_equal. destruct ((zlen d =? 0) || false); [reflexivity|]. cbn [blocks_size fold_right]. unfold block_size. cbn [d_data]. lia.
Qed.
Lemma o_regions fail l : forall x, cd_seq (map (cd_write_region fail) l) (O x) = (true, O (fold_left region_end l x)).
Proof. induction l as [|r l IH]; intros x; cbn [map cd_seq fold_left]; [reflexivity|]. rewrite o_region. apply IH. Qed.
Theorem save_size env info : 1 <= ce_cpus env -> ci_regions info <> [] -> cd_save_size env info = size_needed env info mod 4294967296.
Proof.
  intros HC HR. unfold cd_save_size. destruct (zlen (ci_regions info) =? 0) eqn:E; [apply Z.eqb_eq, zlen_0_nil in E; contradiction|].
  unfold cd_sections. change (mk_cctx (if 16 <? 0 then 0 - 16 else 0) 12 true false false []) with (O 12). change (fun _ : Z => @None Z) with none.
  rewrite meta_seq by exact HC. rewrite o_fields, meta_fields_blocks. cbn [negb]. unfold cd_write_regions. rewrite seq3, o_regions. cbn [negb andb].
  set (x := fold_left region_end (ce_arch env ++ ce_sdk env ++ ci_regions info) (12 + blocks_size (meta_blocks env info))).
  change (mk_cctx 0 (cx_off (O x)) (cx_only (O x)) (cx_trunc (O x)) (cx_err (O x)) (cx_log (O x))) with (O x). rewrite o_write. cbn [negb]. cbv zeta.
  change (mk_cctx (cx_size (O (x + zlen (cd_footer (if cx_trunc (O x) then 1 else 0))))) 0 (cx_only (O (x + zlen (cd_footer (if cx_trunc (O x) then 1 else 0))))) (cx_trunc (O (x + zlen (cd_footer (if cx_trunc (O x) then 1 else 0))))) (cx_err (O (x + zlen (cd_footer (if cx_trunc (O x) then 1 else 0))))) (cx_log (O (x + zlen (cd_footer (if cx_trunc (O x) then 1 else 0)))))) with (O 0).
  rewrite o_write. rewrite footer_len. cbn [O cx_off]. unfold size_needed. fold x. reflexivity.
Qed.
Theorem size_exact pl env info st st' log :
  dump_ok env info -> zlen st < 4294967296 -> size_needed env info < 4294967296 -> ci_regions info <> [] ->
  cd_save pl env info st = Some (true, st', log) -> Forall (fun w => cw_ok w = true) log ->
  exists img blocks flags, cd_read true st' 0 (zlen img) = Some img /\ cd_has_valid true st' = Some (zlen img) /\ parse_dump img = Some (blocks, flags) /\
    if cd_check_size env info st
    then flags = 0 /\ zlen img = cd_save_size env info /\ content_blocks blocks = meta_blocks env info ++ memory_blocks env info
    else flags = 1.
Proof.
  intros HO HS HN HR ES OK. destruct (save_image pl env info st st' log HO HS ES OK) as (img & blocks & flags & L & _ & HV & RD & PD & X).
  exists img, blocks, flags. split; [exact RD|]. split; [exact HV|]. split; [exact PD|].
  assert (N0 : 0 <= size_needed env info). { unfold size_needed. pose proof (regions_end_le (ce_arch env ++ ce_sdk env ++ ci_regions info) (12 + blocks_size (meta_blocks env info))). pose proof (meta_size env info). lia. }
  assert (SE : cd_save_size env info = size_needed env info) by (rewrite save_size; [apply Z.mod_small; lia|apply HO|exact HR]).
  unfold cd_check_size. rewrite SE. destruct X as [(F0 & F1 & F2 & _)|(F0 & F1 & _)].
  - replace (size_needed env info <=? zlen st) with true by (symmetry; apply Z.leb_le; lia). auto.
  - replace (size_needed env info <=? zlen st) with false by (symmetry; apply Z.leb_gt; lia). exact F0.
Qed.
