(** Proofs about the coredump writer. *)
From Verif Require Import Base Coredump CoredumpSpec.

Lemma u32_in x : 0 <= x < 4294967296 -> u32 x = x.
Proof. intros H. apply u32_id. exact H. Qed.

(** ** Little-endian words *)
Lemma le_word v : is_u32 v -> le (cd_le32 v) = v.
Proof.
  intros H. unfold is_u32 in H. unfold le, cd_le32. cbn [fold_right].
  pose proof (Z.div_mod v 256 ltac:(lia)). pose proof (Z.div_mod (v / 256) 256 ltac:(lia)).
  pose proof (Z.div_mod (v / 65536) 256 ltac:(lia)).
  assert (E1 : v / 256 / 256 = v / 65536) by (rewrite Z.div_div by lia; reflexivity).
  assert (E2 : v / 65536 / 256 = v / 16777216) by (rewrite Z.div_div by lia; reflexivity).
  assert (E3 : v / 16777216 mod 256 = v / 16777216). { apply Z.mod_small. split; [apply Z.div_pos; lia|apply Z.div_lt_upper_bound; lia]. }
  lia.
Qed.
Lemma le32_len v : zlen (cd_le32 v) = 4.
Proof. reflexivity. Qed.

(** ** Encoded blocks *)
Definition enc (b : dblock) : list Z := cd_block (d_type b) (d_addr b) (zlen (d_data b)) ++ d_data b.
Definition encs (l : list dblock) : list Z := flat_map enc l.
Definition blk_ok (b : dblock) : Prop := 0 <= d_type b < 256 /\ is_u32 (d_addr b) /\ 0 < zlen (d_data b) < 4294967296.
Fixpoint offs (off : Z) (l : list dblock) : list (Z * dblock) :=
  match l with [] => [] | b :: r => (off, b) :: offs (off + block_size b) r end.
Lemma block_len t a n : zlen (cd_block t a n) = 12.
Proof. reflexivity. Qed.
Lemma enc_len b : zlen (enc b) = block_size b.
Proof. unfold enc, block_size. rewrite zlen_app, block_len. reflexivity. Qed.
Lemma encs_len l : zlen (encs l) = blocks_size l.
Proof. induction l as [|b l IH]; [reflexivity|]. cbn [encs flat_map blocks_size fold_right]. rewrite zlen_app, enc_len. fold (encs l). fold (blocks_size l). lia. Qed.
Lemma encs_app a b : encs (a ++ b) = encs a ++ encs b.
Proof. apply flat_map_app. Qed.
Lemma offs_app a : forall off b, offs off (a ++ b) = offs off a ++ offs (off + blocks_size a) b.
Proof.
  induction a as [|x a IH]; intros off b; cbn [app offs blocks_size fold_right]; [now rewrite Z.add_0_r|]. rewrite IH. fold (blocks_size a). do 3 f_equal. lia.
Qed.
Lemma offs_snd l : forall off, map snd (offs off l) = l.
Proof. induction l as [|b l IH]; intros off; cbn [offs map snd]; [reflexivity|]. now rewrite IH. Qed.
Lemma blocks_size_nonneg l : 0 <= blocks_size l.
Proof. rewrite <- encs_len. apply zlen_nonneg. Qed.
Lemma blocks_size_app a b : blocks_size (a ++ b) = blocks_size a + blocks_size b.
Proof. rewrite <- !encs_len, encs_app, zlen_app. reflexivity. Qed.

Lemma parse_encs l : Forall blk_ok l -> forall fuel off, (length (encs l) <= fuel)%nat -> parse_blocks fuel off (encs l) = Some (offs off l).
Proof.
  induction 1 as [|b l (T & A & D) F IH]; intros fuel off HF; [destruct fuel; reflexivity|].
  cbn [encs flat_map] in *. fold (encs l) in *.
  assert (LE : length (enc b ++ encs l) = Z.to_nat (block_size b + blocks_size l)). { rewrite <- enc_len, <- encs_len, <- zlen_app. unfold zlen. now rewrite Nat2Z.id. }
  pose proof (blocks_size_nonneg l) as BN. unfold block_size in *.
  destruct fuel as [|fuel]; [exfalso; rewrite LE in HF; lia|].
  assert (EX : enc b ++ encs l = [d_type b; 0; 0; 0] ++ cd_le32 (d_addr b) ++ cd_le32 (zlen (d_data b)) ++ d_data b ++ encs l).
  { unfold enc, cd_block. rewrite <- !app_assoc. reflexivity. }
  assert (LZ : zlen (enc b ++ encs l) = 12 + zlen (d_data b) + blocks_size l) by (rewrite zlen_app, enc_len, encs_len; reflexivity).
  assert (LEN : le (take 4 (drop 8 (enc b ++ encs l))) = zlen (d_data b)).
  { rewrite EX. change (drop 8 ([d_type b; 0; 0; 0] ++ cd_le32 (d_addr b) ++ cd_le32 (zlen (d_data b)) ++ d_data b ++ encs l)) with (cd_le32 (zlen (d_data b)) ++ d_data b ++ encs l).
    rewrite take_app_exact by reflexivity. apply le_word. unfold is_u32. lia. }
  cbn [parse_blocks]. rewrite LEN, LZ.
  destruct (enc b ++ encs l) as [|z rest] eqn:EL; [cbn [app] in EX; discriminate EX|].
  replace (_ && _ && _) with true by lia. rewrite EX.
  assert (D12 : drop 12 ([d_type b; 0; 0; 0] ++ cd_le32 (d_addr b) ++ cd_le32 (zlen (d_data b)) ++ d_data b ++ encs l) = d_data b ++ encs l) by reflexivity.
  assert (DN : drop (12 + zlen (d_data b)) ([d_type b; 0; 0; 0] ++ cd_le32 (d_addr b) ++ cd_le32 (zlen (d_data b)) ++ d_data b ++ encs l) = encs l).
  { replace (12 + zlen (d_data b)) with (zlen (d_data b) + 12) by lia. rewrite <- drop_drop, D12 by lia. apply drop_app_exact. reflexivity. }
  rewrite DN, D12. rewrite IH by (rewrite LE in HF; unfold encs in *; assert (zlen (encs l) = blocks_size l) by apply encs_len; unfold zlen, encs in *; lia).
  cbn [bind offs]. rewrite (take_app_exact (zlen (d_data b))) by reflexivity.
  assert (E1 : le (take 1 ([d_type b; 0; 0; 0] ++ cd_le32 (d_addr b) ++ cd_le32 (zlen (d_data b)) ++ d_data b ++ encs l)) = d_type b).
  { change (take 1 ([d_type b; 0; 0; 0] ++ cd_le32 (d_addr b) ++ cd_le32 (zlen (d_data b)) ++ d_data b ++ encs l)) with [d_type b]. unfold le. cbn [fold_right]. lia. }
  assert (E4 : le (take 4 (drop 4 ([d_type b; 0; 0; 0] ++ cd_le32 (d_addr b) ++ cd_le32 (zlen (d_data b)) ++ d_data b ++ encs l))) = d_addr b).
  { change (take 4 (drop 4 ([d_type b; 0; 0; 0] ++ cd_le32 (d_addr b) ++ cd_le32 (zlen (d_data b)) ++ d_data b ++ encs l))) with (cd_le32 (d_addr b)). now apply le_word. }
  rewrite E1, E4. unfold block_size. rewrite Z.add_assoc. destruct b; reflexivity.
Qed.

(** ** The writer when no write fails *)
Definition none : Z -> option Z := fun _ => None.
Fixpoint evs (off : Z) (ds : list (list Z)) : list cwrite :=
  match ds with [] => [] | d :: r => mk_cwrite off d true (zlen d) :: evs (off + zlen d) r end.
Lemma evs_app a : forall off b, evs off (a ++ b) = evs off a ++ evs (off + zlen (concat a)) b.
Proof.
  induction a as [|x a IH]; intros off b; cbn [app evs concat]; [now rewrite Z.add_0_r|]. rewrite IH, zlen_app. do 3 f_equal. lia.
Qed.
Lemma apply_app a : forall st b, cd_apply st (a ++ b) = do st <- cd_apply st a; cd_apply st b.
Proof. induction a as [|w a IH]; intros st b; [reflexivity|]. cbn [app cd_apply]. destruct (cd_apply1 st w); [apply IH|reflexivity]. Qed.
Lemma apply_evs ds : forall p s, zlen (concat ds) <= zlen s ->
  cd_apply (p ++ s) (evs (zlen p) ds) = Some (p ++ concat ds ++ drop (zlen (concat ds)) s).
Proof.
  induction ds as [|d ds IH]; intros p s H; cbn [evs cd_apply concat] in *; [change (zlen (@nil Z)) with 0; now rewrite drop_0|].
  rewrite zlen_app in H. pose proof (zlen_nonneg (concat ds)). pose proof (zlen_nonneg p). pose proof (zlen_nonneg d). unfold cd_apply1. cbn [cw_off cw_data cw_done].
  rewrite (zlen_app p s). replace (_ && _) with true by lia. rewrite (take_all _ d) by lia. rewrite splice_app_pre by lia. cbn [bind].
  rewrite app_assoc. rewrite <- zlen_app. rewrite IH by (rewrite zlen_drop; lia). rewrite <- !app_assoc. rewrite drop_drop by lia. rewrite zlen_app, (Z.add_comm (zlen d)). reflexivity.
Qed.

Definition C (size : Z) (ds : list (list Z)) (t : bool) : cctx := mk_cctx size (12 + zlen (concat ds)) false t false (evs 12 ds).
Definition off_of (ds : list (list Z)) : Z := 12 + zlen (concat ds).
Lemma nf_write size ds t d : off_of ds + zlen d < 4294967296 -> cd_write none d (C size ds t) = (true, C size (ds ++ [d]) t).
Proof.
  intros H. unfold cd_write, C, none, off_of in *. cbn [cx_only cx_off cx_size cx_trunc cx_err cx_log].
  pose proof (zlen_nonneg (concat ds)). pose proof (zlen_nonneg d). rewrite u32_in by lia. rewrite concat_app, zlen_app, evs_app. cbn [concat evs]. rewrite app_nil_r. do 2 f_equal. lia.
Qed.
Lemma nf_words size t n : forall ds d, zlen d = 4 * Z.of_nat n -> off_of ds + zlen d < 4294967296 ->
  exists ds', cd_write_words none n d (C size ds t) = (true, C size (ds ++ ds') t) /\ concat ds' = d.
Proof.
  induction n as [|n IH]; intros ds d L H; cbn [cd_write_words].
  - exists []. rewrite app_nil_r. split; [reflexivity|]. symmetry. apply zlen_0_nil. lia.
  - rewrite nf_write by (rewrite zlen_take; unfold off_of in *; lia).
    destruct (IH (ds ++ [take 4 d]) (drop 4 d)) as (ds' & E & EC).
    + rewrite zlen_drop. lia.
    + unfold off_of in *. rewrite concat_app, zlen_app. cbn [concat]. rewrite app_nil_r, zlen_take, zlen_drop. lia.
    + exists (take 4 d :: ds'). rewrite E. split; [rewrite <- app_assoc; reflexivity|]. cbn [concat]. rewrite EC. apply take_drop.
Qed.
Lemma nf_payload size ds t ty a d w : 0 <= zlen d -> off_of ds + 12 + zlen d < 4294967296 ->
  exists ds', cd_write_payload none ty a d w (C size ds t) = (negb w || negb (zlen d mod 4 =? 0) || negb t, C size (ds ++ ds') t) /\
    concat ds' = enc (mk_dblock ty a d).
Proof.
  intros H0 H. unfold cd_write_payload. rewrite nf_write by (rewrite block_len; lia). cbn [negb].
  assert (OF : off_of (ds ++ [cd_block ty a (zlen d)]) = off_of ds + 12). { unfold off_of. rewrite concat_app, zlen_app. cbn [concat]. rewrite app_nil_r, block_len. lia. }
  destruct (negb w || negb (zlen d mod 4 =? 0)) eqn:E.
  - rewrite nf_write by lia. exists [cd_block ty a (zlen d); d]. split; [rewrite <- app_assoc; reflexivity|]. cbn [concat]. rewrite app_nil_r. reflexivity.
  - apply orb_false_iff in E. destruct E as (_ & E). apply negb_false_iff, Z.eqb_eq in E.
    destruct (nf_words size t (Z.to_nat (zlen d / 4)) (ds ++ [cd_block ty a (zlen d)]) d) as (ds' & EW & EC).
    + pose proof (Z.div_mod (zlen d) 4 ltac:(lia)). assert (0 <= zlen d / 4) by (apply Z.div_pos; lia). lia.
    + lia.
    + rewrite EW. cbn [orb C cx_trunc]. exists (cd_block ty a (zlen d) :: ds'). split; [rewrite <- app_assoc; reflexivity|]. cbn [concat]. rewrite EC. reflexivity.
Qed.

(** Blocks written, not written, or cut. *)
Lemma floor4 x : 0 <= x -> 0 <= x / 4 * 4 <= x /\ x - x / 4 * 4 < 4 /\ (x / 4 * 4) mod 4 = 0.
Proof. intros H. pose proof (Z.div_mod x 4 ltac:(lia)). pose proof (Z.mod_pos_bound x 4 ltac:(lia)). rewrite Z.mod_mul by lia. lia. Qed.
Lemma nf_block size ds t ty nu d a w : zlen d < 4294967284 -> size < 4294967296 ->
  exists b ds' t', cd_write_block none ty nu d a w (C size ds t) = (b, C size (ds ++ ds') t') /\
   (((zlen d = 0 \/ nu = true) /\ b = true /\ ds' = [] /\ t' = t) \/
    (0 < zlen d /\ nu = false /\ off_of ds + 12 + zlen d <= size /\ concat ds' = enc (mk_dblock ty a d) /\ t' = t /\
       b = negb w || negb (zlen d mod 4 =? 0) || negb t) \/
    (0 < zlen d /\ nu = false /\ size < off_of ds + 12 + zlen d /\ t' = true /\
       ((b = false /\ ds' = [] /\ size < off_of ds + 16) \/
        exists n, 0 < n < zlen d /\ n mod 4 = 0 /\ concat ds' = enc (mk_dblock ty a (take n d)) /\ 0 <= size - (off_of ds + 12 + n) < 4))).
Proof.
  intros HD HS. pose proof (zlen_nonneg d) as DN. pose proof (zlen_nonneg (concat ds)) as CN. unfold cd_write_block.
  destruct ((zlen d =? 0) || nu) eqn:E0.
  { exists true, [], t. rewrite app_nil_r. split; [reflexivity|]. left. split; [apply orb_true_iff in E0; destruct E0; [left; lia|now right]|auto]. }
  apply orb_false_iff in E0. destruct E0 as (E0 & ->). rewrite u32_in by lia. cbn [C cx_off cx_size cx_only cx_trunc cx_err cx_log negb andb]. fold (off_of ds).
  assert (OP : 12 <= off_of ds) by (unfold off_of; lia).
  destruct ((if off_of ds <? size then size - off_of ds else 0) <? 12 + zlen d) eqn:EF.
  - assert (LT : size < off_of ds + 12 + zlen d) by (destruct (off_of ds <? size) eqn:EO; lia).
    destruct ((if off_of ds <? size then size - off_of ds else 0) <? 12) eqn:E12.
    { exists false, [], true. rewrite app_nil_r. split; [reflexivity|]. right. right. do 4 (split; [lia||reflexivity|]). left. split; [reflexivity|]. split; [reflexivity|]. destruct (off_of ds <? size) eqn:EO2; lia. }
    destruct (off_of ds <? size) eqn:EO; [|lia]. destruct (floor4 (size - off_of ds - 12)) as (F1 & F2 & F3); [lia|].
    set (n := (size - off_of ds - 12) / 4 * 4) in *. destruct (n =? 0) eqn:EN.
    { exists false, [], true. rewrite app_nil_r. split; [reflexivity|]. right. right. do 4 (split; [lia||reflexivity|]). left. split; [reflexivity|]. split; [reflexivity|]. lia. }
    assert (LN : zlen (take n d) = n) by (rewrite zlen_take; lia).
    fold (C size ds true).
    destruct (nf_payload size ds true ty a (take n d) w) as (ds' & EP & EC); [lia|lia|]. change (mk_cctx size (off_of ds) false true false (evs 12 ds)) with (C size ds true). rewrite EP.
    eexists _, ds', true. split; [reflexivity|]. right. right. do 4 (split; [lia||reflexivity|]). right. exists n. split; [lia|]. split; [exact F3|]. split; [exact EC|lia].
  - assert (LE : off_of ds + 12 + zlen d <= size) by (destruct (off_of ds <? size) eqn:EO; lia).
    change (mk_cctx size (off_of ds) false t false (evs 12 ds)) with (C size ds t).
    destruct (nf_payload size ds t ty a d w) as (ds' & EP & EC); [lia|lia|]. rewrite EP.
    eexists _, ds', t. split; [reflexivity|]. right. left. split; [lia|]. split; [reflexivity|]. split; [exact LE|]. split; [exact EC|]. split; reflexivity.
Qed.
Lemma off_app ds ds' : off_of (ds ++ ds') = off_of ds + zlen (concat ds').
Proof. unfold off_of. rewrite concat_app, zlen_app. lia. Qed.

(** ** The blocks before the regions *)
Lemma cons_len {A} (x : A) l : 0 < zlen (x :: l).
Proof. rewrite zlen_cons. pose proof (zlen_nonneg l). lia. Qed.
Lemma nf_opt size ds t ty od : field_ok od -> size < 4294967296 ->
  exists b ds' t', cd_write_opt none ty od (C size ds t) = (b, C size (ds ++ ds') t') /\
   ((b = true /\ t' = t /\ concat ds' = encs (some_block ty od) /\ (some_block ty od = [] \/ off_of ds + blocks_size (some_block ty od) <= size)) \/
    (size < off_of ds + blocks_size (some_block ty od) /\
       (b = false \/ (size - off_of (ds ++ ds') < 4 /\ match od with Some d => 4 < zlen d | None => False end)))).
Proof.
  intros F HS. destruct od as [d|]; cbn [cd_write_opt some_block field_ok] in *.
  - unfold cd_write_meta. destruct (nf_block size ds t ty false d 0 false F HS) as (b & ds' & t' & E & [(SK & -> & -> & ->)|[(P & _ & L & EC & -> & ->)|(P & _ & L & -> & X)]]).
    + exists true, [], t. split; [exact E|]. left. split; [reflexivity|]. split; [reflexivity|]. destruct d as [|x d]; [split; [reflexivity|now left]|]. pose proof (cons_len x d). destruct SK; [lia|discriminate].
    + exists true, ds', t. split; [exact E|]. left. split; [reflexivity|]. split; [reflexivity|]. destruct d as [|x d]; [change (zlen (@nil Z)) with 0 in P; lia|].
      cbn [encs flat_map blocks_size fold_right]. rewrite app_nil_r. split; [exact EC|]. right. unfold block_size. cbn [d_data]. lia.
    + exists b, ds', true. split; [exact E|]. right. destruct d as [|x d]; [change (zlen (@nil Z)) with 0 in P; lia|]. split; [cbn [blocks_size fold_right]; unfold block_size; cbn [d_data]; lia|].
      destruct X as [(-> & _)|(n & N1 & N2 & EC & N3)]; [now left|]. right. rewrite off_app, EC, enc_len. unfold block_size. cbn [d_data]. rewrite zlen_take. split; [lia|].
      destruct (Z.le_gt_cases (zlen (x :: d)) 4); [|lia]. exfalso. assert (N4 : n = 1 \/ n = 2 \/ n = 3) by lia. destruct N4 as [N4|[N4|N4]]; rewrite N4 in N2; discriminate N2.
  - exists true, [], t. rewrite app_nil_r. split; [reflexivity|]. left. auto.
Qed.
Notation field := (Z * option (list Z))%type.
Definition fwrite (fail : Z -> option Z) (f : field) : cctx -> bool * cctx := cd_write_opt fail (fst f) (snd f).
Definition fblocks (l : list field) : list dblock := flat_map (fun f => some_block (fst f) (snd f)) l.
Lemma nf_fields size : size < 4294967296 -> forall fs ds t, Forall (fun f => field_ok (snd f)) fs ->
  exists b ds' t', cd_seq (map (fwrite none) fs) (C size ds t) = (b, C size (ds ++ ds') t') /\
   ((b = true /\ t' = t /\ concat ds' = encs (fblocks fs) /\ (fblocks fs = [] \/ off_of ds + blocks_size (fblocks fs) <= size)) \/
    (size < off_of ds + blocks_size (fblocks fs) /\ (b = false \/ size - off_of (ds ++ ds') < 4))).
Proof.
  intros HS. induction fs as [|f fs IH]; intros ds t F; cbn [map cd_seq fblocks flat_map].
  - exists true, [], t. rewrite app_nil_r. split; [reflexivity|]. left. auto.
  - fold (fblocks fs). unfold fwrite at 1.
    destruct (nf_opt size ds t (fst f) (snd f) (Forall_inv F) HS) as (b & d1 & t1 & E & X). rewrite E.
    rewrite blocks_size_app. pose proof (blocks_size_nonneg (fblocks fs)) as N1. pose proof (blocks_size_nonneg (some_block (fst f) (snd f))) as N2.
    destruct b.
    + destruct (IH (ds ++ d1) t1 (Forall_inv_tail F)) as (b2 & d2 & t2 & E2 & X2). exists b2, (d1 ++ d2), t2. rewrite E2, app_assoc. split; [reflexivity|].
      destruct X as [(_ & -> & EC & FT)|(LT & [?|(ST & _)])]; [|discriminate|].
      * assert (OF : off_of (ds ++ d1) = off_of ds + blocks_size (some_block (fst f) (snd f))) by (rewrite off_app, EC, encs_len; reflexivity). rewrite OF in X2.
        destruct X2 as [(-> & -> & EC2 & FT2)|(LT2 & Y)].
        { left. split; [reflexivity|]. split; [reflexivity|]. split; [rewrite concat_app, EC, EC2, encs_app; reflexivity|].
          destruct FT2 as [F0|FT2]; [|right; lia]. rewrite F0, app_nil_r. destruct FT as [FT|FT]; [now left|]. right. change (blocks_size []) with 0. lia. }
        right. split; [lia|]. exact Y.
      * right. split; [lia|]. destruct X2 as [(-> & -> & EC2 & FT2)|(LT2 & Y)]; [|exact Y]. right.
        destruct FT2 as [F0|FT2]; [rewrite F0 in EC2; rewrite off_app, EC2; change (zlen (encs [])) with 0; lia|]. 
        pose proof (zlen_nonneg (concat d2)). rewrite off_app. lia.
    + exists false, d1, t1. split; [reflexivity|]. right. destruct X as [(? & _)|(LT & _)]; [discriminate|]. split; [lia|now left].
Qed.
Lemma seq_app a : forall b c, cd_seq (a ++ b) c = let (ok, c) := cd_seq a c in if ok then cd_seq b c else (false, c).
Proof. induction a as [|f a IH]; intros b c; cbn [app cd_seq]; [reflexivity|]. destruct (f c) as [ok c1]. destruct ok; [apply IH|reflexivity]. Qed.
Lemma seq_single f c : cd_seq [f] c = f c.
Proof. cbn [cd_seq]. destruct (f c) as [[] ?]; reflexivity. Qed.
(** A last field of four bytes is written whole or not at all. *)
Lemma nf_fields_last size : size < 4294967296 -> forall fs ty d ds t, Forall (fun f => field_ok (snd f)) fs -> zlen d = 4 ->
  let all := fs ++ [(ty, Some d)] in
  exists b ds' t', cd_seq (map (fwrite none) all) (C size ds t) = (b, C size (ds ++ ds') t') /\
   ((b = true /\ t' = t /\ concat ds' = encs (fblocks all) /\ off_of ds + blocks_size (fblocks all) <= size) \/
    (b = false /\ size < off_of ds + blocks_size (fblocks all))).
Proof.
  intros HS fs ty d ds t F L all. unfold all. rewrite map_app, seq_app. destruct (nf_fields size HS fs ds t F) as (b & d1 & t1 & E & X). rewrite E.
  assert (FB : fblocks (fs ++ [(ty, Some d)]) = fblocks fs ++ [mk_dblock ty 0 d]).
  { unfold fblocks. rewrite flat_map_app. cbn [flat_map fst snd some_block]. destruct d as [|x d]; [change (zlen (@nil Z)) with 0 in L; lia|reflexivity]. }
  assert (BS : blocks_size (fblocks (fs ++ [(ty, Some d)])) = blocks_size (fblocks fs) + 16) by (rewrite FB, blocks_size_app; cbn [blocks_size fold_right]; unfold block_size; cbn [d_data]; lia).
  rewrite BS. destruct b.
  - cbn [map]. rewrite seq_single. unfold fwrite. cbn [fst snd].
    destruct (nf_opt size (ds ++ d1) t1 ty (Some d)) as (b2 & d2 & t2 & E2 & X2); [cbn [field_ok]; lia|exact HS|].
    assert (SB : some_block ty (Some d) = [mk_dblock ty 0 d]) by (cbn [some_block]; destruct d as [|x d]; [change (zlen (@nil Z)) with 0 in L; lia|reflexivity]).
    rewrite SB in X2. assert (B1 : blocks_size [mk_dblock ty 0 d] = 16) by (cbn [blocks_size fold_right]; unfold block_size; cbn [d_data]; lia). rewrite B1 in X2.
    exists b2, (d1 ++ d2), t2. rewrite E2, app_assoc. split; [reflexivity|].
    destruct X as [(_ & -> & EC & FT)|(LT & [?|ST])]; [|discriminate|].
    + assert (OF : off_of (ds ++ d1) = off_of ds + blocks_size (fblocks fs)) by (rewrite off_app, EC, encs_len; reflexivity). rewrite OF in X2.
      destruct X2 as [(-> & -> & EC2 & [?|FT2])|(LT2 & [->|(_ & ?)])]; [discriminate| |right; split; [reflexivity|lia]|lia].
      left. split; [reflexivity|]. split; [reflexivity|]. split; [|lia]. rewrite FB, encs_app, concat_app, EC, EC2. reflexivity.
    + destruct X2 as [(-> & -> & EC2 & [?|FT2])|(LT2 & [->|(_ & ?)])]; [discriminate|lia| |lia]. right. split; [reflexivity|lia].
  - exists false, d1, t1. split; [reflexivity|]. right. split; [reflexivity|]. destruct X as [(? & _)|(LT & _)]; [discriminate|lia].
Qed.

(** The fields of a coredump. *)
Definition meta_fields (env : cenv) (info : cinfo) : list field :=
  map (fun s => (0, Some s)) (match ci_regs info with Some regs => slices (Z.to_nat (ce_cpus env)) (zlen regs / ce_cpus env) regs | None => [] end)
  ++ [(12, ce_build env); (2, ce_serial env); (10, ce_swver env); (11, ce_swtype env); (4, ce_hwver env); (7, Some (cd_le32 (ce_machine env)))].
Lemma slices_map k l : 0 <= k -> forall n j, slices n k (drop (Z.of_nat j * k) l) = map (fun i => take k (drop (Z.of_nat i * k) l)) (seq j n).
Proof.
  intros HK. induction n as [|n IH]; intros j; [reflexivity|]. cbn [slices seq map]. f_equal. rewrite drop_drop by lia. rewrite <- IH. f_equal. f_equal. lia.
Qed.
Lemma meta_seq fail env info : 1 <= ce_cpus env -> forall c,
  cd_seq [cd_write_regs fail env (ci_regs info); cd_write_device_info fail env; cd_write_meta fail 5 (cd_le32 (ci_reason info))] c =
  cd_seq (map (fwrite fail) (meta_fields env info ++ [(5, Some (cd_le32 (ci_reason info)))])) c.
Proof.
  intros HC c. unfold meta_fields. rewrite !map_app, <- app_assoc, seq_app.
  assert (R : cd_write_regs fail env (ci_regs info) c = cd_seq (map (fwrite fail) (map (fun s => (0, Some s)) (match ci_regs info with Some regs => slices (Z.to_nat (ce_cpus env)) (zlen regs / ce_cpus env) regs | None => [] end))) c).
  { unfold cd_write_regs. destruct (ci_regs info) as [regs|]; [|reflexivity]. cbv zeta. f_equal. rewrite map_map.
    pose proof (slices_map (zlen regs / ce_cpus env) regs) as SM. specialize (SM ltac:(apply Z.div_pos; [apply zlen_nonneg|lia]) (Z.to_nat (ce_cpus env)) 0%nat).
    change (Z.of_nat 0 * (zlen regs / ce_cpus env)) with 0 in SM. rewrite drop_0 in SM. rewrite SM, map_map. reflexivity. }
  cbn [cd_seq]. rewrite R. destruct (cd_seq _ c) as [ok c1]. destruct ok; [|reflexivity]. rewrite seq_app. unfold cd_write_device_info. cbn [map]. unfold fwrite. cbn [fst snd cd_write_opt].
  destruct (cd_seq _ c1) as [ok2 c2]. destruct ok2; [|reflexivity]. rewrite seq_single. cbn [cd_write_opt]. destruct (cd_write_meta fail 5 _ c2) as [[] ?]; reflexivity.
Qed.
Lemma meta_fields_blocks env info : fblocks (meta_fields env info ++ [(5, Some (cd_le32 (ci_reason info)))]) = meta_blocks env info.
Proof.
  unfold fblocks, meta_fields, meta_blocks. rewrite !flat_map_app. cbn [flat_map fst snd].
  assert (FM : forall l : list (list Z), flat_map (fun f : field => some_block (fst f) (snd f)) (map (fun s => (0, Some s)) l) = flat_map (fun s => some_block 0 (Some s)) l).
  { induction l as [|s l IH]; [reflexivity|]. cbn [map flat_map fst snd]. now rewrite IH. }
  rewrite FM. rewrite <- !app_assoc. cbn [some_block cd_le32 app]. destruct (ci_regs info); cbn [flat_map]; reflexivity.
Qed.
Lemma slices_len k n : forall l, Forall (fun s => zlen s <= zlen l) (slices n k l).
Proof.
  induction n as [|n IH]; intros l; cbn [slices]; constructor.
  - rewrite zlen_take. pose proof (zlen_nonneg l). lia.
  - eapply Forall_impl; [|apply IH]. intros s H. rewrite zlen_drop in H. pose proof (zlen_nonneg l). lia.
Qed.
Lemma meta_fields_ok env info : dump_ok env info -> Forall (fun f => field_ok (snd f)) (meta_fields env info).
Proof.
  intros (_ & _ & _ & HR & HF & _). unfold meta_fields. apply Forall_app. split.
  - destruct (ci_regs info) as [regs|]; [|constructor]. cbn [field_ok] in HR. apply Forall_map. eapply Forall_impl; [|apply slices_len]. intros s H. cbn [snd field_ok] in *. lia.
  - inv HF. inv H2. inv H4. inv H5. inv H6. repeat (apply Forall_cons; [assumption|]). apply Forall_cons; [cbn [snd field_ok]; rewrite le32_len; lia|constructor].
Qed.
Lemma meta_ok env info size : dump_ok env info -> size < 4294967296 ->
  exists b ds t, cd_seq [cd_write_regs none env (ci_regs info); cd_write_device_info none env; cd_write_meta none 5 (cd_le32 (ci_reason info))] (C size [] false) = (b, C size ds t) /\
   ((b = true /\ t = false /\ concat ds = encs (meta_blocks env info) /\ 12 + blocks_size (meta_blocks env info) <= size) \/
    (b = false /\ size < 12 + blocks_size (meta_blocks env info))).
Proof.
  intros D HS. pose proof D as (HC & _). rewrite meta_seq by exact HC.
  destruct (nf_fields_last size HS (meta_fields env info) 5 (cd_le32 (ci_reason info)) [] false (meta_fields_ok _ _ D) eq_refl) as (b & ds & t & E & X).
  rewrite meta_fields_blocks in X. exists b, ds, t. split; [exact E|]. change (off_of []) with 12 in X. tauto.
Qed.
Lemma meta_blk_ok env info : dump_ok env info -> Forall blk_ok (meta_blocks env info).
Proof.
  intros D. assert (FB : forall l, Forall (fun f : field => field_ok (snd f) /\ 0 <= fst f < 256) l -> Forall blk_ok (fblocks l)).
  { induction 1 as [|[ty od] l (H1 & H2) F IH]; [constructor|]. cbn [fblocks flat_map]. apply Forall_app. split; [|exact IH]. cbn [fst snd] in *.
    destruct od as [[|x d]|]; cbn [some_block]; try constructor; [|constructor]. cbn [field_ok] in H1. split; [exact H2|]. split; [unfold is_u32; cbn; lia|]. cbn [d_data]. pose proof (cons_len x d). lia. }
  rewrite <- meta_fields_blocks. apply FB. apply Forall_app. split; [|apply Forall_cons; [split; [cbn [snd field_ok]; rewrite le32_len; lia|cbn [fst]; lia]|constructor]].
  pose proof (meta_fields_ok env info D) as F. unfold meta_fields in *. apply Forall_app in F. destruct F as (F1 & F2). apply Forall_app. split.
  - rewrite Forall_forall in *. intros f I. split; [now apply F1|]. apply in_map_iff in I. destruct I as (s & <- & _). cbn [fst]. lia.
  - rewrite Forall_forall in *. intros f I. split; [now apply F2|]. cbn [In] in I. decompose [or] I; subst; cbn [fst]; try lia; contradiction.
Qed.

(** ** The regions *)
Definition strip (l : list dblock) : list dblock := filter (fun b => negb (d_type b =? 6)) l.
Lemma strip_app a b : strip (a ++ b) = strip a ++ strip b.
Proof. apply filter_app. Qed.
Definition pad_of (off : Z) : Z := if off mod 4 =? 0 then 0 else 12 + (4 - off mod 4).
Definition aligned (p : Z * dblock) : Prop := d_type (snd p) = 6 \/ fst p mod 4 = 0.
Lemma pad_align off : (off + pad_of off) mod 4 = 0 /\ 0 <= pad_of off <= 15.
Proof. unfold pad_of. destruct (off mod 4 =? 0) eqn:E; Z.div_mod_to_equations; lia. Qed.

Lemma nf_pad size ds t : size < 4294967296 ->
  exists ds' t' P, cd_pad none (C size ds t) = C size (ds ++ ds') t' /\ concat ds' = encs P /\ Forall blk_ok P /\ strip P = [] /\
    off_of (ds ++ ds') <= Z.max size (off_of ds) /\ (t = true -> t' = true) /\ Forall aligned (offs (off_of ds) P) /\
    (t' = false -> off_of (ds ++ ds') = off_of ds + pad_of (off_of ds)) /\
    (t = false -> off_of ds + pad_of (off_of ds) <= size -> t' = false).
Proof.
  intros HS. unfold cd_pad. cbn [C cx_off]. fold (off_of ds). unfold pad_of. pose proof (Z.mod_pos_bound (off_of ds) 4 ltac:(lia)) as MB.
  destruct (off_of ds mod 4 =? 0) eqn:EM.
  - exists [], t, []. rewrite app_nil_r. repeat split; try reflexivity; try constructor; intros; try lia; try assumption.
  - set (p := 4 - off_of ds mod 4) in *. assert (LP : zlen (fill p 0) = p) by (apply zlen_fill; lia).
    change (mk_cctx size (off_of ds) false t false (evs 12 ds)) with (C size ds t). unfold cd_write_meta.
    destruct (nf_block size ds t 6 false (fill p 0) 0 false) as (b & ds' & t' & E & [(SK & -> & -> & ->)|[(P & _ & L & EC & -> & ->)|(P & _ & L & -> & X)]]); [lia|exact HS|..].
    + destruct SK; [lia|discriminate].
    + rewrite E. exists ds', t, [mk_dblock 6 0 (fill p 0)]. cbn [snd].
      assert (OF : off_of (ds ++ ds') = off_of ds + (12 + p)) by (rewrite off_app, EC, enc_len; unfold block_size; cbn [d_data]; lia).
      split; [reflexivity|]. split; [cbn [encs flat_map]; rewrite app_nil_r; exact EC|].
      split; [constructor; [|constructor]; split; [cbn; lia|]; split; [cbn; unfold is_u32; lia|]; cbn [d_data]; lia|].
      split; [reflexivity|]. split; [lia|]. split; [auto|]. split; [constructor; [now left|constructor]|]. split; [intros; lia|auto].
    + rewrite E. exists ds', true, []. cbn [snd]. destruct X as [(-> & -> & L2)|(n & N1 & N2 & _)].
      * split; [reflexivity|]. split; [reflexivity|]. split; [constructor|]. split; [reflexivity|]. split; [rewrite app_nil_r; lia|]. split; [auto|]. split; [constructor|]. split; [discriminate|intros; lia].
      * exfalso. assert (N4 : n = 1 \/ n = 2) by lia. destruct N4 as [N4|N4]; rewrite N4 in N2; discriminate N2.
Qed.

Lemma region_types r : Forall (fun b => negb (d_type b =? 6) = true) (region_block r).
Proof.
  destruct r as [ty a d|va a d]; cbn [region_block]; destruct (_ || _); try apply Forall_nil; (apply Forall_cons; [|apply Forall_nil]); cbn [d_type]; [destruct (ty =? 3)|]; reflexivity.
Qed.
Lemma strip_all l : Forall (fun b => negb (d_type b =? 6) = true) l -> strip l = l.
Proof. induction 1 as [|b l H F IH]; [reflexivity|]. cbn [strip filter]. rewrite H. unfold strip in IH. now rewrite IH. Qed.

Lemma nf_region size ds t r : size < 4294967296 -> region_ok r ->
  exists b ds' t' L, cd_write_region none r (C size ds t) = (b, C size (ds ++ ds') t') /\ concat ds' = encs L /\ Forall blk_ok L /\
    off_of (ds ++ ds') <= Z.max size (off_of ds) /\ (t = true -> t' = true) /\
    ((strip L = region_block r /\ (t' = false -> b = true /\ off_of (ds ++ ds') = region_end (off_of ds) r /\ Forall aligned (offs (off_of ds) L))) \/
     (t' = true /\ exists k, region_block r = [k] /\
        ((b = false /\ strip L = []) \/
         exists n, 0 < n < zlen (d_data k) /\ n mod 4 = 0 /\ strip L = [mk_dblock (d_type k) (d_addr k) (take n (d_data k))] /\ size - off_of (ds ++ ds') < 4))) /\
    (t = false -> region_end (off_of ds) r <= size -> t' = false).
Proof.
  intros HS HR. unfold cd_write_region. destruct (nf_pad size ds t HS) as (d1 & t1 & P & EP & EC1 & OK1 & SP & LE1 & TT1 & AL1 & OF1 & FT1). rewrite EP. cbv zeta.
  (* skip *)
  assert (SKIP : region_block r = [] -> (match r with
      | RgCached valid addr data => if valid =? 0 then (true, C size (ds ++ d1) t1) else cd_write_block none 1 false data addr false (C size (ds ++ d1) t1)
      | RgMemory type addr data => cd_write_block none (if type =? 3 then 9 else 1) (addr =? 0) data addr (type =? 1) (C size (ds ++ d1) t1) end) = (true, C size (ds ++ d1) t1)).
  { destruct r as [ty a d|va a d]; cbn [region_block]; destruct (_ || _) eqn:EO; try discriminate; intros _.
    - unfold cd_write_block. rewrite EO. reflexivity.
    - destruct (va =? 0) eqn:EV; [reflexivity|]. rewrite orb_false_r in EO. unfold cd_write_block. rewrite EO. reflexivity. }
  destruct (region_block r) as [|k rest] eqn:EB.
  { rewrite SKIP by reflexivity. exists true, d1, t1, P. split; [reflexivity|]. split; [exact EC1|]. split; [exact OK1|]. split; [exact LE1|]. split; [exact TT1|].
    assert (RE : region_end (off_of ds) r = off_of ds + pad_of (off_of ds)) by (unfold region_end; rewrite EB; change (blocks_size []) with 0; unfold pad_of; lia).
    split; [left; split; [exact SP|]; intros HT; split; [reflexivity|]; split; [rewrite RE; auto|exact AL1]|]. rewrite RE. exact FT1. }
  (* a block *)
  assert (BL : exists ty a d w, k = mk_dblock ty a d /\ rest = [] /\ 0 <= ty < 256 /\ ty <> 6 /\ is_u32 a /\ 0 < zlen d < 4294967284 /\
     (match r with
      | RgCached valid addr data => if valid =? 0 then (true, C size (ds ++ d1) t1) else cd_write_block none 1 false data addr false (C size (ds ++ d1) t1)
      | RgMemory type addr data => cd_write_block none (if type =? 3 then 9 else 1) (addr =? 0) data addr (type =? 1) (C size (ds ++ d1) t1) end) =
     cd_write_block none ty false d a w (C size (ds ++ d1) t1)).
  { destruct r as [ty a d|va a d]; cbn [region_block region_ok] in *; destruct (_ || _) eqn:EO in EB; try discriminate; inv EB; apply orb_false_iff in EO; destruct EO as (EO1 & EO2); pose proof (zlen_nonneg d).
    - exists (if ty =? 3 then 9 else 1), a, d, (ty =? 1). rewrite EO2. destruct HR as (HA & HD).
      split; [reflexivity|]. split; [reflexivity|]. split; [destruct (ty =? 3); lia|]. split; [destruct (ty =? 3); lia|]. split; [exact HA|]. split; [lia|reflexivity].
    - exists 1, a, d, false. rewrite EO2. destruct HR as (HA & HD).
      split; [reflexivity|]. split; [reflexivity|]. split; [lia|]. split; [lia|]. split; [exact HA|]. split; [lia|reflexivity]. }
  destruct BL as (ty & a & d & w & -> & -> & HT & H6 & HA & HD & EQ). rewrite EQ. clear EQ SKIP.
  assert (RE : region_end (off_of ds) r = off_of ds + pad_of (off_of ds) + 12 + zlen d) by (unfold region_end; rewrite EB; cbn [blocks_size fold_right]; unfold block_size, pad_of; cbn [d_data]; lia).
  pose proof (pad_align (off_of ds)) as (PA & PB).
  destruct (nf_block size (ds ++ d1) t1 ty false d a w ltac:(lia) HS) as (b & d2 & t2 & E & [(SK & _)|[(_ & _ & L & EC & -> & EBB)|(_ & _ & L & -> & X)]]).
  - destruct SK; [lia|discriminate].
  - rewrite E. exists b, (d1 ++ d2), t1, (P ++ [mk_dblock ty a d]). rewrite app_assoc. split; [reflexivity|].
    assert (ES : encs [mk_dblock ty a d] = enc (mk_dblock ty a d)) by (cbn [encs flat_map]; now rewrite app_nil_r).
    assert (BS : off_of ((ds ++ d1) ++ d2) = off_of (ds ++ d1) + 12 + zlen d) by (rewrite off_app, EC, enc_len; unfold block_size; cbn [d_data]; lia).
    split; [rewrite concat_app, EC1, EC, encs_app, ES; reflexivity|].
    split; [apply Forall_app; split; [exact OK1|]; constructor; [|constructor]; split; [exact HT|]; split; [exact HA|]; cbn [d_data]; lia|].
    split; [lia|]. split; [exact TT1|]. split.
    + left. split; [rewrite strip_app, SP; apply strip_all; constructor; [cbn [d_type]; lia|constructor]|]. intros HF. specialize (OF1 HF).
      split; [rewrite EBB, HF; now rewrite orb_true_r|]. split; [lia|]. rewrite offs_app. apply Forall_app. split; [exact AL1|].
      assert (BP : off_of ds + blocks_size P = off_of (ds ++ d1)) by (rewrite off_app, EC1, encs_len; reflexivity). rewrite BP. constructor; [|constructor]. right. cbn [fst]. rewrite OF1. exact PA.
    + intros HF HE. apply FT1; [exact HF|lia].
  - rewrite E. destruct X as [(-> & -> & L2)|(n & N1 & N2 & EC & N3)].
    + exists false, (d1 ++ []), true, P. rewrite !app_nil_r. split; [reflexivity|]. split; [exact EC1|]. split; [exact OK1|]. split; [exact LE1|]. split; [auto|]. split.
      * right. split; [reflexivity|]. eexists. split; [reflexivity|]. left. split; [reflexivity|exact SP].
      * intros HF HE. assert (t1 = false) by (apply FT1; [exact HF|lia]). specialize (OF1 H). lia.
    + exists b, (d1 ++ d2), true, (P ++ [mk_dblock ty a (take n d)]). rewrite app_assoc. split; [reflexivity|].
      assert (LT : zlen (take n d) = n) by (rewrite zlen_take; lia).
      assert (ES : encs [mk_dblock ty a (take n d)] = enc (mk_dblock ty a (take n d))) by (cbn [encs flat_map]; now rewrite app_nil_r).
      assert (BS : off_of ((ds ++ d1) ++ d2) = off_of (ds ++ d1) + 12 + n) by (rewrite off_app, EC, enc_len; unfold block_size; cbn [d_data]; lia).
      split; [rewrite concat_app, EC1, EC, encs_app, ES; reflexivity|].
      split; [apply Forall_app; split; [exact OK1|]; constructor; [|constructor]; split; [exact HT|]; split; [exact HA|]; cbn [d_data]; lia|].
      split; [lia|]. split; [auto|]. split.
      * right. split; [reflexivity|]. eexists. split; [reflexivity|]. right. exists n. cbn [d_data d_type d_addr]. split; [lia|]. split; [exact N2|]. split; [|lia].
        rewrite strip_app, SP. apply strip_all. constructor; [cbn [d_type]; lia|constructor].
      * intros HF HE. assert (t1 = false) by (apply FT1; [exact HF|lia]). specialize (OF1 H). lia.
Qed.

Lemma beg_nil all : beginning all [].
Proof. exists 0. left. now rewrite take_0. Qed.
Lemma take_cons {A} k (x : A) l : 0 <= k -> take (1 + k) (x :: l) = x :: take k l.
Proof. intros H. unfold take. replace (Z.to_nat (1 + k)) with (S (Z.to_nat k)) by lia. reflexivity. Qed.
Lemma drop_cons {A} k (x : A) l : 0 <= k -> drop (1 + k) (x :: l) = drop k l.
Proof. intros H. unfold drop. replace (Z.to_nat (1 + k)) with (S (Z.to_nat k)) by lia. reflexivity. Qed.
Lemma beg_cons b all s : beginning all s -> beginning (b :: all) (b :: s).
Proof.
  intros (k & H). assert (exists k', 0 <= k' /\ take k' all = take k all /\ drop k' all = drop k all) as (k' & K0 & KT & KD).
  { exists (Z.max 0 k). split; [lia|]. unfold take, drop. replace (Z.to_nat (Z.max 0 k)) with (Z.to_nat k) by lia. auto. }
  exists (1 + k'). rewrite take_cons, drop_cons, KT, KD by lia. destruct H as [->|(x & rest & n & HD & HN & HM & ->)]; [now left|]. right. exists x, rest, n. auto.
Qed.
Lemma beg_app_l l : forall all s, beginning all s -> beginning (l ++ all) (l ++ s).
Proof. induction l as [|b l IH]; intros all s H; [exact H|]. cbn [app]. apply beg_cons. auto. Qed.
Lemma beg_cut b rest n : 0 < n < zlen (d_data b) -> n mod 4 = 0 -> beginning (b :: rest) [mk_dblock (d_type b) (d_addr b) (take n (d_data b))].
Proof. intros H1 H2. exists 0. right. exists b, rest, n. rewrite drop_0, take_0. auto. Qed.
Lemma small_nil L : blocks_size L < 12 -> L = [].
Proof.
  destruct L as [|b L]; [reflexivity|]. change (blocks_size (b :: L)) with (12 + zlen (d_data b) + blocks_size L). pose proof (zlen_nonneg (d_data b)). pose proof (blocks_size_nonneg L). lia.
Qed.
Lemma region_end_le off r : off <= region_end off r.
Proof. unfold region_end. pose proof (blocks_size_nonneg (region_block r)). pose proof (pad_align off) as (_ & P). unfold pad_of in P. lia. Qed.
Lemma regions_end_le R : forall off, off <= fold_left region_end R off.
Proof. induction R as [|r R IH]; intros off; cbn [fold_left]; [lia|]. pose proof (region_end_le off r). pose proof (IH (region_end off r)). lia. Qed.

Lemma nf_regions size : size < 4294967296 -> forall R ds t, Forall region_ok R ->
  exists b ds' t' L, cd_seq (map (cd_write_region none) R) (C size ds t) = (b, C size (ds ++ ds') t') /\ concat ds' = encs L /\ Forall blk_ok L /\
    off_of (ds ++ ds') <= Z.max size (off_of ds) /\ (t = true -> t' = true) /\
    beginning (flat_map region_block R) (strip L) /\
    (t' = false -> strip L = flat_map region_block R /\ b = true /\ off_of (ds ++ ds') = fold_left region_end R (off_of ds) /\ Forall aligned (offs (off_of ds) L)) /\
    (t = false -> fold_left region_end R (off_of ds) <= size -> t' = false).
Proof.
  intros HS. induction R as [|r R IH]; intros ds t F; cbn [map cd_seq flat_map fold_left].
  - exists true, [], t, []. rewrite app_nil_r. split; [reflexivity|]. split; [reflexivity|]. split; [constructor|]. split; [lia|]. split; [auto|]. split; [apply beg_nil|]. split; [|auto].
    intros _. split; [reflexivity|]. split; [reflexivity|]. split; [reflexivity|constructor].
  - destruct (nf_region size ds t r HS (Forall_inv F)) as (b & d1 & t1 & L1 & E & EC1 & OK1 & LE1 & TT1 & X & FT1). rewrite E.
    assert (BS1 : off_of ds + blocks_size L1 = off_of (ds ++ d1)) by (rewrite off_app, EC1, encs_len; reflexivity).
    destruct b.
    + destruct (IH (ds ++ d1) t1 (Forall_inv_tail F)) as (b2 & d2 & t2 & L2 & E2 & EC2 & OK2 & LE2 & TT2 & BG & FF & FT2). rewrite E2.
      exists b2, (d1 ++ d2), t2, (L1 ++ L2). rewrite app_assoc. split; [reflexivity|]. split; [rewrite concat_app, EC1, EC2, encs_app; reflexivity|].
      split; [apply Forall_app; auto|]. split; [lia|]. split; [auto|].
      destruct X as [(SL & FA)|(-> & k & EB & [(? & _)|(n & N1 & N2 & SL & ST)])]; [|discriminate|].
      * split; [rewrite strip_app, SL; now apply beg_app_l|]. split.
        { intros HT. assert (HT1 : t1 = false) by (destruct t1; [rewrite TT2 in HT; [discriminate|reflexivity]|reflexivity]).
          destruct (FA HT1) as (_ & OF & AL). destruct (FF HT) as (SL2 & -> & OF2 & AL2). split; [rewrite strip_app, SL, SL2; reflexivity|]. split; [reflexivity|].
          split; [rewrite OF2, OF; reflexivity|]. rewrite offs_app. apply Forall_app. split; [exact AL|]. rewrite BS1. exact AL2. }
        intros HF HE. assert (HT1 : t1 = false). { apply FT1; [exact HF|]. pose proof (regions_end_le R (region_end (off_of ds) r)). lia. }
        apply FT2; [exact HT1|]. destruct (FA HT1) as (_ & OF & _). rewrite OF. exact HE.
      * assert (L2N : L2 = []). { apply small_nil. pose proof (blocks_size_nonneg L2). rewrite off_app, EC2, encs_len in LE2. lia. }
        subst L2. rewrite app_nil_r. split; [rewrite SL, EB; now apply beg_cut|]. split; [intros HT; rewrite TT2 in HT by reflexivity; discriminate|].
        intros HF HE. exfalso. enough (true = false) by discriminate. apply FT1; [exact HF|]. pose proof (regions_end_le R (region_end (off_of ds) r)). lia.
    + exists false, d1, t1, L1. split; [reflexivity|]. split; [exact EC1|]. split; [exact OK1|]. split; [exact LE1|]. split; [exact TT1|].
      assert (T1 : t1 = true). { destruct X as [(_ & FA)|(-> & _)]; [|reflexivity]. destruct t1; [reflexivity|]. destruct FA as (? & _); [reflexivity|discriminate]. }
      rewrite T1 in *. split.
      * destruct X as [(SL & _)|(_ & k & EB & [(_ & SL)|(n & N1 & N2 & SL & _)])].
        { rewrite SL. rewrite <- (app_nil_r (region_block r)) at 2. apply beg_app_l, beg_nil. }
        { rewrite SL. apply beg_nil. }
        { rewrite SL, EB. now apply beg_cut. }
      * split; [discriminate|]. intros HF HE. apply FT1; [exact HF|]. pose proof (regions_end_le R (region_end (off_of ds) r)). lia.
Qed.

(** ** Any failing writes *)
Definition wok (w : cwrite) : Prop := cw_ok w = true.
Definition okp (P : cwrite -> Prop) (w : cwrite) : Prop := wok w \/ P w.
Definition inb (lim : Z) (w : cwrite) : Prop :=
  12 <= cw_off w /\ cw_off w + zlen (cw_data w) <= lim /\ 0 <= cw_done w <= zlen (cw_data w) /\ (wok w -> cw_done w = zlen (cw_data w)).
Definition never (w : cwrite) : Prop := False.
(** [f] run from [c], [g] being the same with no failing writes. *)
Definition G1 (lim : Z) (P : cwrite -> Prop) (c : cctx) (r gr : bool * cctx) : Prop :=
  cx_only (snd r) = false /\ cx_size (snd r) = cx_size c /\ cx_off c <= cx_off (snd r) <= Z.max lim (cx_off c) /\
  (cx_err (snd r) = false -> cx_err c = false) /\
  exists new, cx_log (snd r) = cx_log c ++ new /\ Forall (inb lim) new /\ (cx_err (snd r) = false -> Forall wok new) /\
    (fst r = true -> Forall (okp P) new) /\ (Forall wok new -> gr = r).
Definition G (P : cwrite -> Prop) (f g : cctx -> bool * cctx) : Prop :=
  forall c, cx_only c = false -> cx_size c < 4294967296 -> 12 <= cx_off c -> G1 (cx_size c) P c (f c) (g c).

Lemma okp_weaken (P Q : cwrite -> Prop) l : (forall w, P w -> Q w) -> Forall (okp P) l -> Forall (okp Q) l.
Proof. intros H. apply Forall_impl. intros w [A|A]; [now left|right; auto]. Qed.
Lemma okp_wok l : Forall wok l -> forall P, Forall (okp P) l.
Proof. intros H P. revert H. apply Forall_impl. intros w A. now left. Qed.
Lemma okp_never l : Forall (okp never) l -> Forall wok l.
Proof. apply Forall_impl. intros w [A|[]]. exact A. Qed.
Lemma G_weaken (P Q : cwrite -> Prop) f g : (forall w, P w -> Q w) -> G P f g -> G Q f g.
Proof.
  intros H HG c H1 H2 H3. destruct (HG c H1 H2 H3) as (A & B & C0 & D & new & E & F & I & J & K). repeat split; try assumption; try tauto. exists new. repeat split; try assumption.
  intros X. eapply okp_weaken; eauto.
Qed.
Lemma G1_skip lim P c b : cx_only c = false -> G1 lim P c (b, c) (b, c).
Proof. intros H. repeat split; cbn [fst snd]; try assumption; try lia; auto. exists []. rewrite app_nil_r. repeat split; auto; constructor. Qed.

(** One after the other *)
Lemma G1_bind lim P c b1 c1 gr1 r2 gr2 (k : cctx -> bool * cctx) (gk : cctx -> bool * cctx) :
  G1 lim P c (b1, c1) gr1 -> (forall c1', c1' = c1 -> b1 = true -> r2 = k c1' /\ gr2 = gk c1') -> G1 lim P c1 r2 gr2 -> b1 = true ->
  G1 lim P c r2 (let (ok, c) := gr1 in if ok then gk c else (false, c)).
Proof.
  intros (A & B & C0 & D & new & E & F & I & J & K) Hk (A2 & B2 & C2 & D2 & new2 & E2 & F2 & I2 & J2 & K2) Hb. cbn [fst snd] in *.
  unfold G1. split; [exact A2|]. split; [congruence|]. split; [lia|]. split; [auto|].
  exists (new ++ new2). rewrite E2, E, app_assoc. split; [reflexivity|]. split; [apply Forall_app; auto|]. split; [intros X; apply Forall_app; auto|].
  split; [intros X; apply Forall_app; auto|]. intros X. apply Forall_app in X. destruct X as (X1 & X2). rewrite K by exact X1. rewrite Hb.
  destruct (Hk c1 eq_refl Hb) as (-> & ->). auto.
Qed.
Lemma G1_stop lim P c c1 gr1 (gk : cctx -> bool * cctx) : G1 lim P c (false, c1) gr1 -> G1 lim P c (false, c1) (let (ok, c) := gr1 in if ok then gk c else (false, c)).
Proof.
  intros (A & B & C0 & D & new & E & F & I & J & K). cbn [fst snd] in *. unfold G1. cbn [fst snd].
  split; [exact A|]. split; [exact B|]. split; [exact C0|]. split; [exact D|]. exists new. split; [exact E|]. split; [exact F|]. split; [exact I|]. split; [exact J|]. intros X. now rewrite K by exact X.
Qed.
Lemma G1_seq P lim c f g k gk : G1 lim P c (f c) (g c) -> (forall b1 c1, f c = (b1, c1) -> b1 = true -> cx_only c1 = false -> cx_size c1 = cx_size c -> cx_off c <= cx_off c1 <= Z.max lim (cx_off c) -> G1 lim P c1 (k c1) (gk c1)) ->
  G1 lim P c (let (ok, c) := f c in if ok then k c else (false, c)) (let (ok, c) := g c in if ok then gk c else (false, c)).
Proof.
  intros H1 H2. destruct (f c) as (b1 & c1) eqn:EF. destruct b1.
  - eapply G1_bind with (k := k); [exact H1| |apply (H2 true c1); auto; apply H1|reflexivity]. intros c1' -> _. auto.
  - now apply G1_stop.
Qed.
Lemma G_cdseq P fs : forall gs, Forall2 (G P) fs gs -> G P (cd_seq fs) (cd_seq gs).
Proof.
  induction fs as [|f fs IH]; intros gs F; inversion F as [|? g ? gs' HG F' ]; subst; intros c H1 H2 H3; cbn [cd_seq].
  - now apply G1_skip.
  - apply G1_seq; [now apply HG|]. intros b1 c1 E _ O1 S1 OF. rewrite <- S1. apply IH; [exact F'|exact O1|lia|lia].
Qed.

Definition fits (d : list Z) (c : cctx) : Prop := cx_off c + zlen d <= cx_size c.
Lemma G1_write fail P d c lim : cx_only c = false -> lim < 4294967296 -> 12 <= cx_off c -> cx_off c + zlen d <= lim ->
  G1 lim P c (cd_write fail d c) (cd_write none d c).
Proof.
  intros H1 H2 H3 H4. pose proof (zlen_nonneg d) as ND. unfold cd_write. rewrite H1. unfold none. rewrite u32_in by lia. destruct (fail (zlen (cx_log c))) as [k|] eqn:EF.
  - repeat split; cbn [fst snd cx_only cx_size cx_off cx_err cx_log]; try assumption; try lia; try discriminate.
    eexists. split; [reflexivity|]. split; [constructor; [|constructor]; unfold inb, wok; cbn [cw_off cw_data cw_ok cw_done]; repeat split; try lia; discriminate|].
    repeat split; try discriminate. intros X. apply Forall_inv in X. discriminate X.
  - repeat split; cbn [fst snd cx_only cx_size cx_off cx_err cx_log]; try assumption; try lia; auto.
    eexists. split; [reflexivity|]. split; [constructor; [|constructor]; unfold inb, wok; cbn [cw_off cw_data cw_ok cw_done]; repeat split; try lia|].
    repeat split; intros; constructor; try constructor; reflexivity.
Qed.
Lemma write_off fail d c c' : cd_write fail d c = (true, c') -> cx_off c + zlen d < 4294967296 -> 0 <= cx_off c -> cx_off c' = cx_off c + zlen d.
Proof.
  unfold cd_write. pose proof (zlen_nonneg d). intros E L L0. rewrite u32_in in E by lia. destruct (cx_only c); [inv E; reflexivity|]. destruct (fail _); inv E; reflexivity.
Qed.
Lemma G1_words fail lim : lim < 4294967296 -> forall n d c, cx_only c = false -> 12 <= cx_off c -> zlen d = 4 * Z.of_nat n -> cx_off c + zlen d <= lim ->
  G1 lim never c (cd_write_words fail n d c) (cd_write_words none n d c).
Proof.
  intros HL. induction n as [|n IH]; intros d c H1 H2 H3 H4; cbn [cd_write_words].
  - now apply G1_skip.
  - assert (LT : zlen (take 4 d) = 4) by (rewrite zlen_take; lia).
    apply (G1_seq never lim c (cd_write fail (take 4 d)) (cd_write none (take 4 d)) (cd_write_words fail n (drop 4 d)) (cd_write_words none n (drop 4 d))).
    + apply G1_write; try assumption. lia.
    + intros b1 c1 E -> O1 S1 OF. apply write_off in E; [|lia|lia]. assert (zlen (drop 4 d) = 4 * Z.of_nat n) by (rewrite zlen_drop; lia). apply IH; try assumption; lia.
Qed.
Lemma write_trunc fail d c : cx_trunc (snd (cd_write fail d c)) = cx_trunc c.
Proof. unfold cd_write. destruct (cx_only c); [reflexivity|]. destruct (fail _); reflexivity. Qed.
(** The result may be turned down: nothing else changes. *)
Lemma G1_down lim P c b c1 gr (q : cctx -> bool) : G1 lim P c (b, c1) gr -> G1 lim P c (if b then (q c1, c1) else (false, c1)) (let (ok, c) := gr in if ok then (q c, c) else (false, c)).
Proof.
  intros (A & B & C0 & D & new & E & F & I & J & K). cbn [fst snd] in *.
  assert (SN : snd (if b then (q c1, c1) else (false, c1)) = c1) by (destruct b; reflexivity).
  unfold G1. rewrite SN.
  split; [exact A|]. split; [exact B|]. split; [exact C0|]. split; [exact D|]. exists new. split; [exact E|]. split; [exact F|]. split; [exact I|]. split.
  - intros X. apply J. destruct b; [reflexivity|discriminate].
  - intros X. now rewrite K by exact X.
Qed.
Lemma G1_payload fail lim ty a d w c : lim < 4294967296 -> cx_only c = false -> 12 <= cx_off c -> cx_off c + 12 + zlen d <= lim ->
  G1 lim never c (cd_write_payload fail ty a d w c) (cd_write_payload none ty a d w c).
Proof.
  intros HL H1 H2 H3. pose proof (zlen_nonneg d) as ND. unfold cd_write_payload.
  assert (W : G1 lim never c (cd_write fail (cd_block ty a (zlen d)) c) (cd_write none (cd_block ty a (zlen d)) c)) by (apply G1_write; try assumption; rewrite block_len; lia).
  set (K := fun f c => if negb w || negb (zlen d mod 4 =? 0) then cd_write f d c else let (ok, c) := cd_write_words f (Z.to_nat (zlen d / 4)) d c in if ok then (negb (cx_trunc c), c) else (false, c)).
  assert (EQ : forall f, (let (ok, c0) := cd_write f (cd_block ty a (zlen d)) c in if negb ok then (false, c0) else if negb w || negb (zlen d mod 4 =? 0) then cd_write f d c0 else
      let (ok0, c1) := cd_write_words f (Z.to_nat (zlen d / 4)) d c0 in if ok0 then (negb (cx_trunc c1), c1) else (false, c1)) =
      (let (ok, c0) := cd_write f (cd_block ty a (zlen d)) c in if ok then K f c0 else (false, c0))).
  { intros f. destruct (cd_write f _ c) as ([] & c0); reflexivity. }
  rewrite !EQ. clear EQ.
  apply (G1_seq never lim c (cd_write fail (cd_block ty a (zlen d))) (cd_write none (cd_block ty a (zlen d))) (K fail) (K none)); [exact W|].
  intros b1 c1 E -> O1 S1 OF. apply write_off in E; [|rewrite block_len; lia|lia]. rewrite block_len in E. unfold K.
  destruct (negb w || negb (zlen d mod 4 =? 0)) eqn:EW.
  - apply G1_write; try assumption; lia.
  - apply orb_false_iff in EW. destruct EW as (_ & EW). apply negb_false_iff, Z.eqb_eq in EW.
    assert (GW : G1 lim never c1 (cd_write_words fail (Z.to_nat (zlen d / 4)) d c1) (cd_write_words none (Z.to_nat (zlen d / 4)) d c1)).
    { apply G1_words; try assumption; lia. }
    destruct (cd_write_words fail (Z.to_nat (zlen d / 4)) d c1) as (b2 & c2). apply (G1_down lim never c1 b2 c2 _ (fun c => negb (cx_trunc c))). exact GW.
Qed.
Lemma G_block fail ty nu d a w : zlen d < 4294967284 -> G never (cd_write_block fail ty nu d a w) (cd_write_block none ty nu d a w).
Proof.
  intros HD c H1 H2 H3. unfold cd_write_block. pose proof (zlen_nonneg d) as ND. destruct ((zlen d =? 0) || nu) eqn:E0; [now apply G1_skip|].
  rewrite u32_in by lia. rewrite H1. cbn [negb andb]. cbv zeta.
  set (free := if cx_off c <? cx_size c then cx_size c - cx_off c else 0).
  assert (HF : free = Z.max 0 (cx_size c - cx_off c)) by (unfold free; destruct (cx_off c <? cx_size c) eqn:X; lia).
  destruct (free <? 12 + zlen d) eqn:E1.
  - set (ct := mk_cctx (cx_size c) (cx_off c) false true (cx_err c) (cx_log c)).
    assert (T : forall r gr, G1 (cx_size c) never ct r gr -> G1 (cx_size c) never c r gr) by (intros r gr X; exact X).
    apply T. destruct (free <? 12) eqn:E2; [now apply G1_skip|].
    pose proof (floor4 (free - 12) ltac:(lia)) as F4. destruct ((free - 12) / 4 * 4 =? 0) eqn:E3; [now apply G1_skip|].
    apply G1_payload; try assumption; try reflexivity. cbn [ct cx_off]. rewrite zlen_take. lia.
  - apply G1_payload; try assumption; try reflexivity. lia.
Qed.
Lemma write_new fail d c : cx_only c = false -> exists w, cx_log (snd (cd_write fail d c)) = cx_log c ++ [w] /\ cw_data w = d.
Proof. intros H. unfold cd_write. rewrite H. destruct (fail _); eexists; split; reflexivity. Qed.
Lemma write_only fail d c : cx_only (snd (cd_write fail d c)) = cx_only c.
Proof. unfold cd_write. destruct (cx_only c) eqn:E; [reflexivity|]. destruct (fail _); reflexivity. Qed.
Lemma pad_new fail p c : 1 <= p <= 3 -> cx_only c = false ->
  exists new, cx_log (snd (cd_write_meta fail 6 (fill p 0) c)) = cx_log c ++ new /\ Forall padding_write new.
Proof.
  intros HP HO. unfold cd_write_meta, cd_write_block. assert (LP : zlen (fill p 0) = p) by (apply zlen_fill; lia). rewrite LP.
  replace ((p =? 0) || false) with false by (symmetry; apply orb_false_iff; split; [lia|reflexivity]). rewrite HO. cbn [negb andb]. cbv zeta. rewrite u32_in by lia.
  set (free := if cx_off c <? cx_size c then cx_size c - cx_off c else 0).
  destruct (free <? 12 + p) eqn:E1.
  - destruct (free <? 12) eqn:E2; [exists []; rewrite app_nil_r; split; [reflexivity|constructor]|].
    assert (Z0 : (free - 12) / 4 * 4 = 0) by (rewrite Z.div_small by lia; reflexivity). rewrite Z0. cbn [Z.eqb]. exists []. rewrite app_nil_r. split; [reflexivity|constructor].
  - unfold cd_write_payload. rewrite LP. cbn [negb orb]. destruct (write_new fail (cd_block 6 0 p) c HO) as (w & EL & ED).
    assert (PW : padding_write w). { exists p. split; [exact HP|]. left. rewrite ED. assert (p = 1 \/ p = 2 \/ p = 3) as [->|[->| ->]] by lia; reflexivity. }
    pose proof (write_only fail (cd_block 6 0 p) c) as WO. destruct (cd_write fail (cd_block 6 0 p) c) as (b & c1). cbn [snd] in *. destruct b; cbn [negb].
    + destruct (write_new fail (fill p 0) c1 ltac:(congruence)) as (w2 & EL2 & ED2). exists [w; w2]. rewrite EL2, EL, <- app_assoc. split; [reflexivity|].
      constructor; [exact PW|constructor; [|constructor]]. exists p. split; [exact HP|]. right. exact ED2.
    + exists [w]. cbn [snd]. split; [exact EL|]. constructor; [exact PW|constructor].
Qed.
Lemma G_pad fail : G padding_write (fun c => (true, cd_pad fail c)) (fun c => (true, cd_pad none c)).
Proof.
  intros c H1 H2 H3. unfold cd_pad. pose proof (Z.mod_pos_bound (cx_off c) 4 ltac:(lia)) as MB. destruct (cx_off c mod 4 =? 0) eqn:EM; [now apply G1_skip|].
  set (p := 4 - cx_off c mod 4). destruct (pad_new fail p c ltac:(lia) H1) as (new' & EN & PN).
  assert (LP : zlen (fill p 0) = p) by (apply zlen_fill; lia).
  destruct (G_block fail 6 false (fill p 0) 0 false ltac:(lia) c H1 H2 H3) as (A & B & C0 & D & new & E & F & I & J & K).
  unfold cd_write_meta in *. rewrite E in EN. apply app_inv_head in EN. subst new'.
  unfold G1. cbn [fst snd]. split; [exact A|]. split; [exact B|]. split; [exact C0|]. split; [exact D|]. exists new. split; [exact E|]. split; [exact F|]. split; [exact I|]. split.
  - intros _. revert PN. apply Forall_impl. intros w X. now right.
  - intros X. rewrite K by exact X. reflexivity.
Qed.
Lemma G_region fail r : region_ok r -> G padding_write (cd_write_region fail r) (cd_write_region none r).
Proof.
  intros HR c H1 H2 H3. unfold cd_write_region.
  set (K := fun f c => match r with
    | RgCached valid addr data => if valid =? 0 then (true, c) else cd_write_block f 1 false data addr false c
    | RgMemory type addr data => cd_write_block f (if type =? 3 then 9 else 1) (addr =? 0) data addr (type =? 1) c end).
  apply (G1_seq padding_write (cx_size c) c (fun c => (true, cd_pad fail c)) (fun c => (true, cd_pad none c)) (K fail) (K none)).
  - now apply G_pad.
  - intros b1 c1 E _ O1 S1 OF. unfold K. rewrite <- S1. destruct r as [ty a d|va a d]; destruct HR as (HA & HD).
    + eapply G_weaken; [|apply G_block; exact HD|exact O1|lia|lia]. intros w [].
    + destruct (va =? 0); [now apply G1_skip|]. eapply G_weaken; [|apply G_block; exact HD|exact O1|lia|lia]. intros w [].
Qed.
Lemma G_opt fail ty d : field_ok d -> G never (cd_write_opt fail ty d) (cd_write_opt none ty d).
Proof. intros H. destruct d as [d|]; [now apply G_block|]. intros c H1 H2 H3. now apply G1_skip. Qed.
Lemma G_meta fail env info : dump_ok env info ->
  G never (cd_seq [cd_write_regs fail env (ci_regs info); cd_write_device_info fail env; cd_write_meta fail 5 (cd_le32 (ci_reason info))])
          (cd_seq [cd_write_regs none env (ci_regs info); cd_write_device_info none env; cd_write_meta none 5 (cd_le32 (ci_reason info))]).
Proof.
  intros (H1 & H2 & H3 & H4 & H5 & H6). apply G_cdseq. repeat apply Forall2_cons; try apply Forall2_nil.
  - unfold cd_write_regs. destruct (ci_regs info) as [regs|]; [|intros c X1 X2 X3; now apply G1_skip].
    apply G_cdseq. induction (seq 0 (Z.to_nat (ce_cpus env))) as [|i l IH]; cbn [map]; constructor; [|exact IH]. apply G_block. cbn [field_ok] in H4. rewrite zlen_take, zlen_drop. pose proof (zlen_nonneg regs). lia.
  - repeat (apply Forall_cons_iff in H5; destruct H5 as (? & H5)). unfold cd_write_device_info. apply G_cdseq. repeat apply Forall2_cons; try apply Forall2_nil; try (apply G_opt; assumption). apply G_block. rewrite le32_len. lia.
  - apply G_block. rewrite le32_len. lia.
Qed.
Lemma seq3 {A} (f : A -> cctx -> bool * cctx) a b d c : cd_seq [cd_seq (map f a); cd_seq (map f b); cd_seq (map f d)] c = cd_seq (map f (a ++ b ++ d)) c.
Proof.
  rewrite !map_app, seq_app. cbn [cd_seq]. destruct (cd_seq (map f a) c) as ([] & c1); [|reflexivity]. rewrite seq_app. destruct (cd_seq (map f b) c1) as ([] & c2); [|reflexivity].
  destruct (cd_seq (map f d) c2) as ([] & c3); reflexivity.
Qed.

(** ** The whole save *)
Definition sizes (size0 : Z) : Z := if 16 <? size0 then size0 - 16 else size0.
Lemma footer_len f : zlen (cd_footer f) = 16.
Proof. reflexivity. Qed.
Lemma header_len f : zlen (cd_header f) = 12.
Proof. reflexivity. Qed.
Lemma meta_size env info : 32 <= blocks_size (meta_blocks env info).
Proof.
  unfold meta_blocks. rewrite !blocks_size_app. match goal with |- _ <= ?a + (?b + (?c + (?d + (?e + (?f + ?g))))) => assert (G0 : g = 32) by reflexivity; rewrite G0 end.
  repeat match goal with |- context [blocks_size ?x + _] => pose proof (blocks_size_nonneg x); generalize dependent (blocks_size x); intros end. lia.
Qed.
Definition regions_of (env : cenv) (info : cinfo) : list cregion := ce_arch env ++ ce_sdk env ++ ci_regions info.

Lemma inb_mono a b l : a <= b -> Forall (inb a) l -> Forall (inb b) l.
Proof. intros H. apply Forall_impl. intros w (A & B & C0). unfold inb. repeat split; try tauto; lia. Qed.

Theorem sections_any fail env info size0 : dump_ok env info -> size0 < 4294967296 ->
  exists ok tot c new tail, cd_sections fail env info false size0 = (ok, tot, c) /\ cx_log c = new ++ tail /\
    Forall (inb size0) new /\
    (tail = [] /\ ok = false \/
     Forall (okp padding_write) new /\ 28 <= tot <= size0 /\ exists w, tail = [w] /\ cw_off w = 0 /\ cw_data w = cd_header tot /\ cw_ok w = ok /\ 0 <= cw_done w <= 12 /\ (ok = true -> cw_done w = 12)) /\
    (Forall wok (new ++ tail) -> cd_sections none env info false size0 = (ok, tot, c)).
Proof.
  intros HO HS. assert (S0 : sizes size0 < 4294967296) by (unfold sizes; destruct (16 <? size0); lia). assert (S1 : sizes size0 <= size0) by (unfold sizes; destruct (16 <? size0); lia).
  unfold cd_sections. fold (sizes size0). change (mk_cctx (sizes size0) 12 false false false []) with (C (sizes size0) [] false).
  pose proof (G_meta fail env info HO (C (sizes size0) [] false) eq_refl S0 ltac:(vm_compute; discriminate)) as (A & B & C0 & D & new & E & F & I & J & K).
  destruct (meta_ok env info (sizes size0) HO S0) as (bm & dm & tm & EM & XM).
  destruct (cd_seq [cd_write_regs fail env (ci_regs info); _; _] _) as (b & c1) eqn:EF. cbn [fst snd] in *. cbn [C cx_size cx_log evs app] in B, E, F.
  destruct b; cbn [negb].
  2:{ exists false, 0, c1, new, []. rewrite app_nil_r. split; [reflexivity|]. split; [exact E|]. split; [eapply inb_mono; [|exact F]; lia|]. split; [now left|]. intros X. rewrite K by exact X. reflexivity. }
  (* the blocks before the regions were written *)
  specialize (J eq_refl). apply okp_never in J. specialize (K J). rewrite EM in K. inv K. destruct XM as [(_ & -> & EC & SZ)|(X & _)]; [|discriminate]. clear J D A.
  pose proof (meta_size env info) as MS. assert (OM : off_of dm = 12 + blocks_size (meta_blocks env info)) by (unfold off_of; rewrite EC, encs_len; reflexivity).
  assert (SB : sizes size0 = size0 - 16) by (unfold sizes in *; destruct (16 <? size0) eqn:X16; lia).
  rewrite EM. cbn [negb]. unfold cd_write_regions. rewrite !seq3. fold (regions_of env info).
  assert (GR : G padding_write (cd_seq (map (cd_write_region fail) (regions_of env info))) (cd_seq (map (cd_write_region none) (regions_of env info)))).
  { apply G_cdseq. destruct HO as (_ & _ & _ & _ & _ & HR). fold (regions_of env info) in HR. induction HR as [|r l H HR IH]; cbn [map]; constructor; [now apply G_region|exact IH]. }
  destruct (GR (C (sizes size0) dm false) eq_refl S0 ltac:(cbn [C cx_off]; fold (off_of dm); lia)) as (A & B2 & C2 & D2 & new2 & E2 & F2 & I2 & J2 & K2). clear GR.
  destruct (cd_seq (map (cd_write_region fail) (regions_of env info)) (C (sizes size0) dm false)) as (b & c1) eqn:EF2. cbn [fst snd] in *. change (cx_size (C (sizes size0) dm false)) with (sizes size0) in *. change (cx_log (C (sizes size0) dm false)) with (evs 12 dm) in *.
  change (cx_off (C (sizes size0) dm false)) with (off_of dm) in *.
  destruct (negb b && cx_err c1) eqn:EB.
  { exists false, 0, c1, (evs 12 dm ++ new2), []. rewrite app_nil_r. split; [reflexivity|]. split; [exact E2|]. split; [apply Forall_app; split; eapply inb_mono; try eassumption; lia|]. split; [now left|].
    intros X. apply Forall_app in X. destruct X as (X1 & X2). rewrite K2 by exact X2. rewrite EB. reflexivity. }
  assert (OK2 : Forall (okp padding_write) new2). { destruct b; [auto|]. cbn [negb andb] in EB. apply okp_wok. auto. }
  assert (OK1 : Forall (okp padding_write) (evs 12 dm)). { apply okp_wok. generalize 12. clear. induction dm as [|d dm IH]; intros o; cbn [evs]; constructor; [reflexivity|apply IH]. }
  set (c2 := mk_cctx size0 (cx_off c1) (cx_only c1) (cx_trunc c1) (cx_err c1) (cx_log c1)).
  set (ft := cd_footer (if cx_trunc c1 then 1 else 0)). assert (LF : zlen ft = 16) by reflexivity.
  destruct (G1_write fail never ft c2 size0 A HS ltac:(cbn [c2 cx_off]; lia) ltac:(cbn [c2 cx_off]; lia)) as (A3 & B3 & C3 & D3 & new3 & E3 & F3 & I3 & J3 & K3).
  pose proof (write_off fail ft c2) as WO.
  destruct (cd_write fail ft c2) as (b3 & c3) eqn:EF3. cbn [fst snd] in *. destruct b3; cbn [negb].
  2:{ exists false, 0, c3, ((evs 12 dm ++ new2) ++ new3), []. rewrite app_nil_r. split; [reflexivity|]. split; [rewrite E3; cbn [c2 cx_log]; now rewrite E2|].
      split; [apply Forall_app; split; [|exact F3]; apply Forall_app; split; eapply inb_mono; try eassumption; lia|]. split; [now left|].
      intros X. apply Forall_app in X. destruct X as (X12 & X3). apply Forall_app in X12. destruct X12 as (X1 & X2). rewrite K2 by exact X2. rewrite EB. fold c2 ft. rewrite K3 by exact X3. reflexivity. }
  specialize (WO c3 eq_refl ltac:(cbn [c2 cx_off]; lia) ltac:(cbn [c2 cx_off]; lia)). cbn [c2 cx_off] in WO. rewrite LF in WO.
  specialize (J3 eq_refl). pose proof (okp_never _ J3) as W3.
  assert (EQN : Forall wok new2 -> (let (completed, c) := cd_seq (map (cd_write_region none) (regions_of env info)) (C (sizes size0) dm false) in
       if negb completed && cx_err c then (false, 0, c) else
       let (ok, c0) := cd_write none (cd_footer (if cx_trunc c then 1 else 0)) (mk_cctx size0 (cx_off c) (cx_only c) (cx_trunc c) (cx_err c) (cx_log c)) in
       if negb ok then (false, 0, c0) else let total := cx_off c0 in let (ok, c0) := cd_write none (cd_header total) (mk_cctx (cx_size c0) 0 (cx_only c0) (cx_trunc c0) (cx_err c0) (cx_log c0)) in (ok, total, c0)) =
       let (ok, c0) := cd_write none (cd_header (cx_off c3)) (mk_cctx (cx_size c3) 0 (cx_only c3) (cx_trunc c3) (cx_err c3) (cx_log c3)) in (ok, cx_off c3, c0)).
  { intros X2. rewrite K2 by exact X2. rewrite EB. fold c2 ft. rewrite K3 by exact W3. reflexivity. }
  cbv zeta in EQN |- *. unfold cd_write at 1. cbn [cx_only cx_log cx_size cx_off cx_trunc cx_err]. rewrite A3.
  destruct (fail (zlen (cx_log c3))) as [k|] eqn:EK.
  - eexists false, _, _, ((evs 12 dm ++ new2) ++ new3), _. split; [reflexivity|]. cbn [cx_log]. rewrite E3. cbn [c2 cx_log]. rewrite E2. split; [reflexivity|].
    split; [apply Forall_app; split; [|exact F3]; apply Forall_app; split; eapply inb_mono; try eassumption; lia|]. split.
    + right. split; [apply Forall_app; split; [apply Forall_app; auto|]; now apply okp_wok|]. split; [lia|]. eexists. split; [reflexivity|]. cbn [cw_off cw_data cw_ok cw_done]. rewrite header_len. repeat split; try lia; try reflexivity; discriminate.
    + intros X. apply Forall_app in X. destruct X as (_ & X). apply Forall_inv in X. discriminate X.
  - eexists true, _, _, ((evs 12 dm ++ new2) ++ new3), _. split; [reflexivity|]. cbn [cx_log]. rewrite E3. cbn [c2 cx_log]. rewrite E2. split; [reflexivity|].
    split; [apply Forall_app; split; [|exact F3]; apply Forall_app; split; eapply inb_mono; try eassumption; lia|]. split.
    + right. split; [apply Forall_app; split; [apply Forall_app; auto|]; now apply okp_wok|]. split; [lia|]. eexists. split; [reflexivity|]. cbn [cw_off cw_data cw_ok cw_done]. rewrite header_len. repeat split; try lia; reflexivity.
    + intros X. apply Forall_app in X. destruct X as (X & _). apply Forall_app in X. destruct X as (X & _). apply Forall_app in X. destruct X as (_ & X2). rewrite (EQN X2).
      unfold cd_write. cbn [cx_only cx_log cx_size cx_off cx_trunc cx_err]. rewrite A3. unfold none. rewrite E3. cbn [c2 cx_log]. rewrite E2. reflexivity.
Qed.
