From Coq Require Import String.
From Verif Require Import Base Base64 Base64Spec Base64Proofs CircularBuffer CircularBufferProofs Log LogSpec LogProofs LogHistoryProofs
  DataExportSpec DataExportProofs LogExport LogExportSpec.

(* ------------------------------------------------------------ one line *)
Lemma log_line_carries level enc piece rest len : b64_decode enc = Some piece -> len = zlen enc + 4 ->
  call_carries level (mk_log_call level (str "ML:" ++ enc ++ str ":" ++ 0 :: rest) len) piece.
Proof.
  intros D ->. pose proof (b64_decode_plain _ _ _ (le_n _) D) as P. split; [reflexivity|]. cbn [lc_mem lc_len].
  exists (str "ML:" ++ enc ++ str ":"). split; [|split].
  - unfold c_string. replace (str "ML:" ++ enc ++ str ":" ++ 0 :: rest) with ((str "ML:" ++ enc ++ str ":") ++ 0 :: rest)
      by (rewrite <- !app_assoc; reflexivity).
    rewrite cut_app; [reflexivity|]. repeat (apply Forall_app; split).
    + repeat constructor; vm_compute; discriminate.
    + eapply Forall_impl; [|exact P]. intros a [A _]. exact A.
    + repeat constructor; vm_compute; discriminate.
  - rewrite !zlen_app. change (zlen (str "ML:")) with 3. change (zlen (str ":")) with 1. lia.
  - change (str "ML:") with [77; 76; 58]. change (str ":") with [58]. cbn [app log_line].
    rewrite cut_app; [exact D|]. eapply Forall_impl; [|exact P]. intros a [_ A]. exact A.
Qed.

Lemma splice_pre b pre : zlen pre <= zlen b -> splice b 0 pre = Some (pre ++ drop (zlen pre) b).
Proof. intros H. change b with ([] ++ b) at 1. rewrite splice_app_pre by (try reflexivity; exact H). reflexivity. Qed.

Lemma compact_ok max level msg : bytes msg -> zlen msg < 4294967296 -> 0 < max -> b64_enc_len max <= INT_MAX ->
  forall fuel b off, 0 <= off <= zlen msg -> zlen msg - off < Z.of_nat fuel -> zlen b = log_export_buf_len max ->
  exists cs ps, log_export_compact fuel max level msg b off = Some cs /\
    concat ps = drop off msg /\ pieces_of max ps /\ Forall2 (call_carries level) cs ps /\ (off < zlen msg -> ps <> []).
Proof.
  intros Hb Hz H0 HI. induction fuel as [|fuel IH]; intros b off Ho Hf Hl; [lia|].
  cbn [log_export_compact]. destruct (off <? zlen msg) eqn:E.
  2:{ exists [], []. split; [reflexivity|]. rewrite drop_all by lia. repeat split; try constructor. lia. }
  set (len := Z.min (u32 (zlen msg - off)) max).
  assert (Hlen : len = Z.min (zlen msg - off) max) by (unfold len; rewrite u32_id by (unfold is_u32; lia); reflexivity).
  unfold log_export_buf_len in Hl.
  assert (Le : 0 <= b64_enc_len len <= b64_enc_len max).
  { unfold b64_enc_len. pose proof (Z.div_le_mono (len + 2) (max + 2) 3 ltac:(lia) ltac:(lia)).
    pose proof (Z.div_pos (len + 2) 3 ltac:(lia) ltac:(lia)). lia. }
  rewrite splice_pre by (change (zlen (str "ML:")) with 3; lia). cbn [bind]. change (zlen (str "ML:")) with 3.
  rewrite read_at_some by lia. cbn [bind]. set (piece := take len (drop off msg)).
  assert (Lp : zlen piece = len) by (unfold piece; rewrite zlen_take, zlen_drop; lia).
  assert (Bp : bytes piece) by (unfold piece; auto using bytes_take, bytes_drop).
  set (b1 := drop 3 b). assert (L1 : zlen b1 = b64_enc_len max + 2) by (unfold b1; rewrite zlen_drop; lia).
  change (str "ML:") with [77; 76; 58].
  rewrite drop_app_exact by reflexivity. rewrite take_app_exact by reflexivity.
  rewrite base64_encode_is_b64 by (rewrite ?Lp; auto; lia). cbn [bind]. rewrite ?b64_len, ?Lp.
  set (m := b64_enc_len len) in *. set (t := drop m b1).
  assert (Lt : 2 <= zlen t) by (unfold t; rewrite zlen_drop; lia).
  destruct t as [|t0 [|t1 t']] eqn:Et; try (repeat (rewrite zlen_cons in Lt); change (zlen (@nil Z)) with 0 in Lt; lia).
  change (str ":") with [58].
  assert (Le64 : zlen (b64 piece) = m) by (rewrite b64_len, Lp; reflexivity).
  assert (L3 : zlen ([77; 76; 58] ++ b64 piece) = 3 + m) by (rewrite zlen_app, Le64; reflexivity).
  rewrite app_assoc.
  rewrite splice_app_pre; [|exact L3|rewrite !zlen_cons; change (zlen (@nil Z)) with 0; pose proof (zlen_nonneg t'); lia].
  cbn [bind]. replace (drop (zlen [58]) (t0 :: t1 :: t')) with (t1 :: t') by reflexivity.
  rewrite app_assoc. rewrite put_app_pre by (rewrite zlen_app, L3; reflexivity). cbn [bind].
  replace (u32 (off + len)) with (off + len) by (rewrite u32_id by (unfold is_u32; lia); reflexivity).
  assert (Lb : zlen ((([77; 76; 58] ++ b64 piece) ++ [58]) ++ 0 :: t') = log_export_buf_len max).
  { rewrite zlen_app, zlen_app, L3. change (zlen [58]) with 1. rewrite zlen_cons.
    assert (zlen (t0 :: t1 :: t') = zlen b1 - m) by (rewrite <- Et; unfold t; rewrite zlen_drop; lia).
    rewrite !zlen_cons in H. unfold log_export_buf_len. lia. }
  destruct (IH ((([77; 76; 58] ++ b64 piece) ++ [58]) ++ 0 :: t') (off + len) ltac:(lia) ltac:(lia) Lb) as (cs & ps & E1 & E2 & E3 & E4 & E5).
  rewrite E1. cbn [bind]. eexists _, (piece :: ps). split; [reflexivity|]. split; [|split; [|split; [|discriminate]]].
  - cbn [concat]. rewrite E2. unfold piece. replace (off + len) with (len + off) by lia. rewrite <- drop_drop by lia. apply take_drop.
  - cbn [pieces_of]. destruct ps as [|p ps]; [lia|]. split; [|exact E3].
    destruct (Z.eq_dec len max) as [|N]; [lia|]. exfalso.
    rewrite drop_all in E2 by lia. cbn [concat] in E2. apply app_eq_nil in E2. destruct E2 as (-> & _).
    cbn [pieces_of] in E3. change (zlen (@nil Z)) with 0 in E3. destruct ps; lia.
  - constructor; [|exact E4]. rewrite <- !app_assoc.
    apply (log_line_carries level (b64 piece) piece t' (3 + m + 1)); [now apply b64_roundtrip|lia].
Qed.

Definition exportable (l : rlog) : Prop := r_type l = 0 \/ r_type l = 1 /\ bytes (r_text l) /\ zlen (r_text l) < 4294967296.
Lemma export_log_ok max junk l : exportable l ->
  0 < max -> b64_enc_len max <= INT_MAX -> zlen junk = log_export_buf_len max ->
  exists cs, log_export_log max junk l = Some cs /\ exports_log max l cs.
Proof.
  intros Ht H0 HI Hj. unfold log_export_log, exports_log. destruct Ht as [-> | (-> & Hb & Hz)].
  - change (0 =? 1) with false. change (0 =? 0) with true. cbv iota. eexists. split; [reflexivity|]. exists []. reflexivity.
  - change (1 =? 1) with true. cbv iota. pose proof (zlen_nonneg (r_text l)).
    destruct (compact_ok max (r_level l) (r_text l) Hb Hz H0 HI (Datatypes.S (Z.to_nat (zlen (r_text l)))) junk 0 ltac:(lia) ltac:(lia) Hj)
      as (cs & ps & E1 & E2 & E3 & E4 & _).
    exists cs. split; [exact E1|]. exists ps. rewrite drop_0 in E2. auto.
Qed.

(* ------------------------------------------------------------ all logs *)

Lemma export_run M tse max p : 0 < max -> b64_enc_len max <= INT_MAX -> Forall exportable p ->
  forall s s' stacks, log_run M tse s (repeat LRead (Datatypes.S (length p))) = Some (map (fun l => RLog (Some l)) p ++ [RLog None], s') ->
  Forall (fun j => zlen j = log_export_buf_len max) stacks -> (length p < length stacks)%nat ->
  exists calls, log_export_logs M tse max s stacks = Some (concat calls, s') /\ Forall2 (exports_log max) p calls.
Proof.
  intros H0 HI. induction p as [|l p IH]; intros Hp s s' stacks HR HS HL.
  - destruct stacks as [|junk stacks]; [cbn in HL; lia|]. cbn [length repeat log_run log_step map app] in HR. cbn [log_export_logs].
    apply bind_inv in HR. destruct HR as ((r1 & s1) & E & HR). apply bind_inv in E. destruct E as ((o & s2) & E & E').
    injection E' as <- <-. cbn [bind] in HR. injection HR as -> <-. rewrite E. cbn [bind]. exists []. split; [reflexivity|constructor].
  - destruct stacks as [|junk stacks]; [cbn in HL; lia|]. cbn [length] in HL.
    change (repeat LRead (Datatypes.S (length (l :: p)))) with (LRead :: repeat LRead (Datatypes.S (length p))) in HR.
    remember (repeat LRead (Datatypes.S (length p))) as rest. cbn [log_run log_step map app] in HR.
    apply bind_inv in HR. destruct HR as ((r1 & s1) & E & HR). apply bind_inv in E. destruct E as ((o & s2) & E & E').
    injection E' as <- <-. apply bind_inv in HR. destruct HR as ((rs & s3) & ER & HR). injection HR as -> -> <-. subst rest.
    destruct (export_log_ok max junk l (Forall_inv Hp) H0 HI) as (cs & EC & XC); [exact (Forall_inv HS)|].
    destruct (IH (Forall_inv_tail Hp) _ _ stacks ER (Forall_inv_tail HS)) as (calls & EX & FX); [lia|].
    cbn [log_export_logs]. rewrite E. cbn [bind]. rewrite EC. cbn [bind]. rewrite EX. cbn [bind].
    exists (cs :: calls). split; [reflexivity|constructor; assumption].
Qed.

(** The reads of a history give what is pending, then nothing. *)
Lemma skipn_nth {A} (l : list A) n : match nth_error l n with Some e => skipn n l = e :: skipn (Datatypes.S n) l | None => skipn n l = [] end.
Proof.
  revert n. induction l as [|x l IH]; intros [|n]; cbn; try reflexivity. apply IH.
Qed.
Lemma hist_reads_logs M cap n : 0 < cap -> forall h, h_sane h = true -> h_seen h = wrap32 (h_lost h) \/ wrap32 (h_lost h) = 0 ->
  0 <= h_next h -> length (skipn (Z.to_nat (Z.max (first cap (h_saved h)) (h_next h))) (h_saved h)) = n ->
  exists h', hist_run M cap h (repeat LRead (Datatypes.S n)) =
      Some (map (fun l => RLog (Some l)) (map hlog_read (skipn (Z.to_nat (Z.max (first cap (h_saved h)) (h_next h))) (h_saved h))) ++ [RLog None], h') /\
    hist_step M cap h' LRead = Some (RLog None, h').
Proof.
  intros Hcap. induction n as [|n IH]; intros h HSA HSE HN HL.
  - cbn [repeat hist_run hist_step]. destruct (first_range cap (h_saved h)) as (F & _).
    assert (C : negb (h_seen h =? wrap32 (h_lost h)) && (0 <? wrap32 (h_lost h)) = false) by lia. rewrite C, HSA.
    pose proof (skipn_nth (h_saved h) (Z.to_nat (Z.max (first cap (h_saved h)) (h_next h)))) as K.
    destruct (nth_error _ _) eqn:En; [rewrite K in HL; discriminate HL|]. rewrite K. cbn [bind map app].
    eexists. split; [reflexivity|]. cbn [h_saved h_min h_next h_sent h_up h_lost h_seen h_sane h_reads h_ups].
    rewrite Z.eqb_refl. cbn [negb andb]. rewrite En. reflexivity.
  - change (repeat LRead (Datatypes.S (Datatypes.S n))) with (LRead :: repeat LRead (Datatypes.S n)).
    remember (repeat LRead (Datatypes.S n)) as rest. cbn [hist_run hist_step]. destruct (first_range cap (h_saved h)) as (F & _).
    assert (C : negb (h_seen h =? wrap32 (h_lost h)) && (0 <? wrap32 (h_lost h)) = false) by lia. rewrite C, HSA.
    set (k := Z.max (first cap (h_saved h)) (h_next h)) in *.
    pose proof (skipn_nth (h_saved h) (Z.to_nat k)) as K.
    destruct (nth_error _ _) as [e|] eqn:En; [|rewrite K in HL; discriminate HL]. cbn [bind].
    set (h1 := mk_hist (h_saved h) (h_min h) (k + 1) (h_sent h) (h_up h) (h_lost h) (wrap32 (h_lost h)) true (h_reads h ++ [k]) (h_ups h)).
    assert (K1 : Z.max (first cap (h_saved h1)) (h_next h1) = k + 1) by (cbn [h1 h_saved h_next]; lia).
    destruct (IH h1 eq_refl (or_introl eq_refl)) as (h' & ER & EN).
    + cbn [h1 h_next]. lia.
    + rewrite K1. cbn [h1 h_saved]. replace (Z.to_nat (k + 1)) with (Datatypes.S (Z.to_nat k)) by lia. rewrite K in HL. cbn [length] in HL. congruence.
    + subst rest. rewrite ER. cbn [bind]. exists h'. split; [|exact EN]. rewrite K1. cbn [h1 h_saved].
      replace (Z.to_nat (k + 1)) with (Datatypes.S (Z.to_nat k)) by lia. rewrite K. reflexivity.
Qed.
Lemma hist_reads_pending M cap h : 0 < cap -> h_sane h = true -> 0 <= h_next h ->
  exists h', hist_run M cap h (repeat LRead (Datatypes.S (length (pending M cap h)))) =
      Some (map (fun l => RLog (Some l)) (pending M cap h) ++ [RLog None], h') /\
    hist_step M cap h' LRead = Some (RLog None, h').
Proof.
  intros Hcap HSA HN. unfold pending. destruct (negb (h_seen h =? wrap32 (h_lost h)) && (0 <? wrap32 (h_lost h))) eqn:C.
  - set (h1 := mk_hist (h_saved h) (h_min h) (h_next h) (h_sent h) (h_up h) (h_lost h) (wrap32 (h_lost h)) (h_sane h) (h_reads h) (h_ups h)).
    destruct (hist_reads_logs M cap _ Hcap h1 HSA (or_introl eq_refl) HN eq_refl) as (h' & ER & EN).
    exists h'. split; [|exact EN]. cbn [app length]. rewrite map_length. cbn [h1 h_saved h_next] in ER.
    remember (length (skipn (Z.to_nat (Z.max (first cap (h_saved h)) (h_next h))) (h_saved h))) as n.
    change (repeat LRead (Datatypes.S (Datatypes.S n))) with (LRead :: repeat LRead (Datatypes.S n)).
    remember (repeat LRead (Datatypes.S n)) as rest. cbn [hist_run hist_step]. rewrite C. cbn [bind]. fold h1. rewrite ER. reflexivity.
  - cbn [app]. rewrite map_length. apply hist_reads_logs; auto. pose proof (wrap32_u32 (h_lost h)) as W. unfold is_u32 in W. lia.
Qed.

Lemma log_run_app M tse a : forall b s rs rs2 s2, length rs = length a -> log_run M tse s (a ++ b) = Some (rs ++ rs2, s2) ->
  exists s1, log_run M tse s a = Some (rs, s1) /\ log_run M tse s1 b = Some (rs2, s2).
Proof.
  induction a as [|o a IH]; intros b s rs rs2 s2 HL H; destruct rs as [|r rs]; try discriminate HL.
  - exists s. auto.
  - cbn [app log_run] in *. apply bind_inv in H. destruct H as ((r1 & s1) & E & H). rewrite E. cbn [bind].
    apply bind_inv in H. destruct H as ((rs1 & s3) & ER & H). injection H as -> -> <-.
    destruct (IH b s1 rs rs2 s3 ltac:(cbn in HL; lia) ER) as (s4 & A & B). exists s4. rewrite A. auto.
Qed.
Lemma hist_run_length M cap ops : forall h rs h', hist_run M cap h ops = Some (rs, h') -> length rs = length ops.
Proof.
  induction ops as [|o ops IH]; intros h rs h' H; cbn [hist_run] in H.
  - injection H as <- _. reflexivity.
  - apply bind_inv in H. destruct H as ((r1 & s1) & E & H). apply bind_inv in H. destruct H as ((rs1 & s3) & ER & H).
    injection H as <- _. cbn [length]. f_equal. eauto.
Qed.

Lemma accepted_fine M tse ops : 4 <= M <= 255 -> Forall (log_op_ok tse) ops -> forall rs, Forall exportable (map hlog_read (accepted M ops rs)).
Proof.
  intros HM. induction 1 as [|o ops Ho _ IH]; intros rs; [constructor|].
  destruct o, rs as [|[[]| | |] rs]; cbn [accepted map]; auto; try constructor; auto.
  cbn in Ho. destruct Ho as (_ & Ty & B & L & _). unfold exportable, hlog_read. cbn [r_text r_type l_text l_type].
  assert (D : type = 0 \/ type = 1) by lia. destruct D as [D|D]; [now left|right]. split; [exact D|].
  split; [now apply bytes_take|]. rewrite zlen_take. lia.
Qed.
Lemma Forall_skipn {A} (P : A -> Prop) l n : Forall P l -> Forall P (skipn n l).
Proof. intros H. revert n. induction H; intros [|n]; cbn; auto. Qed.

Lemma log_export_history M tse storage min ops rs h max stacks : lcap (zlen storage) -> 4 <= M <= 255 -> Forall (log_op_ok tse) ops ->
  hist_run M (zlen storage) (hist_init min) ops = Some (rs, h) -> h_sane h = true ->
  0 < max -> b64_enc_len max <= INT_MAX ->
  Forall (fun j => zlen j = log_export_buf_len max) stacks -> zlen (pending M (zlen storage) h) < zlen stacks ->
  exists s s1 s2 s3 calls, log_boot storage (zlen storage) min = Some (Some s) /\ log_run M tse s ops = Some (rs, s1) /\
    log_export_logs M tse max s1 stacks = Some (concat calls, s2) /\
    Forall2 (exports_log max) (pending M (zlen storage) h) calls /\
    log_read M tse s2 = Some (None, s3).
Proof.
  intros Hc HM HO HR HSA H0 HI HS HL. unfold lcap in Hc. set (cap := zlen storage) in *.
  destruct (grun M cap ops ltac:(lia) _ _ _ (ginv_init cap min) HR) as (G & SV & _).
  change (h_saved (hist_init min)) with (@nil hlog) in SV. cbn [app] in SV.
  destruct (hist_reads_pending M cap h ltac:(lia) HSA (proj1 (i_next _ _ G))) as (h' & E1 & E2).
  set (p := pending M cap h) in *.
  assert (E3 : hist_run M cap h' [LRead] = Some ([RLog None], h')) by (cbn [hist_run]; rewrite E2; reflexivity).
  pose proof (hist_run_app _ _ _ _ _ _ _ _ _ E1 E3) as E4.
  pose proof (hist_run_app _ _ _ _ _ _ _ _ _ HR E4) as E5.
  assert (HO2 : Forall (log_op_ok tse) (ops ++ repeat LRead (Datatypes.S (length p)) ++ [LRead])).
  { apply Forall_app. split; [exact HO|]. apply Forall_app. split; [|repeat constructor]. apply Forall_forall. intros x Hx.
    apply repeat_spec in Hx. now subst. }
  destruct (log_history M tse storage min _ _ _ Hc HM HO2 E5) as (s & s' & EB & ER & _).
  destruct (log_run_app M tse ops _ s rs _ s' (hist_run_length _ _ _ _ _ _ HR) ER) as (s1 & R1 & R2).
  destruct (log_run_app M tse _ _ s1 _ _ s' (hist_run_length _ _ _ _ _ _ E1) R2) as (s2 & R3 & R4).
  assert (HP : Forall exportable p).
  { unfold p, pending. apply Forall_app. split.
    - destruct (_ && _); constructor; [left; reflexivity|constructor].
    - rewrite SV. rewrite <- skipn_map. apply Forall_skipn. now apply (accepted_fine M tse). }
  destruct (export_run M tse max p H0 HI HP s1 s2 stacks R3 HS ltac:(unfold zlen in HL; lia)) as (calls & EX & FX).
  cbn [log_run log_step] in R4. apply bind_inv in R4. destruct R4 as ((r1 & t1) & T & R4). apply bind_inv in T. destruct T as ((o & t2) & T & T').
  injection T' as <- <-. cbn [bind] in R4. injection R4 as -> <-.
  exists s, s1, s2, t2, calls. auto.
Qed.
