From Verif Require Import Base CircularBuffer Cbor CborSpec CborDoc CborProofs EventStorage EventStorageSpec EventStorageProofs
  SerializerHelper SerializerHelperSpec.

(** ** Encoder calls only produce bytes *)
Lemma u8_byte x : is_u8 (u8 x).
Proof. unfold is_u8, u8. change (2 ^ 8) with 256. pose proof (Z.mod_pos_bound x 256). lia. Qed.
Lemma land255_byte x : is_u8 (Z.land x 255).
Proof. rewrite land255. unfold is_u8. pose proof (Z.mod_pos_bound x 256). lia. Qed.
Lemma cbor_head_bytes mt v : bytes (cbor_head mt v).
Proof.
  unfold cbor_head. cbv zeta. repeat (destruct (_ <? _) || destruct (_ <=? _));
    repeat (constructor; [apply u8_byte || apply land255_byte|]); constructor.
Qed.
Lemma be64_bytes v : bytes (cbor_be64 v).
Proof. unfold cbor_be64. cbn [map]. repeat (constructor; [apply land255_byte|]); constructor. Qed.
Lemma op_bytes_bytes o : bytes (op_data o) -> bytes (op_bytes o).
Proof.
  intros H. unfold op_bytes. destruct o; cbn [op_chunks concat op_data] in *; rewrite ?app_nil_r;
    try (apply bytes_app; split); try exact H; try apply cbor_head_bytes.
  - cbv zeta. destruct (_ <=? _); rewrite ?app_nil_r; cbn [app]; try apply cbor_head_bytes.
    constructor; [|rewrite ?app_nil_r; apply be64_bytes].
    assert (G : Z.land (Z.shiftr v 63) 1 = 0 \/ Z.land (Z.shiftr v 63) 1 = 1).
    { generalize (Z.shiftr v 63). intros x. assert (E1 : Z.land x 1 = x mod 2) by exact (Z.land_ones x 1 ltac:(lia)). rewrite E1. pose proof (Z.mod_pos_bound x 2). lia. }
    destruct G as [-> | ->]; unfold is_u8; vm_compute; split; congruence.
  - constructor; [|rewrite ?app_nil_r; apply be64_bytes]. unfold is_u8; vm_compute; split; congruence.
  - constructor; [|constructor]. unfold is_u8; vm_compute; split; congruence.
Qed.

(** ** Programs *)
Lemma run_and p q : forall e, eprog_run e (e_and p q) = let (b, e1) := eprog_run e p in if b then eprog_run e1 q else (false, e1).
Proof.
  induction p as [b|o k IH]; intros e; cbn [e_and eprog_run]; [destruct b; reflexivity|].
  destruct (cbor_do e o) as [b e1]. apply IH.
Qed.
Lemma run_all ops : forall e, eprog_run e (e_all ops) = cbor_seq e ops.
Proof.
  induction ops as [|o r IH]; intros e; cbn [e_all eprog_run cbor_seq]; [reflexivity|].
  destruct (cbor_do e o) as [[|] e1]; [apply IH|reflexivity].
Qed.

Lemma do_ok o e : enc_wf e -> ce_size e + zlen (op_bytes o) < 4294967296 ->
  exists b e' x, cbor_do e o = (b, e') /\ enc_wf e' /\ ce_len e' = ce_len e /\
    (b = true <-> ce_size e + zlen (op_bytes o) <= ce_len e) /\
    ce_output e' = ce_output e ++ x /\ (exists p, op_bytes o = x ++ p).
Proof.
  intros W H. rewrite cbor_do_adds. destruct (adds_ok _ e W H) as (b & e' & x & E & W' & L & B & O & _ & P & _).
  exists b, e', x. tauto.
Qed.

Lemma prog_ok p : forall e, enc_wf e -> ce_len e <= 2147483648 -> eprog_ok p -> bytes (ce_output e) ->
  exists b e', eprog_run e p = (b, e') /\ enc_wf e' /\ ce_len e' = ce_len e /\ bytes (ce_output e').
Proof.
  induction p as [b|o k IH]; intros e W L K B; cbn [eprog_run eprog_ok] in *; [eauto 6|].
  destruct K as (K1 & K2 & K3). pose proof (op_bytes_len o). pose proof (ew_le _ W).
  destruct (do_ok o e W ltac:(lia)) as (b & e1 & x & -> & W1 & L1 & _ & O1 & (t & T)).
  apply IH with (b := b) in W1; [|lia|apply K3|].
  - destruct W1 as (b' & e' & E & W' & L' & B'). exists b', e'. rewrite L' . auto.
  - rewrite O1. apply bytes_app. split; [exact B|].
    pose proof (op_bytes_bytes o K1) as X. rewrite T in X. apply bytes_app in X. apply X.
Qed.

(** ** Appending what the encoder writes *)
Lemma appends_run cfg ws : forall s rs s', es_run cfg s (map EAppend ws) = Some (rs, s') -> sh_appends s ws = Some s'.
Proof.
  induction ws as [|d ws IH]; intros s rs s' H; cbn [map es_run sh_appends] in *; [now inv H|].
  apply bind_inv in H. destruct H as ((r & s1) & E & H). cbn [es_step] in E.
  apply bind_inv in E. destruct E as ((b & s2) & E & E2). inv E2. rewrite E. cbn [bind snd].
  apply bind_inv in H. destruct H as ((rs1 & s3) & E3 & H). inv H. eauto.
Qed.
Lemma sev_appends cfg cap ws : forall v p, v_part v = Some p -> used v + zlen (concat ws) <= cap ->
  sev_run cfg cap v (map EAppend ws) = Some (map (fun _ => ROk true) ws, mk_sev (v_events v) (Some (p ++ concat ws)) (v_reading v)).
Proof.
  induction ws as [|d ws IH]; intros v p P U; cbn [map sev_run concat] in *.
  - rewrite app_nil_r, <- P. destruct v; reflexivity.
  - rewrite zlen_app in U. pose proof (zlen_nonneg (concat ws)). cbn [sev_step]. rewrite P.
    replace (used v + zlen d <=? cap) with true by lia. cbn [bind].
    rewrite (IH _ (p ++ d)).
    + cbn [bind v_events v_reading]. now rewrite app_assoc.
    + reflexivity.
    + unfold used in *. cbn [v_part v_events]. rewrite P in U. rewrite zlen_app. lia.
Qed.
Lemma es_run_app cfg a : forall s b, es_run cfg s (a ++ b) =
  do x <- es_run cfg s a; let (r, s1) := x in do y <- es_run cfg s1 b; let (r2, s2) := y in Some (r ++ r2, s2).
Proof.
  induction a as [|o a IH]; intros s b.
  - cbn [app es_run bind]. destruct (es_run cfg s b) as [[r v2]|]; reflexivity.
  - cbn [app es_run]. destruct (es_step cfg s o) as [[r v1]|]; [cbn [bind]|reflexivity].
    rewrite IH. destruct (es_run cfg v1 a) as [[r1 v2]|]; [cbn [bind]|reflexivity].
    destruct (es_run cfg v2 b) as [[r2 v3]|]; reflexivity.
Qed.

Record ssim (cfg : es_cfg) (cap : Z) (s : sh) (v : ssv) : Prop := {
  ss_es : esim cfg cap (sh_es s) (q_store v);
  ss_d : is_u32 (sh_drops s); ss_l : is_u32 (sh_last s);
  ss_m : u32 (sh_last s + sh_drops s) = q_missed v mod 4294967296 }.

Lemma u32_mod x : u32 x = x mod 4294967296. Proof. reflexivity. Qed.

Lemma encode_store cfg cap st v p : esim cfg cap st v -> v_part v = None -> eprog_ok p ->
  exists space st1 ok e st2 st3,
    es_begin st = Some (space, st1) /\ eprog_run (cbor_init space) p = (ok, e) /\
    eprog_run (cbor_init (q_space cap v)) p = (ok, e) /\
    sh_appends st1 (map snd (ce_writes e)) = Some st2 /\
    (ok = false -> es_finish st2 true = Some st3 /\ esim cfg cap st3 v) /\
    (ok = true -> 1 <= zlen (ce_output e) <= 65532 -> es_finish st2 false = Some st3 /\
       esim cfg cap st3 (mk_sev (v_events v ++ [ce_output e]) None (v_reading v))).
Proof.
  intros M P K. destruct (esim_sz _ _ _ _ M) as (_ & HC & HU & _ & _).
  assert (HQ : 0 <= q_space cap v <= 2147483648) by (unfold q_space; lia).
  assert (HQ' : is_u32 (q_space cap v)) by (unfold is_u32; lia).
  destruct (prog_ok p (cbor_init (q_space cap v)) (enc_wf_init _ HQ') ltac:(cbn [cbor_init ce_len]; lia) K ltac:(constructor))
    as (ok & e & ER & W & L & B). cbn [cbor_init ce_len] in L.
  pose proof (ew_size _ W) as SZ. pose proof (ew_le _ W) as LE.
  assert (FA : Forall ev_ok (map EAppend (map snd (ce_writes e)))).
  { apply Forall_forall. intros o Ho. apply in_map_iff in Ho. destruct Ho as (d & <- & Hd). apply in_split in Hd.
    destruct Hd as (a & b & Hd). unfold ce_output in B, SZ. rewrite Hd in B, SZ. rewrite concat_app in B, SZ. cbn [concat] in B, SZ.
    apply bytes_app in B. destruct B as [_ B]. apply bytes_app in B. destruct B as [B _].
    rewrite !zlen_app in SZ. pose proof (zlen_nonneg (concat a)). pose proof (zlen_nonneg (concat b)). cbn [ev_ok]. split; [exact B|lia]. }
  destruct (used v + 2 <=? cap) eqn:E.
  - assert (SB : sev_run cfg cap v (EBegin :: map EAppend (map snd (ce_writes e))) =
      Some (RSpace (cap - used v - 2) :: map (fun _ => ROk true) (map snd (ce_writes e)), mk_sev (v_events v) (Some (ce_output e)) (v_reading v))).
    { cbn [sev_run]. cbn [sev_step]. rewrite P, E. cbn [bind].
      rewrite (sev_appends _ _ _ _ []).
      - reflexivity.
      - reflexivity.
      - fold (ce_output e). unfold used in *. cbn [v_part v_events]. rewrite P in *. change (zlen (@nil Z)) with 0.
        unfold q_space, used in L. rewrite P in L. lia. }
    destruct (es_run_ok _ _ _ _ _ _ _ M (Forall_cons _ (I : ev_ok EBegin) FA) SB) as (st2 & R2 & M2).
    cbn [es_run] in R2. apply bind_inv in R2. destruct R2 as ((r1 & st1) & E1 & R2).
    apply bind_inv in R2. destruct R2 as ((rs2 & st2') & E2 & R2). inv R2. cbn [es_step] in E1.
    apply bind_inv in E1. destruct E1 as ((sp & st1') & E1 & EQ). inv EQ. apply appends_run in E2.
    assert (EQS : q_space cap v = cap - used v - 2) by (unfold q_space; lia). rewrite EQS in *.
    destruct ok.
    + destruct ((1 <=? zlen (ce_output e)) && (zlen (ce_output e) <=? 65532)) eqn:EZ.
      * assert (SF : sev_step cfg cap (mk_sev (v_events v) (Some (ce_output e)) (v_reading v)) (EFinish false) =
          Some (RUnit, mk_sev (v_events v ++ [ce_output e]) None (v_reading v))) by (cbn [sev_step v_part]; rewrite EZ; reflexivity).
        destruct (es_step_ok _ _ _ _ _ _ _ M2 (I : ev_ok (EFinish false)) SF) as (st3 & E3 & M3). cbn [es_step] in E3.
        apply bind_inv in E3. destruct E3 as (st3' & E3 & EQ). inv EQ.
        exists (cap - used v - 2), st1, true, e, st2, st3. repeat (split; [first [eassumption|reflexivity]|]).
        split; [discriminate|]. intros _ _. split; assumption.
      * exists (cap - used v - 2), st1, true, e, st2, st. repeat (split; [first [eassumption|reflexivity]|]).
        split; [discriminate|]. intros _ Z. lia.
    + assert (SF : sev_step cfg cap (mk_sev (v_events v) (Some (ce_output e)) (v_reading v)) (EFinish true) =
          Some (RUnit, v)) by (cbn [sev_step v_part v_events v_reading]; rewrite <- P; destruct v; reflexivity).
      destruct (es_step_ok _ _ _ _ _ _ _ M2 (I : ev_ok (EFinish true)) SF) as (st3 & E3 & M3). cbn [es_step] in E3.
      apply bind_inv in E3. destruct E3 as (st3' & E3 & EQ). inv EQ.
      exists (cap - used v - 2), st1, false, e, st2, st3. repeat (split; [first [eassumption|reflexivity]|]).
      split; [|discriminate]. intros _. split; assumption.
  - assert (EQS : q_space cap v = 0) by (unfold q_space; lia). rewrite EQS in *.
    assert (SB : sev_step cfg cap v EBegin = Some (RSpace 0, v)) by (cbn [sev_step]; rewrite P, E; reflexivity).
    destruct (es_step_ok _ _ _ _ _ _ _ M (I : ev_ok EBegin) SB) as (st1 & E1 & M1). cbn [es_step] in E1.
    apply bind_inv in E1. destruct E1 as ((sp & st1') & E1 & EQ). inv EQ.
    assert (OUT : ce_output e = []) by (pose proof (zlen_nonneg (ce_output e)); apply zlen_0_nil; lia).
    assert (WS : ce_writes e = []).
    { pose proof (ew_cont _ W) as C. unfold ce_output in OUT. destruct (ce_writes e) as [|[o d] r]; [reflexivity|].
      cbn [contiguous map snd concat] in *. destruct C as (_ & D & _). destruct d; [congruence|discriminate]. }
    exists 0, st1, ok, e, st1, st1. rewrite WS, OUT. cbn [map sh_appends]. repeat (split; [first [eassumption|reflexivity]|]).
    split; [|intros _ Y; change (zlen (@nil Z)) with 0 in Y; lia]. intros _. split; [|exact M1].
    unfold es_finish. pose proof (m_wip _ _ _ _ M1) as Q. rewrite P in Q. rewrite Q. reflexivity.
Qed.

Lemma sh_step_ok cfg cap s v o r v' : ssim cfg cap s v -> shop_ok o -> ssv_step cfg cap v o = Some (r, v') ->
  exists s', sh_step cfg s o = Some (r, s') /\ ssim cfg cap s' v'.
Proof.
  intros [M D L Q] K H. destruct o as [p| |o]; cbn [ssv_step sh_step shop_ok] in *.
  - destruct (v_part (q_store v)) as [x|] eqn:P; [discriminate|].
    destruct (encode_store _ _ _ _ p M P K) as (space & st1 & ok & e & st2 & st3 & E1 & E2 & E2' & E3 & F1 & F2).
    rewrite E2' in H. unfold sh_encode. rewrite E1. cbn [bind]. rewrite E2, E3. cbn [bind].
    unfold is_u32 in *. destruct ok.
    + destruct ((1 <=? zlen (ce_output e)) && (zlen (ce_output e) <=? 65532)) eqn:EZ; [|discriminate]. inv H. destruct (F2 eq_refl ltac:(lia)) as (E4 & M3). cbn [negb]. rewrite E4. cbn [bind].
      eexists; split; [reflexivity|]. destruct (sh_drops s =? 0) eqn:E0.
      * constructor; cbn [sh_es sh_drops sh_last q_store q_missed]; assumption.
      * constructor; cbn [sh_es sh_drops sh_last q_store q_missed]; [assumption|unfold is_u32; lia|apply u32_range|].
        rewrite Z.add_0_r. rewrite u32_id by apply u32_range. exact Q.
    + inv H. destruct (F1 eq_refl) as (E4 & M3). cbn [negb]. rewrite E4. cbn [bind]. eexists; split; [reflexivity|].
      constructor; cbn [sh_es sh_drops sh_last q_store q_missed]; [assumption|apply u32_range|assumption|].
      rewrite !u32_mod in *. rewrite Z.add_mod_idemp_r by lia. rewrite Z.add_assoc.
      rewrite <- (Z.add_mod_idemp_l (sh_last s + sh_drops s)) by lia. rewrite Q. now rewrite Z.add_mod_idemp_l by lia.
  - inv H. exists (mk_sh (sh_es s) 0 0); split; [|constructor; cbn [sh_es sh_drops sh_last q_store q_missed]; try assumption; try reflexivity; unfold is_u32; lia].
    unfold sh_read_drops. rewrite Q. reflexivity.
  - apply bind_inv in H. destruct H as ((r1 & q) & E & H). inv H.
    destruct (es_step_ok _ _ _ _ _ _ _ M K E) as (st & E1 & M1). rewrite E1. cbn [bind]. eexists; split; [reflexivity|].
    constructor; cbn [sh_es sh_drops sh_last q_store q_missed]; assumption.
Qed.
Lemma sh_run_ok cfg cap ops : forall s v rs v', ssim cfg cap s v -> Forall shop_ok ops ->
  ssv_run cfg cap v ops = Some (rs, v') -> exists s', sh_run cfg s ops = Some (rs, s') /\ ssim cfg cap s' v'.
Proof.
  induction ops as [|o ops IH]; intros s v rs v' M F H; cbn [ssv_run sh_run] in *.
  - inv H. eauto.
  - apply bind_inv in H. destruct H as ((r & v1) & E & H). apply bind_inv in H. destruct H as ((rs1 & v2) & E2 & H). inv H.
    destruct (sh_step_ok _ _ _ _ _ _ _ M (Forall_inv F) E) as (s1 & E1 & M1). rewrite E1. cbn [bind].
    destruct (IH _ _ _ _ M1 (Forall_inv_tail F) E2) as (s2 & R & M2). rewrite R. cbn [bind]. eauto.
Qed.
Lemma sh_boot_ok cfg storage : 0 < zlen storage <= 2147483648 ->
  exists s, es_boot storage (zlen storage) = Some (Some s) /\ ssim cfg (zlen storage) (mk_sh s 0 0) (mk_ssv (mk_sev [] None 0) 0).
Proof.
  intros H. destruct (es_boot_ok cfg storage H) as (s & E & M). exists s. split; [exact E|].
  constructor; cbn [sh_es sh_drops sh_last q_store q_missed]; [exact M|unfold is_u32; lia..|reflexivity].
Qed.
