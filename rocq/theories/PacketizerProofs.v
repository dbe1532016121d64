From Verif Require Import Base Crc16 Crc16Spec Crc16Proofs ChunkTransport ChunkSpec ChunkProofs ChunkDrain Packetizer PacketizerSpec.


(* ------------------------------------------------------------ bits, queues *)
Lemma land_bit t m : 0 <= t -> (Z.land (Z.shiftl 1 t) m =? 0) = negb (Z.testbit m t).
Proof.
  intros Ht. rewrite Z.shiftl_1_l.
  assert (E : Z.land (2 ^ t) m = if Z.testbit m t then 2 ^ t else 0).
  { apply Z.bits_inj'. intros n Hn. rewrite Z.land_spec, Z.pow2_bits_eqb by lia.
    destruct (t =? n) eqn:E; [assert (t = n) by lia; subst; destruct (Z.testbit m n); [now rewrite Z.pow2_bits_true|now rewrite Z.bits_0]|].
    destruct (Z.testbit m t); [rewrite Z.pow2_bits_false by lia|rewrite Z.bits_0]; reflexivity. }
  rewrite E. destruct (Z.testbit m t); cbn [negb]; [|reflexivity]. pose proof (Z.pow_pos_nonneg 2 t). lia.
Qed.

Lemma q_set_get w s l : q_of (q_set w s l) s = l.
Proof. now destruct s. Qed.
Lemma q_set_other w s l s' : s' <> s -> q_of (q_set w s l) s' = q_of w s'.
Proof. destruct s, s'; intros H; try reflexivity; congruence. Qed.
Lemma src_dec (a b : src) : a = b \/ a <> b.
Proof. destruct a, b; (left; reflexivity) || (right; discriminate). Qed.
Lemma src_type_inj a b : src_type a = src_type b -> a = b.
Proof. destruct a, b; cbn; intros; try reflexivity; lia. Qed.
Lemma src_type_eqb a b : (src_type a =? src_type b) = true -> a = b.
Proof. intros. apply src_type_inj. lia. Qed.

Lemma queues_ok_set cfg w s l : queues_ok cfg w -> Forall (msg_ok cfg s) l -> queues_ok cfg (q_set w s l).
Proof.
  intros H Hl s'. destruct (src_dec s' s) as [->|N]; [now rewrite q_set_get|]. rewrite q_set_other by exact N. apply H.
Qed.

(* ------------------------------------------------------------ header and reader *)
Definition is_rle (cfg : pk_cfg) (s : src) : bool :=
  src_use_rle s && match cfg_rle cfg with Some _ => true | None => false end.

Lemma wire_hdr cfg s m : wire cfg s m = pk_hdr cfg s (is_rle cfg s) ++ body cfg s m.
Proof.
  unfold wire, pk_hdr, is_rle, body. cbn [app]. f_equal.
  assert (K : (zlen (cfg_key cfg) =? 0) = match cfg_key cfg with [] => true | _ => false end).
  { destruct (cfg_key cfg); [reflexivity|]. rewrite zlen_cons. zl. }
  rewrite K. destruct (cfg_key cfg), (cfg_rle cfg), s; reflexivity.
Qed.
Lemma pk_hdr_len cfg s r : zlen (pk_hdr cfg s r) = pk_hdr_size cfg.
Proof. unfold pk_hdr, pk_hdr_size. now rewrite zlen_cons. Qed.

Lemma src_msg_body cfg w s m r : q_of w s = m :: r -> src_msg cfg w s (is_rle cfg s) = Some (body cfg s m).
Proof. intros H. unfold src_msg, is_rle, body. rewrite H. destruct s, (cfg_rle cfg); reflexivity. Qed.
Lemma src_msg_nil cfg w s b : q_of w s = [] -> src_msg cfg w s b = None.
Proof. intros H. unfold src_msg. now rewrite H. Qed.

Lemma read_at_app h d off k : 0 <= off -> 0 < k ->
  read_at (h ++ d) off k =
    if off <? zlen h then
      let n := Z.min (zlen h - off) k in
      do x <- read_at h off n;
      if k - n =? 0 then Some x else do y <- read_at d 0 (k - n); Some (x ++ y)
    else read_at d (off - zlen h) k.
Proof.
  intros Ho Hk. pose proof (zlen_nonneg h). pose proof (zlen_nonneg d).
  destruct (off <? zlen h) eqn:E; cbv zeta.
  - set (n := Z.min (zlen h - off) k). rewrite (read_at_some h) by (unfold n; lia). cbn [bind].
    destruct (k - n =? 0) eqn:En.
    + assert (k = n) by lia. rewrite read_at_some by (rewrite ?zlen_app; unfold n in *; lia). f_equal.
      rewrite drop_app_le by lia. rewrite take_app_le by (rewrite zlen_drop; unfold n in *; lia). now replace k with n by lia.
    + assert (n = zlen h - off) by (unfold n in *; lia).
      destruct (Z.leb (k - n) (zlen d)) eqn:El.
      * rewrite !read_at_some by (rewrite ?zlen_app; lia). cbn [bind]. f_equal. rewrite drop_0.
        rewrite drop_app_le by lia. rewrite take_app_ge by (rewrite zlen_drop; lia).
        rewrite (take_all n) by (rewrite zlen_drop; lia). do 2 f_equal. rewrite zlen_drop. lia.
      * destruct (read_at (h ++ d) off k) eqn:X; [apply read_at_inv in X as (_ & _ & X & _); rewrite zlen_app in X; lia|].
        destruct (read_at d 0 (k - n)) eqn:Y; [apply read_at_inv in Y as (_ & _ & Y & _); lia|]. reflexivity.
  - destruct (Z.leb (off + k) (zlen (h ++ d))) eqn:El.
    + rewrite zlen_app in El. rewrite !read_at_some by (rewrite ?zlen_app; lia). f_equal. now rewrite drop_app_ge by lia.
    + rewrite zlen_app in El. destruct (read_at (h ++ d) off k) eqn:X; [apply read_at_inv in X as (_ & _ & X & _); rewrite zlen_app in X; lia|].
      destruct (read_at d (off - zlen h) k) eqn:Y; [apply read_at_inv in Y as (_ & _ & Y & _); lia|]. reflexivity.
Qed.

Lemma reader_is_wire cfg pm m off k : pm_rle pm = is_rle cfg (pm_src pm) -> 0 <= off -> 0 < k ->
  pk_reader cfg pm (body cfg (pm_src pm) m) off k = read_at (wire cfg (pm_src pm) m) off k.
Proof.
  intros Hr Ho Hk. rewrite wire_hdr, read_at_app by assumption. unfold pk_reader. rewrite Hr, pk_hdr_len. reflexivity.
Qed.

Lemma reader_calls cfg s m off k : 0 <= off -> 0 < k -> off + k <= zlen (wire cfg s m) ->
  reads_only s (zlen (body cfg s m)) (pk_reader_calls cfg s (off, k)).
Proof.
  intros Ho Hk H. rewrite wire_hdr, zlen_app, pk_hdr_len in H. unfold pk_reader_calls, reads_only.
  destruct (off <? pk_hdr_size cfg) eqn:E.
  - set (n := Z.min _ _). destruct (k - n =? 0) eqn:En; [constructor|]. constructor; [|constructor].
    exists 0, (k - n). unfold n in *. split; [reflexivity|]. lia.
  - constructor; [|constructor]. exists (off - pk_hdr_size cfg), k. split; [reflexivity|]. lia.
Qed.

(* ------------------------------------------------------------ choosing a source *)
Lemma bit_off mask s : (Z.land (Z.shiftl 1 (src_type s)) mask =? 0) = negb (enabled mask s).
Proof. apply land_bit. destruct s; cbn; lia. Qed.

Lemma pk_find_gen cfg w mask table :
  let '(x, cs) := pk_find cfg w mask table in
  queries_only mask cs /\
  match x with
  | None => Forall (fun s => enabled mask s = false \/ q_of w s = []) table
  | Some (s, rle, total) => exists pre post m r, table = pre ++ s :: post /\
      Forall (fun s => enabled mask s = false \/ q_of w s = []) pre /\
      enabled mask s = true /\ q_of w s = m :: r /\ rle = is_rle cfg s /\ total = zlen (body cfg s m)
  end.
Proof.
  induction table as [|s table IH]; cbn [pk_find]; [split; constructor|].
  rewrite bit_off. destruct (enabled mask s) eqn:En; cbn [negb].
  - fold (is_rle cfg s). destruct (q_of w s) as [|m r] eqn:Q.
    + rewrite src_msg_nil by exact Q. destruct (pk_find cfg w mask table) as [x cs]. destruct IH as [IH1 IH2].
      split; [constructor; [eauto|exact IH1]|]. destruct x as [[[s' rle] total]|].
      * destruct IH2 as (pre & post & m & r & -> & F & R). exists (s :: pre), post, m, r. split; [reflexivity|]. split; [constructor; auto|exact R].
      * constructor; auto.
    + rewrite (src_msg_body _ _ _ _ _ Q). split; [constructor; [eauto|constructor]|].
      exists [], table, m, r. split; [reflexivity|]. split; [constructor|]. auto.
  - destruct (pk_find cfg w mask table) as [x cs]. destruct IH as [IH1 IH2]. split; [exact IH1|].
    destruct x as [[[s' rle] total]|].
    + destruct IH2 as (pre & post & m & r & -> & F & R). exists (s :: pre), post, m, r. split; [reflexivity|]. split; [constructor; auto|exact R].
    + constructor; auto.
Qed.

#[local] Arguments pk_find : simpl never.
Lemma pk_find_ok cfg w mask :
  let '(x, cs) := pk_find cfg w mask src_table in
  queries_only mask cs /\
  match x with
  | None => nothing_to_send w mask
  | Some (s, rle, total) => next_source w mask s /\ exists m r, q_of w s = m :: r /\ rle = is_rle cfg s /\ total = zlen (body cfg s m)
  end.
Proof.
  pose proof (pk_find_gen cfg w mask src_table) as H. destruct (pk_find cfg w mask src_table) as [x cs]. destruct H as [H1 H2].
  split; [exact H1|]. destruct x as [[[s rle] total]|].
  - destruct H2 as (pre & post & m & r & T & F & E & Q & R1 & R2). split; [|eauto].
    split; [exact E|]. split; [now rewrite Q|]. intros s' Hs.
    assert (In s' pre).
    { unfold src_table in T. destruct pre as [|a [|b [|c [|d [|]]]]]; cbn in T; inv T; destruct s'; cbn in *; try lia; auto. 
      all: destruct pre; discriminate. }
    rewrite Forall_forall in F. auto.
  - unfold nothing_to_send. intros s. rewrite Forall_forall in H2. apply H2. destruct s; cbn; auto.
Qed.

(* ------------------------------------------------------------ the simulation *)
Lemma concat_nonempty outs : concat (filter nonempty outs) = concat outs.
Proof.
  induction outs as [|o outs IH]; [reflexivity|]. cbn [filter concat]. unfold nonempty at 1.
  destruct (zlen o =? 0) eqn:E; cbn [negb concat]; rewrite IH; [|reflexivity].
  assert (o = []) as -> by (apply zlen_0_nil; lia). reflexivity.
Qed.

Record fl_ok (cfg : pk_cfg) (w : queues) (mask : Z) (pm : pk_msg) (f : flight) : Prop := {
  fo_src : pm_src pm = f_src f;
  fo_rle : pm_rle pm = is_rle cfg (f_src f);
  fo_en : enabled mask (f_src f) = true;
  fo_q : exists r, q_of w (f_src f) = f_msg f :: r;
  fo_multi : ct_multi (pm_ctx pm) = f_multi f;
  fo_single : ct_single (pm_ctx pm) = 3 + zlen (wire cfg (f_src f) (f_msg f));
  fo_wf : cwf (wire cfg (f_src f) (f_msg f)) (pm_ctx pm);
  fo_prog : (ct_offset (pm_ctx pm) =? 0) = match f_outs f with [] => true | _ => false end;
  fo_drain : exists bufs outs reads,
     Forall (fun b => small (zlen b)) bufs /\ f_outs f = filter nonempty outs /\
     ct_drain (read_at (wire cfg (f_src f) (f_msg f)))
       (ct_info (ct_start (zlen (wire cfg (f_src f) (f_msg f))) (f_multi f))) bufs = Some (outs, false, reads, pm_ctx pm) }.

Record sim (cfg : pk_cfg) (w : queues) (st : pk) (ss : sstate) : Prop := {
  si_q : s_q ss = w; si_mask : s_mask ss = pk_mask st; si_ok : queues_ok cfg w;
  si_fl : match pk_cur st, s_fl ss with
          | None, None => True
          | Some pm, Some f => fl_ok cfg w (pk_mask st) pm f
          | _, _ => False
          end }.

Lemma cwf_info msg m : cwf msg (ct_info (ct_start (zlen msg) m)).
Proof. constructor; [reflexivity| |reflexivity]. change (ct_offset (ct_info (ct_start (zlen msg) m))) with 0. zl. Qed.

Lemma begin_ok cfg w st ss multi : sim cfg w st ss ->
  exists ss', let '(ok, l, p, st', cs) := pk_begin cfg w st multi in
    s_begin cfg multi ss ok l p cs ss' /\ sim cfg w st' ss'.
Proof.
  intros [Hq Hm Hok Hf]. destruct ss as [q mask fl]. cbn in *. subst q mask. unfold pk_begin.
  destruct (pk_cur st) as [pm|] eqn:Ec.
  - destruct fl as [f|]; [|contradiction]. rewrite Ec. exists (mk_ss w (pk_mask st) (Some f)). split.
    + rewrite (fo_single _ _ _ _ _ Hf), (fo_prog _ _ _ _ _ Hf).
      replace (negb match f_outs f with [] => true | _ => false end) with (match f_outs f with [] => false | _ => true end) by (now destruct (f_outs f)).
      constructor.
    + constructor; cbn; auto. now rewrite Ec.
  - destruct fl as [f|]; [contradiction|]. unfold pk_load. pose proof (pk_find_ok cfg w (pk_mask st)) as F.
    destruct (pk_find cfg w (pk_mask st) src_table) as [x cs]. destruct F as [F1 F2].
    destruct x as [[[s rle] total]|].
    + destruct F2 as (N & m & r & Q & -> & ->). cbn [pk_cur pm_ctx].
      assert (Hmo : msg_ok cfg s m) by (pose proof (Hok s) as O; rewrite Q in O; now inv O).
      destruct Hmo as [Hb Hsz].
      assert (Et : u32 (zlen (body cfg s m) + pk_hdr_size cfg) = zlen (wire cfg s m)).
      { rewrite u32_id; [rewrite wire_hdr, zlen_app, pk_hdr_len; lia|]. rewrite wire_hdr, zlen_app, pk_hdr_len in Hsz.
        unfold is_u32, pk_hdr_size in *. pose proof (zlen_nonneg (body cfg s m)); pose proof (zlen_nonneg (cfg_key cfg)); lia. }
      rewrite Et.
      assert (Es : ct_single (ct_info (ct_start (zlen (wire cfg s m)) multi)) = 3 + zlen (wire cfg s m)).
      { change (u32 (1 + 2 + zlen (wire cfg s m)) = 3 + zlen (wire cfg s m)). pose proof (zlen_nonneg (wire cfg s m)). rewrite u32_id by (unfold is_u32; lia). lia. }
      rewrite Es. cbn [ct_offset]. exists (mk_ss w (pk_mask st) (Some (mk_fl s m multi []))). split.
      * change (negb (ct_offset (ct_info (ct_start (zlen (wire cfg s m)) multi)) =? 0)) with false. econstructor; eauto.
      * constructor; cbn [s_q s_mask s_fl pk_cur pk_mask]; auto. constructor; cbn [f_src f_msg f_multi f_outs pm_src pm_rle pm_ctx]; auto.
        -- apply N.
        -- eauto.
        -- apply cwf_info.
        -- exists [], [], []. split; [constructor|]. split; reflexivity.
    + exists (mk_ss w (pk_mask st) None). rewrite Ec. split; [now constructor|]. constructor; cbn; auto. now rewrite Ec.
Qed.

Lemma next_ok cfg w st ss buf : sim cfg w st ss -> zlen buf < 4294967296 ->
  exists status out st' w' cs ss', pk_get_next cfg w st buf = Some (status, out, st', w', cs) /\
    s_next cfg (zlen buf) ss status out cs ss' /\ sim cfg w' st' ss'.
Proof.
  intros S Hn. pose proof S as [Hq Hm Hok Hf]. destruct ss as [q mask fl]. cbn in *. subst q mask. unfold pk_get_next.
  destruct (pk_cur st) as [pm|] eqn:Ec; destruct fl as [f|]; try contradiction.
  2: { do 6 eexists. split; [reflexivity|]. split; [constructor|exact S]. }
  destruct f as [s m multi outs]. destruct Hf as [F1 F2 F3 [r F4] F5 F6 F7 F8 (bufs & outs0 & reads & D1 & D2 & D3)]. cbn in *.
  set (p := wire cfg s m) in *.
  rewrite F1, F2, (src_msg_body _ _ _ _ _ F4). cbn [bind].
  assert (Hmo : msg_ok cfg s m) by (pose proof (Hok s) as O; rewrite F4 in O; now inv O).
  destruct Hmo as [Hb Hsz]. fold p in Hb, Hsz.
  assert (Hoff : 0 <= ct_offset (pm_ctx pm)) by (destruct F7; lia).
  rewrite (ct_next_ext _ (read_at p)).
  2: { destruct F7 as [T _ _]. rewrite T. zl. }
  2: { intros k Hk. rewrite <- F1. unfold p. rewrite <- F1. apply reader_is_wire; [congruence|exact Hoff|exact Hk]. }
  destruct (zlen buf <? 9) eqn:E9.
  { rewrite ct_next_small by lia. cbn [bind co_len co_buf co_reads co_ctx co_more]. change (0 =? 0) with true. cbv iota.
    cbn [flat_map]. rewrite take_0.
    do 6 eexists. split; [reflexivity|]. split; [constructor; lia|].
    constructor; cbn; auto. constructor; cbn; auto; [eauto|]. exists bufs, outs0, reads. auto. }
  destruct (ct_next_ok p Hb Hsz (pm_ctx pm) buf (zlen buf) F7) as (more & k & vi & crc & out & Ev & Ecr & Eo & K0 & K1 & Lo & Mk & Mf & Mi & En); [lia|lia|lia|].
  destruct (next_bounds p Hb Hsz (pm_ctx pm) buf (zlen buf) F7) as (o & En' & _ & _ & _ & _ & Hpos); [lia|exact Hn|].
  rewrite En in En'. injection En' as <-. cbn [co_len] in Hpos. destruct (Hpos ltac:(lia)) as [Lpos _]. clear Hpos.
  pose proof (ct_drain_snoc _ _ _ _ _ _ buf D3) as Sn. fold p in Sn. rewrite En in Sn.
  rewrite En. cbn [bind co_len co_buf co_reads co_ctx co_more] in *. rewrite take_app_exact in * by reflexivity.
  replace (zlen out =? 0) with false by lia.
  set (calls := flat_map (pk_reader_calls cfg s) (if k =? 0 then [] else [(ct_offset (pm_ctx pm), k)])).
  assert (Hc : reads_only s (zlen (body cfg s m)) calls).
  { unfold calls. destruct (k =? 0) eqn:Ek; [constructor|]. cbn [flat_map]. rewrite app_nil_r. apply reader_calls; [exact Hoff|lia|exact K1]. }
  clearbody calls.
  assert (Ne : nonempty out = true) by (unfold nonempty; lia).
  assert (Eo2 : outs ++ [out] = filter nonempty (outs0 ++ [out])) by (rewrite filter_app, D2; cbn [filter]; now rewrite Ne).
  assert (Fb : Forall (fun b => small (zlen b)) (bufs ++ [buf])) by (apply Forall_app; split; [exact D1|constructor; [exact Hn|constructor]]).
  destruct more; cbn [negb].
  - specialize (Mk eq_refl). do 6 eexists. split; [reflexivity|]. rewrite F5. cbn [negb] in Sn. split.
    + constructor; [lia|lia| |exact Hc|exact F3]. unfold incomplete. rewrite Eo2. destruct multi.
      * rewrite concat_nonempty. apply drain_multi_incomplete in Sn; try assumption; [|apply cwf_info|reflexivity].
        change (ct_offset (ct_info (ct_start (zlen p) true))) with 0 in Sn. change (0 =? 0) with true in Sn. cbv iota in Sn. fold p. lia.
      * apply drain_incomplete in Sn; try assumption; try reflexivity. apply cwf_info.
    + constructor; cbn [s_q s_mask s_fl pk_cur pk_mask]; auto. 
      constructor; cbn [f_src f_msg f_multi f_outs pm_src pm_rle pm_ctx ct_multi ct_single ct_offset]; auto.
      * eauto.
      * rewrite F6. now destruct (ct_offset (pm_ctx pm) =? 0).
      * constructor; cbn [ct_total ct_offset ct_crc]; [apply F7|fold p; lia|exact Ecr].
      * replace (ct_offset (pm_ctx pm) + k =? 0) with false by lia. now destruct outs.
      * exists (bufs ++ [buf]), (outs0 ++ [out]), (reads ++ (if k =? 0 then [] else [(ct_offset (pm_ctx pm), k)])).
        split; [exact Fb|]. split; [exact Eo2|]. fold p. rewrite Sn. now rewrite F5.
  - cbn [negb] in Sn. do 6 eexists. split; [reflexivity|]. split.
    + eapply SN_last; [lia|lia| |exact Hc|exact F3|exact F4].
      unfold complete. rewrite Eo2. fold p. destruct multi.
      * rewrite concat_nonempty. apply drain_multi in Sn; try assumption; [|apply cwf_info|reflexivity].
        destruct Sn as (crc' & R & C). exists crc'. split; [|now apply crc_is_crc].
        rewrite R. change (ct_offset (ct_info (ct_start (zlen p) true)) =? 0) with true. cbv iota. cbn [app]. cbn [receive].
        change (ct_offset (ct_info (ct_start (zlen p) true))) with 0. rewrite drop_0, parse_whole; [reflexivity|].
        eapply crc16_u16; [|exact Hb|exact C]; unfold is_u16; lia.
      * apply drain_receive in Sn; try assumption; try reflexivity; [|apply cwf_info].
        destruct Sn as (crc' & R & C). exists crc'. split; [exact R|now apply crc_is_crc].
    + rewrite F4. cbn [tl]. constructor; cbn [s_q s_mask s_fl pk_cur pk_mask pk_reset]; auto.
      apply queues_ok_set; [exact Hok|]. pose proof (Hok s) as O. rewrite F4 in O. now inv O.
Qed.

Lemma fl_ok_push cfg w mask pm f s m : fl_ok cfg w mask pm f -> fl_ok cfg (q_set w s (q_of w s ++ [m])) mask pm f.
Proof.
  intros [F1 F2 F3 [r F4] F5 F6 F7 F8 F9]. constructor; auto.
  destruct (src_dec (f_src f) s) as [<-|N]; [rewrite q_set_get, F4; cbn [app]; eauto|]. rewrite q_set_other by exact N. eauto.
Qed.

Lemma step_ok cfg w st ss o : sim cfg w st ss -> op_ok cfg o ->
  exists res st' w' cs ss', pk_step cfg w st o = Some (res, st', w', cs) /\
    s_step cfg ss o res cs ss' /\ sim cfg w' st' ss'.
Proof.
  intros S Ho. destruct o as [multi|buf|buf| |mask| |s m]; cbn [pk_step op_ok] in *.
  - destruct (begin_ok cfg w st ss multi S) as (ss' & B). destruct (pk_begin cfg w st multi) as [[[[ok l] p] st'] cs].
    destruct B as [B1 B2]. do 5 eexists. split; [reflexivity|]. split; [constructor; exact B1|exact B2].
  - destruct (next_ok cfg w st ss buf S Ho) as (status & out & st' & w' & cs & ss' & E & N & S'). rewrite E. cbn [bind].
    do 5 eexists. split; [reflexivity|]. split; [constructor; exact N|exact S'].
  - unfold pk_get_chunk. destruct (begin_ok cfg w st ss false S) as (ss' & B). destruct (pk_begin cfg w st false) as [[[[ok l] p] st'] cs].
    destruct B as [B1 B2]. destruct ok; cbn [negb].
    + destruct (next_ok cfg w st' ss' buf B2 Ho) as (status & out & st2 & w2 & cs2 & ss2 & E & N & S'). rewrite E. cbn [bind].
      do 5 eexists. split; [reflexivity|]. split; [econstructor; eassumption|exact S'].
    + cbn [bind]. do 5 eexists. split; [reflexivity|]. split; [econstructor; exact B1|exact B2].
  - destruct S as [S1 S2 S3 S4]. destruct ss as [q mask fl]. cbn in *. subst. do 5 eexists. split; [reflexivity|]. split; [constructor|constructor; cbn; auto].
  - destruct S as [S1 S2 S3 S4]. destruct ss as [q mask' fl]. cbn in *. subst. do 5 eexists. split; [reflexivity|]. split; [constructor|constructor; cbn; auto].
  - unfold pk_data_available. destruct S as [S1 S2 S3 S4]. destruct ss as [q mask fl]. cbn in *. subst.
    destruct (pk_cur st) as [pm|] eqn:Ec; destruct fl as [f|]; try contradiction.
    + do 5 eexists. split; [reflexivity|]. split; [constructor; [left; discriminate|constructor]|]. constructor; cbn; auto. now rewrite Ec.
    + pose proof (pk_find_ok cfg w (pk_mask st)) as F. destruct (pk_find cfg w (pk_mask st) src_table) as [x cs]. destruct F as [F1 F2].
      assert (S' : sim cfg w st (mk_ss w (pk_mask st) None)) by (constructor; cbn; auto; now rewrite Ec).
      destruct x as [[[s rle] total]|].
      * do 5 eexists. split; [reflexivity|]. split; [|exact S']. apply S_avail_yes; [|exact F1]. right. exists s. apply F2.
      * do 5 eexists. split; [reflexivity|]. split; [|exact S']. apply S_avail_no; [exact F2|exact F1].
  - destruct S as [S1 S2 S3 S4]. destruct ss as [q mask fl]. cbn in *. subst. do 5 eexists. split; [reflexivity|]. split; [constructor|].
    constructor; cbn; auto.
    + apply queues_ok_set; [exact S3|]. apply Forall_app. split; [apply S3|constructor; [apply Ho|constructor]].
    + destruct (pk_cur st), fl; auto. now apply fl_ok_push.
Qed.

Lemma run_ok cfg ops : forall w st ss, sim cfg w st ss -> Forall (op_ok cfg) ops ->
  exists rs st' w' ss', pk_run cfg w st ops = Some (rs, st', w') /\ s_run cfg ss ops rs ss' /\ sim cfg w' st' ss'.
Proof.
  induction ops as [|o ops IH]; intros w st ss S F; cbn [pk_run].
  - do 4 eexists. split; [reflexivity|]. split; [constructor|exact S].
  - inv F. destruct (step_ok cfg w st ss o S H1) as (res & st1 & w1 & cs & ss1 & E & P & S1). rewrite E. cbn [bind].
    destruct (IH w1 st1 ss1 S1 H2) as (rs & st2 & w2 & ss2 & E2 & P2 & S2). rewrite E2. cbn [bind].
    do 4 eexists. split; [reflexivity|]. split; [econstructor; eassumption|exact S2].
Qed.

Lemma sim_init cfg w : queues_ok cfg w -> sim cfg w pk_init (mk_ss w 30 None).
Proof. intros H. constructor; cbn; auto. Qed.

(* ------------------------------------------------------------ consequences *)
Lemma refines cfg w ops : queues_ok cfg w -> Forall (op_ok cfg) ops ->
  exists rs st w' ss, pk_run cfg w pk_init ops = Some (rs, st, w') /\
    s_run cfg (mk_ss w 30 None) ops rs ss /\ s_q ss = w'.
Proof.
  intros Hq Ho. destruct (run_ok cfg ops w pk_init _ (sim_init cfg w Hq) Ho) as (rs & st & w' & ss & E & R & S).
  exists rs, st, w', ss. split; [exact E|]. split; [exact R|apply S].
Qed.

Lemma queries_marks mask cs s : queries_only mask cs -> marks s cs = 0.
Proof.
  intros H. unfold marks. induction H as [|c cs (s' & -> & _) _ IH]; [reflexivity|]. exact IH.
Qed.
Lemma reads_marks s' n cs s : reads_only s' n cs -> marks s cs = 0.
Proof.
  intros H. unfold marks. induction H as [|c cs (o & l & -> & _) _ IH]; [reflexivity|]. exact IH.
Qed.
Lemma queries_nomark mask cs : queries_only mask cs -> existsb is_mark cs = false.
Proof. intros H. induction H as [|c cs (s' & -> & _) _ IH]; [reflexivity|]. exact IH. Qed.
Lemma reads_nomark s' n cs : reads_only s' n cs -> existsb is_mark cs = false.
Proof. intros H. induction H as [|c cs (o & l & -> & _) _ IH]; [reflexivity|]. exact IH. Qed.
Lemma marks_app s a b : marks s (a ++ b) = marks s a + marks s b.
Proof. unfold marks. now rewrite filter_app, zlen_app. Qed.
Lemma marks_one s s' : marks s [CMark s'] = if src_type s' =? src_type s then 1 else 0.
Proof. unfold marks. cbn [filter]. now destruct (src_type s' =? src_type s). Qed.
Lemma queries_enabled mask cs : queries_only mask cs -> Forall (fun c => enabled mask (call_src c) = true) cs.
Proof. intros H. induction H as [|c cs (s' & -> & E) _ IH]; constructor; auto. Qed.
Lemma reads_enabled mask s n cs : enabled mask s = true -> reads_only s n cs -> Forall (fun c => enabled mask (call_src c) = true) cs.
Proof. intros E H. induction H as [|c cs (o & l & -> & _) _ IH]; constructor; auto. Qed.

(** What a step does to one queue, and to the mask. *)
Lemma begin_keeps cfg multi ss ok l p cs ss' : s_begin cfg multi ss ok l p cs ss' ->
  s_q ss' = s_q ss /\ s_mask ss' = s_mask ss /\ queries_only (s_mask ss) cs.
Proof. intros H; inv H; cbn; split; auto; split; auto; constructor. Qed.

Lemma next_effect cfg n ss st out cs ss' s : s_next cfg n ss st out cs ss' ->
  s_mask ss' = s_mask ss /\ Forall (fun c => enabled (s_mask ss) (call_src c) = true) cs /\
  exists d, q_of (s_q ss) s = d ++ q_of (s_q ss') s /\ zlen d = marks s cs.
Proof.
  intros H; inv H; cbn [s_mask s_q]; (split; [reflexivity|]).
  - split; [constructor|]. exists []. auto.
  - split; [constructor|]. exists []. auto.
  - split; [eapply reads_enabled; eassumption|]. exists []. split; [reflexivity|]. now rewrite (reads_marks _ _ _ s H3).
  - split; [apply Forall_app; split; [eapply reads_enabled; eassumption|constructor; [exact H4|constructor]]|].
    rewrite marks_app, (reads_marks _ _ _ s H3), marks_one.
    destruct (src_type s0 =? src_type s) eqn:E.
    + apply src_type_eqb in E. subst s0. rewrite q_set_get, H5. exists [m]. split; reflexivity.
    + rewrite q_set_other by (intros ->; lia). exists []. split; reflexivity.
Qed.

Lemma step_effect cfg ss o res cs ss' s : s_step cfg ss o res cs ss' ->
  s_mask ss' = (match o with PMask m => u32 m | _ => s_mask ss end) /\
  Forall (fun c => enabled (s_mask ss) (call_src c) = true) cs /\
  exists d, q_of (s_q ss) s ++ pushed s [o] = d ++ q_of (s_q ss') s /\ zlen d = marks s cs.
Proof.
  intros H; inv H; cbn [s_mask s_q pushed]; rewrite ?app_nil_r.
  - apply begin_keeps in H0 as (-> & -> & Q). split; [reflexivity|]. split; [now apply queries_enabled|]. exists []. split; [reflexivity|]. now rewrite (queries_marks _ _ s Q).
  - apply (next_effect _ _ _ _ _ _ _ s) in H0 as (-> & C & D). auto.
  - apply begin_keeps in H0 as (-> & -> & Q). split; [reflexivity|]. split; [now apply queries_enabled|]. exists []. split; [reflexivity|]. now rewrite (queries_marks _ _ s Q).
  - apply begin_keeps in H0 as (E1 & E2 & Q). apply (next_effect _ _ _ _ _ _ _ s) in H1 as (-> & C & d & D & L). rewrite E2 in *. rewrite E1 in *.
    split; [reflexivity|]. split; [apply Forall_app; split; [now apply queries_enabled|exact C]|]. exists d. split; [exact D|].
    rewrite marks_app, (queries_marks _ _ s Q). lia.
  - split; [reflexivity|]. split; [constructor|]. exists []. split; reflexivity.
  - split; [reflexivity|]. split; [constructor|]. exists []. split; reflexivity.
  - split; [reflexivity|]. split; [now apply queries_enabled|]. exists []. split; [reflexivity|]. now rewrite (queries_marks _ _ s H1).
  - split; [reflexivity|]. split; [now apply queries_enabled|]. exists []. split; [reflexivity|]. now rewrite (queries_marks _ _ s H1).
  - split; [reflexivity|]. split; [constructor|]. exists []. split; [|reflexivity]. cbn [app].
    destruct (src_type s0 =? src_type s) eqn:E.
    + apply src_type_eqb in E. subst s0. now rewrite q_set_get.
    + rewrite q_set_other by (intros ->; lia). now rewrite app_nil_r.
Qed.

Lemma pushed_cons s o ops : pushed s (o :: ops) = pushed s [o] ++ pushed s ops.
Proof. destruct o; cbn [pushed app]; try reflexivity. now destruct (src_type s0 =? src_type s). Qed.

Lemma run_effect cfg s ss ops rs ss' : s_run cfg ss ops rs ss' ->
  Forall2 (fun m rc => Forall (fun c => enabled m (call_src c) = true) (snd rc)) (masks (s_mask ss) ops) rs /\
  exists d, q_of (s_q ss) s ++ pushed s ops = d ++ q_of (s_q ss') s /\ zlen d = marks s (flat_map snd rs).
Proof.
  induction 1 as [st|st o res cs st1 ops rs st2 H R [IH1 (d2 & IH2 & IH3)]].
  - cbn. split; [constructor|]. exists []. rewrite app_nil_r. auto.
  - apply (step_effect _ _ _ _ _ _ s) in H as (M & C & d1 & D1 & L1). cbn [masks]. rewrite <- M. split; [constructor; [exact C|exact IH1]|].
    exists (d1 ++ d2). rewrite pushed_cons, app_assoc, D1, <- !app_assoc, IH2. split; [reflexivity|].
    cbn [flat_map snd]. rewrite marks_app, zlen_app. lia.
Qed.

Lemma accounting cfg w ops s rs st w' : queues_ok cfg w -> Forall (op_ok cfg) ops ->
  pk_run cfg w pk_init ops = Some (rs, st, w') ->
  exists sent, q_of w s ++ pushed s ops = sent ++ q_of w' s /\ zlen sent = marks s (flat_map snd rs).
Proof.
  intros Hq Ho E. destruct (refines cfg w ops Hq Ho) as (rs' & st' & w2 & ss & E' & R & Q). rewrite E in E'. injection E' as <- <- <-.
  apply (run_effect _ s) in R as [_ R]. now rewrite Q in R.
Qed.

Lemma only_enabled cfg w ops rs st w' : queues_ok cfg w -> Forall (op_ok cfg) ops ->
  pk_run cfg w pk_init ops = Some (rs, st, w') ->
  Forall2 (fun m rc => Forall (fun c => enabled m (call_src c) = true) (snd rc)) (masks 30 ops) rs.
Proof.
  intros Hq Ho E. destruct (refines cfg w ops Hq Ho) as (rs' & st' & w2 & ss & E' & R & Q). rewrite E in E'. injection E' as <- <- <-.
  now apply (run_effect _ SEvent) in R as [R _].
Qed.

(** Pieces since the last boundary are those of the message in flight. *)
Definition fl_outs (ss : sstate) : list (list Z) := match s_fl ss with Some f => f_outs f | None => [] end.

Lemma begin_outs cfg multi ss ok l p cs ss' : s_begin cfg multi ss ok l p cs ss' -> fl_outs ss' = fl_outs ss.
Proof. intros H; inv H; reflexivity. Qed.

Lemma next_outs cfg n ss st out cs ss' : s_next cfg n ss st out cs ss' ->
  (existsb is_mark cs = false /\ fl_outs ss' = fl_outs ss ++ (match out with [] => [] | _ => [out] end)) \/
  (existsb is_mark cs = true /\ fl_outs ss' = [] /\ exists s m r multi, s_q ss' = q_set (s_q ss) s r /\ q_of (s_q ss) s = m :: r /\
     In (CMark s) cs /\ complete multi (fl_outs ss ++ [out]) (wire cfg s m) /\ out <> [] /\ st = EndOfChunk).
Proof.
  intros H; inv H; unfold fl_outs; cbn [s_fl f_outs s_q].
  - left. auto.
  - left. now rewrite app_nil_r.
  - left. split; [eapply reads_nomark; eassumption|]. destruct out; [change (zlen (@nil Z)) with 0 in H1; lia|reflexivity].
  - right. rewrite existsb_app. cbn. rewrite orb_true_r. split; [reflexivity|]. split; [reflexivity|].
    exists s, m, r, multi. split; [reflexivity|]. split; [exact H5|]. split; [apply in_or_app; right; now left|]. split; [exact H2|].
    split; [intros ->; change (zlen (@nil Z)) with 0 in H1; lia|reflexivity].
Qed.

Lemma since_app a h1 h2 : since a (h1 ++ h2) = since (since a h1) h2.
Proof.
  revert a. induction h1 as [|[o [r cs]] h1 IH]; intros a; [reflexivity|]. cbn [since app].
  destruct o, (existsb is_mark cs); apply IH.
Qed.

Lemma step_since cfg ss o res cs ss' : s_step cfg ss o res cs ss' ->
  fl_outs ss' = since (fl_outs ss) [(o, (res, cs))] /\
  forall s, In (CMark s) cs -> exists m r multi out, piece_of res = [out] /\ s_q ss' = q_set (s_q ss) s r /\
     q_of (s_q ss) s = m :: r /\ complete multi (fl_outs ss ++ [out]) (wire cfg s m) /\
     (res = ResNext EndOfChunk out \/ res = ResChunk true out).
Proof.
  assert (Q : forall mask cs s, queries_only mask cs -> ~ In (CMark s) cs).
  { intros mask cs0 s H I. unfold queries_only in H. rewrite Forall_forall in H. destruct (H _ I) as (? & X & _). discriminate. }
  assert (N : forall n ss0 st out cs0 ss1 s, s_next cfg n ss0 st out cs0 ss1 -> In (CMark s) cs0 ->
     exists m r multi, piece_of (ResNext st out) = [out] /\ s_q ss1 = q_set (s_q ss0) s r /\
     q_of (s_q ss0) s = m :: r /\ complete multi (fl_outs ss0 ++ [out]) (wire cfg s m) /\ st = EndOfChunk).
  { intros n ss0 st out cs0 ss1 s H I. inv H; try contradiction.
    - unfold reads_only in H3. rewrite Forall_forall in H3. destruct (H3 _ I) as (? & ? & X & _). discriminate.
    - apply in_app_or in I as [I|[I|[]]]; [unfold reads_only in H3; rewrite Forall_forall in H3; destruct (H3 _ I) as (? & ? & X & _); discriminate|].
      inv I. exists m, r, multi. cbn [s_q]. split; [destruct out; [change (zlen (@nil Z)) with 0 in H1; lia|reflexivity]|]. auto. }
  assert (P : forall x l, piece_of (ResNext x l) = match l with [] => [] | _ => [l] end) by (now destruct l).
  assert (P' : forall x l, piece_of (ResChunk x l) = match l with [] => [] | _ => [l] end) by (now destruct l).
  intros H; inv H; cbn [since].
  - pose proof (begin_keeps _ _ _ _ _ _ _ _ H0) as (_ & _ & K). rewrite (queries_nomark _ _ K). cbn [piece_of]. rewrite app_nil_r.
    split; [eapply begin_outs; eassumption|]. intros s' I. exfalso. eapply Q; eassumption.
  - split.
    + apply next_outs in H0 as [[M ->]|[M [-> _]]]; rewrite M; [now rewrite P|reflexivity].
    + intros s' I. destruct (N _ _ _ _ _ _ _ H0 I) as (m & r & multi & A & B & C & D & ->). exists m, r, multi, out. auto 6.
  - pose proof (begin_keeps _ _ _ _ _ _ _ _ H0) as (_ & _ & K). rewrite (queries_nomark _ _ K). cbn [piece_of]. rewrite app_nil_r.
    split; [eapply begin_outs; eassumption|]. intros s' I. exfalso. eapply Q; eassumption.
  - pose proof (begin_keeps _ _ _ _ _ _ _ _ H0) as (Kq & _ & K). rewrite existsb_app, (queries_nomark _ _ K). cbn [orb].
    pose proof (begin_outs _ _ _ _ _ _ _ _ H0) as B. rewrite <- B. split.
    + apply next_outs in H1 as [[M ->]|[M [-> _]]]; rewrite M; [now rewrite P'|reflexivity].
    + intros s' I. apply in_app_or in I as [I|I]; [exfalso; eapply Q; eassumption|].
      destruct (N _ _ _ _ _ _ _ H1 I) as (m & r & multi & A & B' & C & D & ->). rewrite <- Kq. exists m, r, multi, out. auto 6.
  - split; [reflexivity|]. intros s' [].
  - split; [reflexivity|]. intros s' [].
  - rewrite (queries_nomark _ _ H1). cbn [piece_of]. rewrite app_nil_r. split; [reflexivity|]. intros s' I. exfalso. eapply Q; eassumption.
  - rewrite (queries_nomark _ _ H1). cbn [piece_of]. rewrite app_nil_r. split; [reflexivity|]. intros s' I. exfalso. eapply Q; eassumption.
  - cbn [existsb piece_of]. rewrite app_nil_r. split; [reflexivity|]. intros s' [].
Qed.

Lemma run_since cfg ss ops rs ss' : s_run cfg ss ops rs ss' -> fl_outs ss' = since (fl_outs ss) (combine ops rs).
Proof.
  induction 1 as [st|st o res cs st1 ops rs st2 H R IH]; [reflexivity|].
  apply step_since in H as [E _]. cbn [combine]. change ((o, (res, cs)) :: combine ops rs) with ([(o, (res, cs))] ++ combine ops rs).
  rewrite since_app, <- E. exact IH.
Qed.

Lemma mark_means_complete cfg w ops o rs st w1 res st2 w2 cs s : queues_ok cfg w -> Forall (op_ok cfg) (ops ++ [o]) ->
  pk_run cfg w pk_init ops = Some (rs, st, w1) -> pk_step cfg w1 st o = Some (res, st2, w2, cs) -> In (CMark s) cs ->
  exists m r multi out, q_of w1 s = m :: r /\ w2 = q_set w1 s r /\
    (res = ResNext EndOfChunk out \/ res = ResChunk true out) /\
    complete multi (since [] (combine ops rs) ++ [out]) (wire cfg s m).
Proof.
  intros Hq Ho E1 E2 I. apply Forall_app in Ho as [Ho1 Ho2]. inv Ho2.
  destruct (run_ok cfg ops w pk_init _ (sim_init cfg w Hq) Ho1) as (rs' & st' & w' & ss & E & R & S). rewrite E1 in E. injection E as <- <- <-.
  destruct (step_ok cfg w1 st ss o S H1) as (res' & st'' & w'' & cs' & ss' & E & P & S'). rewrite E2 in E. injection E as <- <- <- <-.
  apply run_since in R. apply step_since in P as [_ P]. destruct (P s I) as (m & r & multi & out & _ & Q1 & Q2 & C & Rr).
  rewrite (si_q _ _ _ _ S) in *. rewrite (si_q _ _ _ _ S') in *. rewrite R in C. exists m, r, multi, out. auto.
Qed.

Lemma run_mask cfg ss ops rs ss' : s_run cfg ss ops rs ss' ->
  s_mask ss' = fold_left (fun m o => match o with PMask m' => u32 m' | _ => m end) ops (s_mask ss).
Proof.
  induction 1 as [st|st o res cs st1 ops rs st2 H R IH]; [reflexivity|].
  apply (step_effect _ _ _ _ _ _ SEvent) in H as [E _]. cbn [fold_left]. rewrite <- E. exact IH.
Qed.

Lemma avail_exact cfg w ops rs st w1 : queues_ok cfg w -> Forall (op_ok cfg) ops ->
  pk_run cfg w pk_init ops = Some (rs, st, w1) ->
  exists b cs, pk_step cfg w1 st PAvail = Some (ResAvail b, st, w1, cs) /\
    (b = true <-> exists s, enabled (last_mask ops) s = true /\ q_of w1 s <> []).
Proof.
  intros Hq Ho E1.
  destruct (run_ok cfg ops w pk_init _ (sim_init cfg w Hq) Ho) as (rs' & st' & w' & ss & E & R & S). rewrite E1 in E. injection E as <- <- <-.
  assert (Lm : last_mask ops = pk_mask st) by (apply run_mask in R; unfold last_mask; cbn [s_mask] in R; rewrite <- R; apply S). rewrite Lm.
  cbn [pk_step]. unfold pk_data_available. destruct S as [S1 S2 S3 S4].
  destruct (pk_cur st) as [pm|] eqn:Ec.
  - destruct (s_fl ss) as [f|]; [|contradiction]. do 2 eexists. split; [reflexivity|]. split; [|reflexivity]. intros _.
    destruct S4 as [_ _ En [r Q] _ _ _ _ _]. exists (f_src f). split; [exact En|]. now rewrite Q.
  - pose proof (pk_find_ok cfg w1 (pk_mask st)) as F. destruct (pk_find cfg w1 (pk_mask st) src_table) as [x cs]. destruct F as [F1 F2].
    do 2 eexists. split; [reflexivity|]. destruct x as [[[s rle] total]|].
    + split; [|reflexivity]. intros _. exists s. destruct F2 as [(A & B & _) _]. auto.
    + split; [discriminate|]. intros (s & A & B). destruct (F2 s) as [C|C]; [congruence|contradiction].
Qed.

(* ------------------------------------------------------------ draining everything *)
Lemma next_progress cfg w st ss buf pm status out st' w' cs : sim cfg w st ss -> 9 <= zlen buf < 4294967296 ->
  pk_cur st = Some pm -> pk_get_next cfg w st buf = Some (status, out, st', w', cs) ->
  (w' = w /\ exists pm', pk_cur st' = Some pm' /\ ct_offset (pm_ctx pm) < ct_offset (pm_ctx pm')) \/ pk_cur st' = None.
Proof.
  intros [S1 S2 S3 S4] Hn Ec E. rewrite Ec in S4. destruct (s_fl ss) as [f|]; [|contradiction].
  destruct f as [s m multi outs]. destruct S4 as [F1 F2 F3 [r F4] F5 F6 F7 F8 _]. cbn in *.
  unfold pk_get_next in E. rewrite Ec in E. rewrite F1, F2, (src_msg_body _ _ _ _ _ F4) in E. cbn [bind] in E.
  assert (Hmo : msg_ok cfg s m) by (pose proof (S3 s) as O; rewrite F4 in O; now inv O).
  destruct Hmo as [Hb Hsz].
  rewrite (ct_next_ext _ (read_at (wire cfg s m))) in E.
  2: { destruct F7 as [T _ _]. rewrite T. zl. }
  2: { intros k Hk. rewrite <- F1. apply reader_is_wire; [congruence|destruct F7; lia|exact Hk]. }
  destruct (ct_next_ok _ Hb Hsz (pm_ctx pm) buf (zlen buf) F7) as (more & k & vi & crc & o & Ev & Ecr & Eo & K0 & K1 & Lo & Mk & Mf & Mi & En); [lia|lia|lia|].
  rewrite En in E. cbn [bind co_len co_buf co_reads co_ctx co_more] in E.
  destruct (zlen o =? 0) eqn:Z0.
  - destruct (next_bounds _ Hb Hsz (pm_ctx pm) buf (zlen buf) F7) as (o' & En' & _ & _ & _ & _ & Hp); [lia|unfold small; lia|].
    rewrite En in En'. injection En' as <-. cbn [co_len] in Hp. destruct (Hp ltac:(lia)). lia.
  - destruct more; cbn [negb] in E; [|right; now inv E].
    left. injection E as <- <- <- <- <-. split; [reflexivity|]. eexists. split; [reflexivity|]. cbn. specialize (Mk eq_refl). lia.
Qed.

Lemma backlog_none cfg mask w : nothing_to_send w mask -> backlog cfg mask w = [].
Proof.
  intros H. unfold backlog, priority. cbn [flat_map].
  destruct (H SCoredump) as [E1|E1], (H SEvent) as [E2|E2], (H SLog) as [E3|E3], (H SCdr) as [E4|E4]; rewrite ?E1, ?E2, ?E3, ?E4; cbn;
  repeat (match goal with |- context [if ?b then _ else _] => destruct b end); reflexivity.
Qed.
Lemma backlog_nil cfg mask w : backlog cfg mask w = [] -> nothing_to_send w mask.
Proof.
  unfold backlog, priority, nothing_to_send. cbn [flat_map]. rewrite app_nil_r. intros H s.
  apply app_eq_nil in H as [H1 H]. apply app_eq_nil in H as [H2 H]. apply app_eq_nil in H as [H3 H4].
  destruct (enabled mask s) eqn:E; [right|now left]. destruct s; rewrite E in *;
  match goal with X : map _ ?l = [] |- ?l = [] => destruct l; [reflexivity|discriminate] end.
Qed.
Lemma backlog_pop cfg mask w s m r : next_source w mask s -> q_of w s = m :: r ->
  backlog cfg mask w = wire cfg s m :: backlog cfg mask (q_set w s r).
Proof.
  intros (E & _ & N) Q. unfold backlog, priority. cbn [flat_map].
  assert (P : forall s', src_type s' < src_type s -> (if enabled mask s' then map (wire cfg s') (q_of w s') else []) = []).
  { intros s' H. destruct (N s' H) as [X|X]; rewrite X; [reflexivity|]. now destruct (enabled mask s'). }
  destruct s; cbn [q_of q_set q_core q_event q_log q_cdr] in *; rewrite ?Q, ?E; cbn [map app];
  repeat (first [rewrite (P SCoredump) by (cbn; lia) | rewrite (P SEvent) by (cbn; lia) | rewrite (P SLog) by (cbn; lia)]);
  try (pose proof (P SCoredump ltac:(cbn; lia)) as P1; cbn [q_of] in P1; rewrite ?P1);
  try (pose proof (P SEvent ltac:(cbn; lia)) as P2; cbn [q_of] in P2; rewrite ?P2);
  try (pose proof (P SLog ltac:(cbn; lia)) as P3; cbn [q_of] in P3; rewrite ?P3); reflexivity.
Qed.

Definition done_bytes (st : pk) : Z := match pk_cur st with Some pm => ct_offset (pm_ctx pm) | None => 0 end.

(** The message in flight is the first of the backlog. *)
Definition at_head (cfg : pk_cfg) (mask : Z) (w : queues) (ss : sstate) : Prop :=
  match s_fl ss with
  | Some f => f_multi f = false /\ next_source w mask (f_src f)
  | None => True
  end.

Lemma drain_all cfg bufs : forall w st ss, sim cfg w st ss -> at_head cfg (pk_mask st) w ss ->
  Forall (fun b => 9 <= zlen b < 4294967296) bufs ->
  exists rs st' w' groups sent rest, pk_run cfg w st (map PChunk bufs) = Some (rs, st', w') /\
    fl_outs ss ++ chunks_of rs = concat groups ++ rest /\
    Forall2 (fun g p => exists crc, receive g = Some (p, crc) /\ is_crc 0 p crc) groups sent /\
    backlog cfg (pk_mask st) w = sent ++ backlog cfg (pk_mask st) w' /\
    (forall s, enabled (pk_mask st) s = false -> q_of w' s = q_of w s) /\
    (work (backlog cfg (pk_mask st) w) - done_bytes st <= zlen bufs ->
       rest = [] /\ nothing_to_send w' (pk_mask st)).
Proof.
  induction bufs as [|b bufs IH]; intros w st ss S A F; cbn [map pk_run].
  - exists [], st, w, [], [], (fl_outs ss). split; [reflexivity|]. cbn [chunks_of flat_map concat app]. rewrite app_nil_r. split; [reflexivity|]. split; [constructor|].
    split; [reflexivity|]. split; [auto|]. intros W.
    destruct (pk_cur st) as [pm|] eqn:Ec.
    + exfalso. destruct S as [S1 S2 S3 S4]. rewrite Ec in S4. unfold at_head in A. destruct (s_fl ss) as [f|]; [|contradiction].
      destruct A as [_ N]. destruct S4 as [F1 F2 F3 [r F4] F5 F6 F7 F8 _].
      rewrite (backlog_pop _ _ _ _ _ _ N F4) in W. cbn [work fold_right] in W. unfold done_bytes in W. rewrite Ec in W.
      destruct F7 as [_ F7 _]. fold (work (backlog cfg (pk_mask st) (q_set w (f_src f) r))) in W.
      assert (0 <= work (backlog cfg (pk_mask st) (q_set w (f_src f) r))).
      { generalize (backlog cfg (pk_mask st) (q_set w (f_src f) r)). induction l as [|p l IHl]; cbn; [lia|]. fold (work l) in *. pose proof (zlen_nonneg p). cbn in *. lia. }
      change (zlen (@nil (list Z))) with 0 in W. lia.
    + assert (s_fl ss = None) as Ef by (destruct S as [_ _ _ S4]; rewrite Ec in S4; destruct (s_fl ss); [contradiction|reflexivity]).
      unfold fl_outs. rewrite Ef. split; [reflexivity|]. apply (backlog_nil cfg). unfold done_bytes in W. rewrite Ec in W.
      destruct (backlog cfg (pk_mask st) w) as [|p l]; [reflexivity|]. exfalso. cbn [work fold_right] in W. fold (work l) in W.
      assert (0 <= work l) by (clear; induction l as [|q l IHl]; cbn; [lia|]; fold (work l) in *; pose proof (zlen_nonneg q); lia).
      pose proof (zlen_nonneg p). change (zlen (@nil (list Z))) with 0 in W. lia.
  - inv F. cbn [pk_step]. unfold pk_get_chunk.
    destruct (begin_ok cfg w st ss false S) as (ss1 & B). destruct (pk_begin cfg w st false) as [[[[ok l] p] st1] cs1] eqn:Eb.
    destruct B as [B1 S1].
    assert (Em : pk_mask st1 = pk_mask st).
    { rewrite <- (si_mask _ _ _ _ S1), <- (si_mask _ _ _ _ S). now apply begin_keeps in B1. }
    assert (Ed : done_bytes st1 = done_bytes st).
    { unfold pk_begin, pk_load in Eb. unfold done_bytes. destruct (pk_cur st) as [pm|] eqn:Ec.
      - cbn in Eb. rewrite Ec in Eb. inv Eb. now rewrite Ec.
      - destruct (pk_find cfg w (pk_mask st) src_table) as [[[[s rle] tot]|] cs]; cbn [pk_cur pm_ctx] in Eb; [inv Eb; reflexivity|].
        rewrite Ec in Eb. inv Eb. now rewrite Ec. }
    assert (Eo : fl_outs ss1 = fl_outs ss) by (eapply begin_outs; eassumption).
    assert (A1 : at_head cfg (pk_mask st1) w ss1).
    { unfold at_head in *. destruct (si_q _ _ _ _ S). rewrite Em, <- (si_mask _ _ _ _ S) in *. inv B1; cbn [s_fl s_q s_mask f_multi f_src] in *; auto. }
    destruct ok; cbn [negb].
    + destruct (next_ok cfg w st1 ss1 b S1) as (status & out & st2 & w2 & cs2 & ss2 & En & Nx & S2); [lia|]. rewrite En. cbn [bind].
      destruct (pk_cur st1) as [pm|] eqn:Ec.
      2: { exfalso. destruct S1 as [_ _ _ S14]. rewrite Ec in S14. inv B1; cbn in S14; contradiction. }
      pose proof (next_progress _ _ _ _ _ _ _ _ _ _ _ S1 H1 Ec En) as Pr.
      pose proof (next_outs _ _ _ _ _ _ _ Nx) as No.
      pose proof (next_effect _ _ _ _ _ _ _ SEvent Nx) as (Em2 & _). 
      assert (Em3 : pk_mask st2 = pk_mask st1) by (rewrite <- (si_mask _ _ _ _ S2), <- (si_mask _ _ _ _ S1); exact Em2).
      inv Nx.
      * exfalso. destruct S1 as [_ _ _ S14]. cbn in S14. rewrite Ec in S14. contradiction.
      * lia.
      * (* one more piece *)
        destruct No as [[_ No]|[X _]]; [|erewrite reads_nomark in X by eassumption; discriminate].
        cbn [s_q] in *. assert (w2 = w) as -> by (rewrite <- (si_q _ _ _ _ S2), <- (si_q _ _ _ _ S1); reflexivity).
        destruct Pr as [[_ (pm' & Ec' & Lt)]|Pr]; [|exfalso; destruct S2 as [_ _ _ S24]; rewrite Pr in S24; contradiction].
        destruct (IH w st2 _ S2) as (rs & st' & w' & groups & sent & rest & R1 & R2 & R3 & R4 & R5 & R6); [|exact H2|].
        { unfold at_head in *. cbn [s_fl f_multi f_src] in *. now rewrite Em3. }
        rewrite R1. cbn [bind]. rewrite Em3, Em in *.
        assert (Ne : out <> []) by (intros ->; change (zlen (@nil Z)) with 0 in *; lia).
        eexists _, st', w', groups, sent, rest. split; [reflexivity|]. split.
        { cbn [chunks_of flat_map fst]. fold (chunks_of rs). rewrite <- R2, No, Eo. destruct out; [congruence|]. cbn [piece_of]. now rewrite <- app_assoc. }
        split; [exact R3|]. split; [exact R4|]. split; [exact R5|]. intros W. apply R6. rewrite zlen_cons in W.
        unfold done_bytes at 1. rewrite Ec'. rewrite <- Ed in W. unfold done_bytes in W. rewrite Ec in W. lia.
      * (* last piece *)
        destruct No as [[X _]|[_ [No _]]]; [rewrite existsb_app in X; cbn in X; rewrite orb_true_r in X; discriminate|].
        assert (w2 = q_set w s r) as -> by (rewrite <- (si_q _ _ _ _ S2); destruct (si_q _ _ _ _ S1); reflexivity).
        unfold at_head in A1. cbn [s_fl f_multi f_src] in A1. destruct A1 as [-> Nsrc].
        assert (Q : q_of w s = m :: r) by (destruct (si_q _ _ _ _ S1); assumption).
        destruct (IH (q_set w s r) st2 _ S2) as (rs & st' & w' & groups & sent & rest & R1 & R2 & R3 & R4 & R5 & R6); [exact I|exact H2|].
        rewrite R1. cbn [bind]. rewrite Em3, Em in *.
        assert (Ne : out <> []) by (intros ->; change (zlen (@nil Z)) with 0 in *; lia).
        eexists _, st', w', ((outs ++ [out]) :: groups), (wire cfg s m :: sent), rest. split; [reflexivity|]. split.
        { cbn [chunks_of flat_map fst concat]. fold (chunks_of rs). rewrite No in R2. cbn [app] in R2. rewrite R2, <- Eo.
          unfold fl_outs. cbn [s_fl f_outs]. destruct out; [congruence|]. cbn [piece_of app]. rewrite <- !app_assoc. reflexivity. }
        split; [constructor; [assumption|exact R3]|].
        split; [rewrite (backlog_pop _ _ _ _ _ _ Nsrc Q), R4; reflexivity|].
        split.
        { intros s' D. rewrite R5 by exact D. apply q_set_other. intros ->. destruct Nsrc as [Nen _]. congruence. }
        intros W. apply R6. rewrite (backlog_pop _ _ _ _ _ _ Nsrc Q) in W. cbn [work fold_right] in W.
        fold (work (backlog cfg (pk_mask st) (q_set w s r))) in W. rewrite zlen_cons in W.
        assert (Hpn : pk_cur st2 = None) by (destruct S2 as [_ _ _ S24]; cbn in S24; destruct (pk_cur st2); [contradiction|reflexivity]).
        unfold done_bytes at 1. rewrite Hpn. rewrite <- Ed in W. unfold done_bytes in W. rewrite Ec in W.
        assert (ct_offset (pm_ctx pm) <= zlen (wire cfg s m)).
        { destruct S1 as [_ _ _ S14]. rewrite Ec in S14. cbn in S14. destruct S14 as [_ _ _ _ _ _ [_ X _] _ _]. cbn in X. lia. }
        lia.
    + (* nothing left *)
      cbn [bind].
      assert (Nts : nothing_to_send w (pk_mask st) /\ s_fl ss1 = None).
      { destruct (si_q _ _ _ _ S). rewrite <- (si_mask _ _ _ _ S). inv B1; cbn; auto. }
      destruct Nts as [Nts Ef].
      destruct (IH w st1 ss1 S1 A1 H2) as (rs & st' & w' & groups & sent & rest & R1 & R2 & R3 & R4 & R5 & R6).
      rewrite R1. cbn [bind]. rewrite Em in *. eexists _, st', w', groups, sent, rest. split; [reflexivity|]. split.
      { cbn [chunks_of flat_map fst piece_of app]. fold (chunks_of rs). now rewrite <- R2, Eo. }
      split; [exact R3|]. split; [exact R4|]. split; [exact R5|]. intros _. apply R6. rewrite (backlog_none _ _ _ Nts). cbn [work fold_right].
      assert (pk_cur st1 = None) as X by (destruct S1 as [_ _ _ S14]; rewrite Ef in S14; destruct (pk_cur st1); [contradiction|reflexivity]).
      unfold done_bytes. rewrite X. zl.
Qed.

Lemma drain_everything cfg w mask bufs : queues_ok cfg w -> is_u32 mask ->
  Forall (fun b => 9 <= zlen b < 4294967296) bufs ->
  work (backlog cfg mask w) <= zlen bufs ->
  exists rs st w' groups, pk_run cfg w pk_init (PMask mask :: map PChunk bufs) = Some (rs, st, w') /\
    chunks_of rs = concat groups /\
    Forall2 (fun g p => exists crc, receive g = Some (p, crc) /\ is_crc 0 p crc) groups (backlog cfg mask w) /\
    (forall s, q_of w' s = if enabled mask s then [] else q_of w s).
Proof.
  intros Hq Hm F W. cbn [pk_run pk_step bind]. unfold pk_set_active_sources. rewrite u32_id by exact Hm. cbn [pk_cur pk_abort pk_reset].
  destruct (drain_all cfg bufs w (mk_pk None mask) (mk_ss w mask None)) as (rs & st & w' & groups & sent & rest & R1 & R2 & R3 & R4 & R5 & R6);
    [constructor; cbn; auto|exact I|exact F|]. cbn [pk_mask] in *. rewrite R1. cbn [bind].
  destruct R6 as [-> N]; [unfold done_bytes; cbn [pk_cur]; lia|].
  eexists _, st, w', groups. split; [reflexivity|]. split; [cbn [chunks_of flat_map fst piece_of app]; fold (chunks_of rs); rewrite app_nil_r in R2; exact R2|].
  rewrite (backlog_none _ _ _ N), app_nil_r in R4. split; [now rewrite R4|].
  intros s. destruct (enabled mask s) eqn:E; [|now apply R5]. destruct (N s); [congruence|assumption].
Qed.

Lemma get_chunk_mid_multi : ~ (forall cfg w ops rs st w' i out,
  queues_ok cfg w -> Forall (op_ok cfg) ops ->
  pk_run cfg w pk_init ops = Some (rs, st, w') ->
  nth_error (map fst rs) i = Some (ResChunk false out) -> out = []).
Proof.
  intros H.
  set (cfg := mk_cfg [] None). set (w := mk_q [] [fill 20 1] [] []).
  set (ops := [PBegin true; PChunk (fill 9 0)]).
  destruct (pk_run cfg w pk_init ops) as [[[rs st] w']|] eqn:E; [|vm_compute in E; discriminate].
  enough (X : exists x o, nth_error (map fst rs) 1 = Some (ResChunk false (x :: o))).
  { destruct X as (x & o & X).
    assert (Q : queues_ok cfg w).
    { intros s. destruct s; cbn [q_of w q_core q_event q_log q_cdr]; [constructor| |constructor|constructor]. constructor; [|constructor].
      split; [|vm_compute; reflexivity]. change (bytes (2 :: fill 20 1)). constructor; [split; lia|]. apply bytes_fill. split; lia. }
    assert (O : Forall (op_ok cfg) ops) by (constructor; [exact I|constructor; [vm_compute; reflexivity|constructor]]).
    discriminate (H cfg w ops rs st w' 1%nat (x :: o) Q O E X). }
  vm_compute in E. injection E as <- _ _. vm_compute. eauto.
Qed.
