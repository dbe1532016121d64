From Verif Require Import Base CborDoc SerializerDocs LogDataSourceProofs CdrProofs Varint VarintSpec VarintProofs CircularBuffer Crc16Spec ChunkSpec Rle RleSpec RleProofs Coredump DataSourceRle DataSourceRleSpec DataSourceRleProofs
  EventStorage EventStorageSpec EventStorageProofs Cbor CborSpec CborProofs SerializerHelper SerializerHelperSpec SerializerHelperProofs
  Log LogSpec LogProofs LogLists LogHistoryProofs LogDataSource LogDataSourceSpec Cdr CdrSpec
  Packetizer PacketizerSpec PacketizerProofs Uplink UplinkSpec UplinkProofs Device DeviceSpec.

(* ------------------------------------------------------------ the run-length encoding *)
Lemma varint_bytes v h : is_s32 v -> varint_si32 v = Some h -> bytes h.
Proof. intros H E. destruct (varint_si32_correct v H) as (e & Ee & B & _). congruence. Qed.
Lemma bytes_app_iff a b : bytes (a ++ b) <-> bytes a /\ bytes b. Proof. unfold bytes. apply Forall_app. Qed.
Lemma bytes_take n l : bytes l -> bytes (take n l).
Proof. intros H. rewrite <- (take_drop n l) in H. apply bytes_app_iff in H. apply H. Qed.
Lemma bytes_drop n l : bytes l -> bytes (drop n l).
Proof. intros H. rewrite <- (take_drop n l) in H. apply bytes_app_iff in H. apply H. Qed.
Lemma emit_bytes segs : forall off ws m s, ws_ok off segs ws -> bytes m -> rle_emit_all m ws = Some s -> bytes s.
Proof.
  induction segs as [|g segs IH]; intros off ws m s W B E; destruct ws as [|w ws]; try (destruct g; contradiction); try contradiction.
  - cbn in E. injection E as <-. constructor.
  - assert (X : bytes (w_header w) /\ exists off', ws_ok off' segs ws).
    { destruct g as [x|b n]; destruct W as (h & Hh & Hl & -> & W); cbn [w_header]; (split; [|eauto]); eapply varint_bytes; try exact Hh; unfold is_s32; try (pose proof (zlen_nonneg x)); lia. }
    destruct X as (Bh & off' & W'). cbn [rle_emit_all] in E. apply bind_inv in E as (a & Ea & E). apply bind_inv in E as (b & Eb & E). injection E as <-.
    apply bytes_app_iff. split; [|exact (IH _ _ _ _ W' B Eb)].
    unfold rle_emit in Ea. apply bind_inv in Ea as (d & Ed & Ea). injection Ea as <-. apply read_at_inv in Ed as (_ & _ & _ & -> & _).
    apply bytes_app_iff. split; [exact Bh|]. apply bytes_take, bytes_drop, B.
Qed.
Lemma enc_of_fine m : bytes m -> zlen m < 2147483648 -> bytes (enc_of m) /\ zlen (enc_of m) <= 3 * zlen m + 5.
Proof.
  intros B Hm. destruct m as [|x m'] eqn:Em; [cbn; split; [constructor|unfold zlen; cbn; lia]|]. rewrite <- Em in *.
  assert (Hne : m <> []) by (rewrite Em; congruence). clear Em.
  destruct (enc_future m Hne Hm) as (s & F & _ & Es & _). rewrite Es.
  destruct (feed_all_ok [m] rle_init [] [] [] [] inv_init) as (ws1 & c1 & s1 & d1 & E1 & I1 & R1); [cbn [concat]; rewrite app_nil_r; exact Hm|].
  cbn [concat Datatypes.app] in *. rewrite app_nil_r in *.
  destruct (finalize_ok _ _ _ _ _ I1 Hm) as (c' & g & Ef & Hws & Hx & Ht & Hb1 & Hb2 & Hb3 & _).
  destruct (decode_ok _ 0 _ [] [] Hws eq_refl) as (str & Estr & Ls & _). rewrite Hx in Estr. cbn [Datatypes.app] in Estr. rewrite app_nil_r in Estr.
  assert (str = s) as ->.
  { unfold future in F. change (drop 0 m) with m in F. change (RleProofs.core rle_init) with rle_init in F.
    destruct (bytes_run rle_init m) as [[w0 c0]|]; [|discriminate]. cbn [option_map fst snd bind] in *.
    assert (R2 : RleProofs.core c0 = RleProofs.core c1) by congruence. assert (w0 = ws1) as -> by congruence.
    rewrite R2, finalize_core, Ef in F. cbn [bind] in F. congruence. }
  split; [eapply emit_bytes; eassumption|].
  assert (Lw : zlen (exp_all s1) <= zlen m).
  { rewrite (iv_p _ _ _ _ _ I1), zlen_app. pose proof (zlen_nonneg d1). lia. }
  rewrite Ls, sumsz_app. cbn [sumsz fold_right]. fold (sumsz ws1). pose proof (iv_bnd _ _ _ _ _ I1). lia.
Qed.

(* ------------------------------------------------------------ one source *)
Record one {W A} (s : source W) (offer1 : A -> option (list Z)) (ask1 mark1 : A -> A) (ok1 : list Z -> Prop)
  (rel1 : option Z -> W -> A -> Prop) : Prop := {
  o_ask : forall a, offer1 (ask1 a) = offer1 a;
  o_has : forall w a, rel1 None w a -> exists w', s1_has s w = Some (option_map zlen (offer1 a), w') /\ rel1 None w' (ask1 a) /\
     (offer1 a <> None -> rel1 (Some 0) w' (ask1 a));
  o_read : forall p w a m buf, rel1 (Some p) w a -> offer1 a = Some m -> 0 <= p -> 0 < zlen buf -> p + zlen buf <= zlen m ->
     exists w', s1_read s w p buf = Some (true, take (zlen buf) (drop p m), w') /\ rel1 (Some (p + zlen buf)) w' a;
  o_mark : forall p w a, rel1 (Some p) w a -> exists w', s1_mark s w = Some w' /\ rel1 None (s1_reset s w') (mark1 a);
  o_reset : forall f w a, rel1 f w a -> rel1 None (s1_reset s w) a;
  o_ok : forall f w a m, rel1 f w a -> offer1 a = Some m -> ok1 m }.

(* ------------------------------------------------------------ coredumps *)
Definition core_held (st : list Z) : option (list Z) := option_map (fun n => take n st) (cd_has_valid true st).
Definition core_fine (st : list Z) : Prop :=
  bytes st /\ zlen st <= 1073741824 /\ match cd_has_valid true st with Some n => n <= zlen st | None => True end.
Definition core_msg (rle : bool) (m : list Z) : list Z := if rle then enc_of m else m.
Definition core_rel (rle : bool) (f : option Z) (c : core) (a : option (list Z)) : Prop :=
  core_held (co_st c) = a /\ core_fine (co_st c) /\
  (rle = true -> exists p, dsim (co_msgs (co_st c)) (co_ds c) p /\
     match f with Some n => p = Some (Some n) | None => p = None \/ p = Some None \/ p = Some (Some 0) end).

Lemma valid_nonneg st n : bytes st -> cd_has_valid true st = Some n -> 0 <= n.
Proof.
  intros B H. unfold cd_has_valid in H. destruct (cd_get_header true st) as [h|] eqn:E; [|discriminate].
  assert (Bh : bytes h).
  { unfold cd_get_header in E. destruct (zlen st =? 0); [discriminate|]. apply read_at_inv in E as (_ & _ & _ & -> & _). apply bytes_take, bytes_drop, B. }
  destruct (cd_header_valid h); [|discriminate]. pose proof (bytes_drop 8 h Bh) as B8. destruct (drop 8 h) as [|x [|y [|z [|t r]]]]; try discriminate.
  injection H as <-. inv B8. inv H2. inv H4. inv H5. unfold is_u8 in *. lia.
Qed.
Lemma core_msgs st : co_msgs st = match core_held st with Some m => [m] | None => [] end.
Proof. unfold co_msgs, core_held. destruct (cd_has_valid true st); reflexivity. Qed.
Lemma core_len st m : core_fine st -> core_held st = Some m -> bytes m /\ zlen m <= 1073741824 /\ cd_has_valid true st = Some (zlen m) /\ m = take (zlen m) st.
Proof.
  intros (B & L & F) H. unfold core_held in H. destruct (cd_has_valid true st) as [n|] eqn:E; [|discriminate]. cbn in H. injection H as <-.
  pose proof (valid_nonneg _ _ B E). rewrite zlen_take. replace (Z.min (Z.max 0 n) (zlen st)) with n by lia.
  split; [now apply bytes_take|]. split; [lia|]. auto.
Qed.

Lemma core_one rle clear : (forall st, bytes st -> cd_has_valid true (clear st) = None /\ bytes (clear st) /\ zlen (clear st) = zlen st) ->
  one (core_source rle clear) (option_map (core_msg rle)) (fun a => a) (fun _ => None)
    (fun m => bytes m /\ zlen m <= 3221225477) (core_rel rle).
Proof.
  intros Hc.
  assert (Cl : forall st, core_fine st -> core_held (clear st) = None /\ core_fine (clear st) /\ co_msgs (clear st) = []).
  { intros st (B & L & F). destruct (Hc st B) as (C1 & C2 & C3). unfold core_held, core_fine, co_msgs. rewrite C1. rewrite C3. auto. }
  assert (Ok : forall st m, core_fine st -> core_held st = Some m -> bytes (core_msg rle m) /\ zlen (core_msg rle m) <= 3221225477).
  { intros st m F H. destruct (core_len _ _ F H) as (B & L & _). unfold core_msg. destruct rle; [|split; [exact B|lia]].
    destruct (enc_of_fine m B) as (X & Y); [lia|]. split; [exact X|lia]. }
  constructor.
  - reflexivity.
  - intros w a (Ha & F & D). destruct rle; cbn [core_source s1_has].
    2: { exists w. assert (R : forall f, core_rel false f w a) by (intros f; split; [exact Ha|split; [exact F|discriminate]]).
         split; [|split; [apply R|intros _; apply R]]. destruct a as [m|]; cbn [option_map core_msg].
         - destruct (core_len _ _ F Ha) as (_ & _ & L & _). now rewrite L.
         - unfold core_held in Ha. destruct (cd_has_valid true (co_st w)); [discriminate|reflexivity]. }
    destruct (D eq_refl) as (p & S & P).
    destruct (dsim_step (co_msgs (co_st w)) (co_ds w) p (DActive true) RNone (co_msgs (co_st w)) (match p with None => Some None | _ => p end) S I) as (d1 & E1 & S1);
      [destruct p; reflexivity|]. cbn [ds_step] in E1. injection E1 as <-.
    assert (Sp : exists p', dsp_step enc_of (co_msgs (co_st w)) (match p with None => Some None | _ => p end) DHasMore =
       Some (RMore (option_map zlen (option_map (core_msg true) a)), co_msgs (co_st w), p') /\
       (p' = None \/ p' = Some None \/ p' = Some (Some 0)) /\ (a <> None -> p' = Some (Some 0))).
    { rewrite core_msgs, Ha. destruct a as [m|]; cbn [option_map core_msg].
      - exists (Some (Some 0)). destruct P as [->|[->| ->]]; cbn; auto.
      - destruct P as [->|[->| ->]]; cbn; (eexists; split; [reflexivity|]); (split; [auto|congruence]). }
    destruct Sp as (p' & Sp & P1 & P2).
    destruct (dsim_step _ _ _ DHasMore _ _ _ S1 I Sp) as (d2 & E2 & S2). cbn [ds_step] in E2.
    destruct (negb _) in E2; [discriminate|]. apply bind_inv in E2 as ([r2 d2'] & E2 & E3). injection E3 as -> ->.
    exists (mk_core (co_st w) d2). rewrite E2. cbn [bind fst snd]. split; [reflexivity|].
    split; [split; [exact Ha|split; [exact F|]]; intros _; eauto|].
    intros Hn. split; [exact Ha|split; [exact F|]]. intros _. exists p'. split; [exact S2|]. apply P2. destruct a; [congruence|]. exfalso. now apply Hn.
  - intros p w a m buf (Ha & F & D) Ho Hp Hb Hl. destruct a as [dump|]; [|discriminate]. cbn [option_map] in Ho. injection Ho as <-.
    destruct (core_len _ _ F Ha) as (B & L & V & Ed). destruct rle; cbn [core_source s1_read core_msg] in *.
    2: { exists w. unfold cd_read. rewrite read_at_some; [| |lia|]; [|lia|]; [|destruct F as (_ & _ & F); rewrite V in F; lia].
         split; [|split; [exact Ha|split; [exact F|discriminate]]].
         enough (X : take (zlen buf) (drop p (co_st w)) = take (zlen buf) (drop p dump)) by now rewrite X.
         transitivity (take (zlen buf) (drop p (take (zlen dump) (co_st w)))); [|now rewrite <- Ed].
         rewrite drop_take by lia. rewrite take_take. f_equal. lia. }
    destruct (D eq_refl) as (q & S & ->). rewrite core_msgs, Ha in *.
    destruct (dsim_step _ _ _ (DRead p (zlen buf)) (RRead true (take (zlen buf) (drop p (enc_of dump)))) [dump] (Some (Some (p + zlen buf))) S I) as (d' & E & S').
    { cbn [dsp_step]. rewrite Z.eqb_refl. cbn [negb]. replace ((0 <=? zlen buf) && (p + zlen buf <=? zlen (enc_of dump))) with true by lia. reflexivity. }
    cbn [ds_step] in E. destruct (negb _) in E; [discriminate|]. apply bind_inv in E as ([[ok out] d2] & E & E3). injection E3 as -> -> ->.
    rewrite E. cbn [bind]. exists (mk_core (co_st w) d').
    split; [rewrite (drop_all _ buf) by (rewrite zlen_take, zlen_drop; lia); now rewrite app_nil_r|].
    split; [exact Ha|]. split; [exact F|]. intros _. cbn [co_st co_ds]. rewrite core_msgs, Ha. eauto.
  - intros p w a (Ha & F & D). destruct (Cl _ F) as (C1 & C2 & C3). destruct rle; cbn [core_source s1_mark s1_reset].
    2: { eexists. split; [reflexivity|]. split; [exact C1|]. split; [exact C2|discriminate]. }
    destruct (D eq_refl) as (q & S & ->). eexists. split; [reflexivity|]. cbn [co_st]. split; [exact C1|]. split; [exact C2|]. intros _. cbn [co_st co_ds].
    rewrite C3. exists None. split; [|auto]. split; [constructor|]. unfold ds_set_active, ds_mark. cbn [snd ds_active].
    destruct (Bool.eqb false (ds_active (co_ds w))) eqn:Eb; cbn [ds_active]; [|reflexivity]. destruct (ds_active (co_ds w)); [discriminate|reflexivity].
  - intros f w a (Ha & F & D). destruct rle; cbn [core_source s1_reset].
    2: { split; [exact Ha|split; [exact F|discriminate]]. }
    destruct (D eq_refl) as (q & S & P). split; [exact Ha|]. split; [exact F|]. intros _. cbn [co_st co_ds].
    destruct (dsim_step _ _ _ (DActive false) RNone (co_msgs (co_st w)) None S I) as (d' & E & S'); [destruct q; reflexivity|].
    cbn [ds_step] in E. injection E as <-. exists None. auto.
  - intros f w a m (Ha & F & D) Ho. destruct a as [dump|]; [|discriminate]. cbn [option_map] in Ho. injection Ho as <-. eapply Ok; eassumption.
Qed.

(* ------------------------------------------------------------ events *)
Definition ev_rel (cfg : es_cfg) (cap : Z) (f : option Z) (s : es) (v : sev) : Prop :=
  esim cfg cap s v /\ (f <> None -> 1 <= v_reading v).
Definition ev_offer (cfg : es_cfg) (v : sev) : option (list Z) :=
  let k := if v_reading v =? 0 then batch cfg (v_events v) else v_reading v in
  if 1 <=? k then Some (message cfg (v_events v) k) else None.
Definition ev_ask (cfg : es_cfg) (v : sev) : sev :=
  mk_sev (v_events v) (v_part v) (if v_reading v =? 0 then batch cfg (v_events v) else v_reading v).
Definition ev_mark (cfg : es_cfg) (v : sev) : sev :=
  mk_sev (drop (if v_reading v =? 0 then batch cfg (v_events v) else v_reading v) (v_events v)) (v_part v) 0.

Lemma bytes_concat l : Forall bytes l -> bytes (concat l).
Proof. induction 1; cbn; [constructor|]. apply bytes_app_iff. auto. Qed.
Lemma array_head_bytes n : 0 <= n < 4294967296 -> bytes (array_head n).
Proof.
  intros H. unfold array_head. repeat match goal with |- context [if ?x then _ else _] => destruct x eqn:? end;
    repeat (apply Forall_cons; [unfold is_u8|]); try apply Forall_nil; try lia; try (apply Z.mod_pos_bound; lia);
    (split; [apply Z.div_pos; lia|apply Z.div_lt_upper_bound; lia]).
Qed.
Lemma message_ok cfg cap s v k : esim cfg cap s v -> 0 <= k <= zlen (v_events v) ->
  bytes (message cfg (v_events v) k) /\ zlen (message cfg (v_events v) k) <= 2147483653.
Proof.
  intros M Hk. destruct (esim_sz _ _ _ _ M) as (_ & Hc & Hu & Hcost & _). pose proof (m_fine _ _ _ _ M) as F.
  pose proof (cost_zlen _ F) as CZ. pose proof (zlen_nonneg (v_events v)). split.
  - unfold message. apply bytes_app_iff. split.
    + destruct cfg; [|constructor]. destruct (2 <=? k); [|constructor]. apply array_head_bytes. lia.
    + apply bytes_concat. rewrite <- (take_drop k (v_events v)), Forall_app in F. destruct F as [F _]. eapply Forall_impl; [|exact F]. intros e He. apply He.
  - rewrite message_len by lia. pose proof (hdr_of_len cfg k). pose proof (cost_take_drop k (v_events v)). pose proof (cost_nonneg (drop k (v_events v))). lia.
Qed.
Lemma covered_bounds cfg cap s v : esim cfg cap s v -> 0 <= (if v_reading v =? 0 then batch cfg (v_events v) else v_reading v) <= zlen (v_events v).
Proof. intros M. pose proof (m_k _ _ _ _ M). pose proof (batch_bounds cfg (v_events v)). destruct (v_reading v =? 0); lia. Qed.

Lemma ev_one cfg cap : one (event_source cfg) (ev_offer cfg) (ev_ask cfg) (ev_mark cfg) (fun m => bytes m /\ zlen m <= 3221225477) (ev_rel cfg cap).
Proof.
  constructor.
  - intros v. unfold ev_offer, ev_ask. cbn [v_events v_reading]. destruct (v_reading v =? 0) eqn:E; [|rewrite E; reflexivity].
    destruct (batch cfg (v_events v) =? 0) eqn:E2; reflexivity.
  - intros s v (M & _). cbn [event_source s1_has]. destruct (es_has_ok _ _ _ _ M) as (s' & E & M'). rewrite E. cbn [bind]. exists s'.
    unfold ev_offer, ev_ask, ev_rel. cbv zeta. set (k := if v_reading v =? 0 then _ else _) in *.
    split; [destruct (1 <=? k); reflexivity|]. split; [split; [exact M'|congruence]|].
    intros Hn. split; [exact M'|]. intros _. cbn [v_reading]. destruct (1 <=? k) eqn:Ek; [lia|congruence].
  - intros p s v m buf (M & R) Ho Hp Hb Hl. specialize (R ltac:(discriminate)). unfold ev_offer in Ho. replace (v_reading v =? 0) with false in Ho by lia.
    replace (1 <=? v_reading v) with true in Ho by lia. injection Ho as <-.
    cbn [event_source s1_read]. pose proof (message_ok _ _ _ _ (v_reading v) M (m_k _ _ _ _ M)) as (_ & L).
    rewrite (es_read_ok _ _ _ _ p (zlen buf) M) by lia. cbn [bind]. replace (_ <=? _) with true by lia.
    exists s. split; [reflexivity|]. split; [exact M|auto].
  - intros p s v (M & R). specialize (R ltac:(discriminate)). cbn [event_source s1_mark s1_reset].
    destruct (es_step_ok _ _ _ _ EMark RUnit (mk_sev (drop (v_reading v) (v_events v)) (v_part v) 0) M I eq_refl) as (s' & E & M').
    cbn [es_step] in E. injection E as <-. eexists. split; [reflexivity|]. unfold ev_rel, ev_mark. replace (v_reading v =? 0) with false by lia.
    split; [exact M'|congruence].
  - intros f s v (M & R). cbn [event_source s1_reset]. split; [exact M|congruence].
  - intros f s v m (M & R) Ho. unfold ev_offer in Ho. cbv zeta in Ho. destruct (1 <=? _) in Ho; [|discriminate]. injection Ho as <-.
    destruct (message_ok _ _ _ _ _ M (covered_bounds _ _ _ _ M)). split; [assumption|lia].
Qed.

Lemma ev_app cfg cap f s v o r v' : ev_rel cfg cap f s v -> ev_ok o -> is_reader o = false -> sev_step cfg cap v o = Some (r, v') ->
  exists s', es_step cfg s o = Some (r, s') /\ ev_rel cfg cap f s' v' /\ (f <> None -> ev_offer cfg v' = ev_offer cfg v).
Proof.
  intros (M & R) Ho Hr Hs. destruct (es_step_ok _ _ _ _ _ _ _ M Ho Hs) as (s' & E & M'). exists s'. split; [exact E|].
  assert (X : v_reading v' = v_reading v /\ exists l, v_events v' = v_events v ++ l).
  { assert (N : v_events v = v_events v ++ []) by now rewrite app_nil_r.
    destruct o; cbn [is_reader] in Hr; try discriminate; cbn [sev_step] in Hs;
      repeat match type of Hs with context [match ?x with _ => _ end] => destruct x eqn:?; try discriminate end; inv Hs; cbn [v_reading v_events]; eauto. }
  destruct X as (X1 & l & X2). split; [split; [exact M'|now rewrite X1]|]. intros Hf. specialize (R Hf). pose proof (m_k _ _ _ _ M) as K.
  unfold ev_offer. rewrite X1. replace (v_reading v =? 0) with false by lia. replace (1 <=? v_reading v) with true by lia.
  f_equal. unfold message. f_equal. f_equal. rewrite X2. apply take_app_le. lia.
Qed.

(* ------------------------------------------------------------ bytes of CBOR messages *)
Definition opb (o : cbor_op) : Prop := bytes (op_data o).
Lemma ops_bytes_byte ops : Forall opb ops -> bytes (ops_bytes ops).
Proof. intros F. unfold ops_bytes. apply bytes_concat. apply Forall_map. eapply Forall_impl; [|exact F]. intros o. apply op_bytes_bytes. Qed.
Ltac opbs := repeat first [apply Forall_app; split | apply Forall_nil | apply Forall_cons; [solve [apply Forall_nil | assumption]|]].
Lemma meta_opb env type time : senv_ok env -> Forall opb (meta_ops env type time).
Proof.
  intros (F & HB & HI & _). inv F. inv H2. inv H4. inv H5. destruct H1, H2, H3, H4.
  unfold meta_ops. cbv zeta. apply Forall_cons; [apply Forall_nil|]. opbs.
  - destruct (en_with_serial env); opbs.
  - destruct (en_build env) as [id|]; [|apply Forall_nil]. destruct HI as [HI1 HI2]. apply Forall_cons; [apply Forall_nil|].
    apply Forall_cons; [|apply Forall_nil]. unfold opb. cbn [op_data]. now apply bytes_take.
  - unfold time_ops. destruct time; opbs.
Qed.
Lemma strings_opb l : Forall (fun s => bytes s /\ zlen s < 65536) l -> Forall opb (map OpString l).
Proof. intros F. apply Forall_map. eapply Forall_impl; [|exact F]. intros s H. apply H. Qed.
Lemma cdr_bytes env r : senv_ok env -> rec_ok r -> bytes (cdr_msg env r).
Proof.
  intros HE (U1 & U2 & E & B & F & M). unfold cdr_msg. apply bytes_app_iff. split; [|exact B]. unfold cdr_head. apply ops_bytes_byte.
  pose proof (Forall_inv F) as [F1 _]. pose proof (strings_opb _ (Forall_inv_tail F)) as F2. unfold cdr_calls. apply Forall_app. split; [now apply meta_opb|]. opbs.
  assumption.
Qed.
Lemma parts_byte cap pos d : bytes d -> Forall bytes (parts cap pos d).
Proof.
  intros H. unfold parts. destruct (_ =? 0); [constructor|]. cbv zeta. destruct (_ <=? _); repeat constructor; try exact H; [now apply bytes_take|now apply bytes_drop].
Qed.
Lemma text_opb level type b : bytes b -> Forall opb (text_ops level type b).
Proof. intros H. unfold text_ops. apply Forall_cons; [apply Forall_nil|]. destruct (type =? 0); opbs. Qed.
Lemma parts_opb tse level type t ps : Forall bytes ps -> Forall opb (parts_ops tse level type t ps).
Proof.
  induction 1 as [|p ps Hp F IH]; cbn [parts_ops]; [constructor|].
  assert (X : forall o, blk tse level type t p = Some o -> Forall opb o).
  { intros o E. unfold blk in E. destruct tse; [|inv E; now apply text_opb]. destruct t; [|inv E; apply Forall_cons; [apply Forall_nil|now apply text_opb]].
    destruct p as [|b0 [|b1 [|b2 [|b3 r]]]]; try discriminate. inv E. apply Forall_cons; [apply Forall_nil|]. apply text_opb.
    exact (Forall_inv_tail (Forall_inv_tail (Forall_inv_tail (Forall_inv_tail Hp)))). }
  destruct (blk tse level type t p) as [o|]; [|constructor]. apply Forall_app. split; [now apply X|exact IH].
Qed.
Lemma le32_byte t : bytes (le32 t).
Proof. unfold le32. repeat (apply Forall_cons; [apply land255_byte|| apply u8_byte || (unfold is_u8; apply Z.mod_pos_bound; lia)|]). apply Forall_nil. Qed.
Lemma up_opb tse cap l : forall pos, Forall (fun e => bytes (l_text e)) l -> Forall opb (up_ops tse cap pos l).
Proof.
  induction l as [|e l IH]; intros pos F; cbn [up_ops]; [constructor|]. apply Forall_app. split; [|apply IH; exact (Forall_inv_tail F)].
  unfold entry_ops. apply parts_opb, parts_byte. unfold h_payload. apply bytes_app_iff. split; [|exact (Forall_inv F)]. destruct (l_ts e); [apply le32_byte|constructor].
Qed.

(* ------------------------------------------------------------ logs *)
Lemma uploading_text M tse cap s v h : lsim M tse cap s v -> hsim cap h v -> Forall (fun e => bytes (l_text e)) (uploading cap h).
Proof.
  intros K Q. pose proof (k_fine _ _ _ _ _ K) as F. rewrite (q_logs _ _ _ Q) in F.
  assert (X : forall next sent l i, Forall (LogProofs.fine M tse) (flag next sent i l) -> Forall (fun e => bytes (l_text e)) l).
  { induction l as [|e l IH]; intros i G; [constructor|]. cbn [flag] in G. constructor; [|eapply IH; exact (Forall_inv_tail G)].
    destruct (Forall_inv G) as (_ & _ & F3 & _). exact F3. }
  apply X in F. unfold uploading. destruct (h_up h) as [n|]; [|constructor]. cbv zeta. apply Forall_take.
  destruct (fit_suffix cap (h_saved h)) as (pre & EP & LP). destruct (first_range cap (h_saved h)) as (FR & _). rewrite EP at 2. rewrite drop_app_ge by lia. now apply Forall_drop.
Qed.
Definition log_msg (env : senv) (tse : bool) (cap before : Z) (t : option Z) (l : list hlog) : list Z :=
  ops_bytes (msg_ops env tse cap t before l).
Definition log_offer (env : senv) (tse : bool) (cap : Z) (a : hist * option Z) : option (list Z) :=
  match h_up (fst a) with
  | Some _ => Some (log_msg env tse cap (hrooms (take (up_from cap (fst a)) (h_saved (fst a)))) (snd a) (uploading cap (fst a)))
  | None => None
  end.
Definition log_mark (M cap : Z) (a : hist * option Z) : hist * option Z :=
  match hist_step M cap (fst a) LMarkSent with Some (_, h) => (h, snd a) | None => a end.
Definition log_rel (M : Z) (tse : bool) (cap : Z) (f : option Z) (s : lg) (a : hist * option Z) : Prop :=
  exists v, lsim M tse cap s v /\ hsim cap (fst a) v /\ pos_inv cap s (fst a) /\ (h_up (fst a) <> None -> lg_time s = snd a) /\
    (f <> None -> h_up (fst a) <> None).

Lemma log_msg_ok M env tse cap s v h t n : senv_ok env -> 0 < cap <= 268435456 -> lsim M tse cap s v -> hsim cap h v -> pos_inv cap s h -> h_up h = Some n ->
  bytes (log_msg env tse cap (before_of cap h) t (uploading cap h)) /\ zlen (log_msg env tse cap (before_of cap h) t (uploading cap h)) <= 3221225477.
Proof.
  intros HE HC K Q P U. unfold log_msg, msg_ops. split.
  - apply ops_bytes_byte. apply Forall_app. split; [|apply up_opb; eapply uploading_text; eassumption]. apply Forall_app. split; [now apply meta_opb|]. opbs.
  - destruct (upload_facts M tse cap s v h n ltac:(unfold lcap; lia) K Q P U) as (_ & _ & HR & _).
    rewrite !ops_bytes_app, !zlen_app, !ops_bytes_cons, !zlen_app. pose proof (meta_len env (if tse then 6 else 4) t HE).
    pose proof (up_len tse cap (uploading cap h) ltac:(lia) (before_of cap h)). pose proof (op_bytes_len (OpUnsigned 4)) as L1.
    pose proof (op_bytes_len (OpArray ((if tse then 3 else 2) * zlen (uploading cap h)))) as L2. cbn [op_data] in L1, L2.
    change (ops_bytes []) with (@nil Z). change (zlen (@nil Z)) with 0 in *. lia.
Qed.

Ltac lrel v K Q P := exists v; split; [exact K|split; [exact Q|split; [exact P|split]]]; cbn [fst snd].

Lemma log_one M env tse cap : senv_ok env -> 0 < cap <= 268435456 -> 4 <= M <= 255 ->
  one (log_source env tse) (log_offer env tse cap) (fun a => a) (log_mark M cap) (fun m => bytes m /\ zlen m <= 3221225477) (log_rel M tse cap).
Proof.
  intros HE HC HM. assert (LC : lcap cap) by (unfold lcap; lia). constructor.
  - reflexivity.
  - intros s [h t] (v & K & Q & P & T & _). cbn [fst snd] in *. cbn [log_source s1_has]. exists s.
    unfold log_offer, log_rel. cbn [fst snd]. destruct (h_up h) as [n|] eqn:U.
    + rewrite (has_ok M env tse cap s v h n LC ltac:(lia) HE K Q P U). cbn [bind option_map]. specialize (T ltac:(discriminate)).
      split; [do 3 f_equal; unfold log_msg, up_from; rewrite T; reflexivity|]. split; [|intros _]; exists v; (split; [exact K|split; [exact Q|split; [exact P|split; [intros _; exact T|congruence]]]]).
    + unfold lds_has. rewrite (k_trig _ _ _ _ _ K), (q_trig _ _ _ Q), U. cbn [negb bind option_map]. split; [reflexivity|].
      split; [|congruence]. lrel v K Q P; congruence.
  - intros p s [h t] m buf (v & K & Q & P & T & R) Ho Hp Hb Hl. cbn [fst snd] in *. specialize (R ltac:(discriminate)). specialize (T R).
    unfold log_offer in Ho. cbn [fst snd] in Ho. destruct (h_up h) as [n|] eqn:U; [|congruence]. injection Ho as <-.
    pose proof (log_msg_ok M env tse cap s v h t n HE HC K Q P U) as (_ & ML). unfold up_from, before_of in *.
    destruct (LogDataSourceProofs.read_ok M env tse cap s v h n p buf LC ltac:(lia) HE K Q P U Hp ltac:(lia)) as (out & E1 & E2).
    cbn [log_source s1_read]. rewrite E1. cbn [bind fst snd]. unfold log_msg, before_of in *. rewrite <- T in Hl |- *.
    exists s. rewrite E2 by assumption. replace (p + zlen buf <=? _) with true by lia. cbn [orb]. split; [reflexivity|].
    lrel v K Q P; rewrite ?U; congruence.
  - intros p s [h t] (v & K & Q & P & T & R). cbn [fst snd] in *. specialize (R ltac:(discriminate)). unfold log_mark. cbn [fst snd].
    destruct (h_up h) as [n|] eqn:U; [|congruence].
    destruct (hist_step M cap h LMarkSent) as [[r h']|] eqn:HS; [|cbn [hist_step] in HS; rewrite U in HS; discriminate].
    destruct (step_pos M tse cap s v h LMarkSent r h' LC HM K Q P I HS) as (s' & v' & E & K' & Q' & P' & _).
    cbn [log_step] in E. apply bind_inv in E as (s2 & E & E'). injection E' as _ <-. cbn [log_source s1_mark s1_reset]. exists s2. split; [exact E|].
    assert (U' : h_up h' = None) by (cbn [hist_step] in HS; rewrite U in HS; now inv HS). lrel v' K' Q' P'; congruence.
  - intros f s [h t] (v & K & Q & P & T & R). lrel v K Q P; [exact T|congruence].
  - intros f s [h t] m (v & K & Q & P & T & R) Ho. unfold log_offer in Ho. cbn [fst snd] in *. destruct (h_up h) as [n|] eqn:U; [|discriminate].
    injection Ho as <-. exact (log_msg_ok M env tse cap s v h t n HE HC K Q P U).
Qed.

Lemma log_app M env tse cap f s h t o r h' : senv_ok env -> 0 < cap <= 268435456 -> 4 <= M <= 255 ->
  log_rel M tse cap f s (h, t) -> log_op_ok tse o -> o <> LMarkSent -> hist_step M cap h o = Some (r, h') ->
  let t' := match o, h_up h with LTrigger x, None => x | _, _ => t end in
  exists s', log_step M tse s o = Some (r, s') /\ log_rel M tse cap f s' (h', t') /\ (f <> None -> log_offer env tse cap (h', t') = log_offer env tse cap (h, t)).
Proof.
  intros HE HC HM (v & K & Q & P & T & R) Ho No HS t'. cbn [fst snd] in *. assert (LC : lcap cap) by (unfold lcap; lia).
  destruct (full_run M tse cap [o] LC HM s v h t [r] h' K Q P T) as (s' & v' & E & K' & Q' & P' & T').
  { repeat constructor. exact Ho. } { cbn [hist_run]. rewrite HS. reflexivity. }
  cbn [log_run] in E. apply bind_inv in E as ([r0 s0] & E & E'). cbn [bind] in E'. injection E' as -> ->.
  cbn [upload_time] in T'. rewrite HS in T'. exists s'. split; [exact E|].
  assert (IL : in_log h). { pose proof (q_le _ _ _ Q) as (_ & H1 & _). pose proof (q_num _ _ _ Q) as QN. unfold in_log. destruct (h_up h); [lia|auto]. }
  assert (ST : forall n, h_up h = Some n -> h_up h' = Some n /\ in_log h' /\ uploading cap h' = uploading cap h /\ before_of cap h' = before_of cap h /\ t' = t).
  { intros n U. destruct (step_still M cap h n o r h' U No IL HS) as (S1 & S2 & S3 & S4). repeat split; try assumption; try apply S2. unfold t'. destruct (h_up h); [|discriminate]. now destruct o. }
  split.
  - lrel v' K' Q' P'; [exact T'|]. intros Hf. specialize (R Hf). destruct (h_up h) as [n|] eqn:U; [|congruence].
    destruct (ST n eq_refl) as (S1 & _). congruence.
  - intros Hf. specialize (R Hf). destruct (h_up h) as [n|] eqn:U; [|congruence]. destruct (ST n eq_refl) as (S1 & _ & S3 & S4 & S5).
    unfold log_offer. cbn [fst snd]. rewrite S1, U, S3, S5. unfold before_of in S4. unfold up_from. rewrite S4. reflexivity.
Qed.

(* ------------------------------------------------------------ recordings *)
Definition rfine (env : senv) (max klen : Z) (r : cdr_rec) : Prop :=
  rec_ok r /\ zlen (cdr_msg env r) - zlen (cr_data r) <= max /\ zlen (cdr_msg env r) + klen < 4294967292.
Definition rec_rel (env : senv) (n max klen : Z) (f : option Z) (c : cdr_world * cdr) (v : cdr_view) : Prop :=
  cdr_sim env n max (fst c) (snd c) v /\ recs_all (rfine env max klen) (fst c) /\ (f <> None -> cv_act v <> None).
Definition rec_offer (env : senv) (v : cdr_view) : option (list Z) :=
  match rec_source v with Some i => option_map (cdr_msg env) (hd_error (cv_world v i)) | None => None end.
Definition rec_ask (v : cdr_view) : cdr_view := mk_cv (cv_reg v) (cv_world v) (rec_source v).
Definition rec_mark (v : cdr_view) : cdr_view :=
  match rec_source v with Some i => mk_cv (cv_reg v) (w_set (cv_world v) i (tl (cv_world v i))) None | None => v end.

Lemma rfine_fits env max klen r : 0 <= klen -> rfine env max klen r -> rec_fits env max r.
Proof. intros Hk (H1 & H2 & H3). unfold rec_fits. split; [exact H1|]. unfold cdr_msg in H2. rewrite zlen_app in H2. split; lia. Qed.
Lemma rfits_all env max klen w : 0 <= klen -> recs_all (rfine env max klen) w -> recs_all (rec_fits env max) w.
Proof. intros Hk H i. eapply Forall_impl; [|apply H]. intros r. now apply rfine_fits. Qed.
Lemma source_has env n max w s v i : cdr_sim env n max w s v -> rec_source v = Some i -> exists r t, cv_world v i = r :: t.
Proof.
  intros M E. unfold rec_source in E. rewrite (cs_w _ _ _ _ _ _ M) in *. pose proof (cs_cur _ _ _ _ _ _ M) as C. destruct (cv_act v) as [j|].
  - injection E as ->. destruct C as (r & t & E & _). eauto.
  - pose proof (find_ok w (cv_reg v) 0) as F. rewrite E in F. destruct F as (r & t & F & _). eauto.
Qed.
Lemma recs_set P w i l : recs_all P w -> Forall P l -> recs_all P (w_set w i l).
Proof. intros H F j. unfold w_set. destruct (j =? i); [exact F|apply H]. Qed.
Lemma Forall_tl {A} (P : A -> Prop) l : Forall P l -> Forall P (tl l).
Proof. destruct 1; [constructor|assumption]. Qed.

Lemma rec_one env n max klen : senv_ok env -> is_u32 max -> 0 <= n -> 0 <= klen ->
  one (cdr_source env) (rec_offer env) rec_ask rec_mark (fun m => bytes m /\ zlen m + klen < 4294967292) (rec_rel env n max klen).
Proof.
  intros HE HM Hn Hk. constructor.
  - intros v. unfold rec_offer, rec_ask, rec_source. cbn [cv_act cv_reg cv_world]. destruct (cv_act v); [reflexivity|]. destruct (first_with (cv_world v) (cv_reg v)) eqn:E; rewrite ?E; reflexivity.
  - intros [w s] v (M & A & _). cbn [fst snd] in *. cbn [cdr_source s1_has fst snd].
    assert (X : exists v', cv_step (cdr_msg env) n v CoHas = Some (CrSize (option_map zlen (rec_offer env v)), v') /\ v' = rec_ask v).
    { cbn [cv_step]. unfold rec_offer, rec_ask. pose proof (fun i => source_has _ _ _ _ _ _ i M) as SH. unfold rec_source in *.
      destruct (match cv_act v with Some i => Some i | None => first_with (cv_world v) (cv_reg v) end) as [i|] eqn:ES.
      - destruct (SH i eq_refl) as (r & t & ->). cbn [hd_error option_map]. eexists. split; reflexivity.
      - eexists. split; [reflexivity|]. destruct (cv_act v) eqn:EA; [discriminate|]. destruct v; cbn in *. congruence. }
    destruct X as (v' & ES & ->).
    destruct (cdr_step_ok env n max HE HM Hn w s v CoHas _ _ M (rfits_all _ _ _ _ Hk A) I ES) as (s' & E & M' & _).
    cbn [cdr_step] in E. apply bind_inv in E as ([r0 s0] & E & E'). injection E' as -> EW ->. rewrite E. cbn [bind fst snd].
    assert (EW' : cv_world (rec_ask v) = w) by exact (cs_w _ _ _ _ _ _ M). rewrite EW' in M'.
    exists (w, s'). split; [reflexivity|]. unfold rec_rel. cbn [fst snd]. split; [split; [exact M'|split; [exact A|congruence]]|].
    intros No. split; [exact M'|]. split; [exact A|]. intros _. unfold rec_ask. cbn [cv_act]. unfold rec_offer in No. destruct (rec_source v); congruence.
  - intros p [w s] v m buf (M & A & R) Ho Hp Hb Hl. cbn [fst snd] in *. specialize (R ltac:(discriminate)).
    unfold rec_offer, rec_source in Ho. destruct (cv_act v) as [i|] eqn:EA; [|congruence].
    destruct (source_has _ _ _ _ _ _ i M) as (r & t & ER); [unfold rec_source; now rewrite EA|]. rewrite ER in Ho. injection Ho as <-.
    assert (LR : zlen (cdr_msg env r) + klen < 4294967292). { pose proof (A i) as F. rewrite <- (cs_w _ _ _ _ _ _ M), ER in F. apply (Forall_inv F). }
    assert (ES : cv_step (cdr_msg env) n v (CoRead p (zlen buf)) = Some (CrData (Some (take (zlen buf) (drop p (cdr_msg env r)))), v)).
    { cbn [cv_step]. replace ((p <? 0) || (zlen buf <? 0) || (4294967296 <=? p + zlen buf)) with false by lia. rewrite EA, ER. now replace (_ <=? _) with true by lia. }
    destruct (cdr_step_ok env n max HE HM Hn w s v (CoRead p (zlen buf)) _ _ M (rfits_all _ _ _ _ Hk A) I ES) as (s' & E & M' & _).
    cbn [cdr_step] in E. apply bind_inv in E as (d & E & E'). injection E' as -> EW ->. cbn [cdr_source s1_read fst snd]. rewrite E. cbn [bind].
    exists (w, s'). split; [reflexivity|]. rewrite (cs_w _ _ _ _ _ _ M) in M'. unfold rec_rel. cbn [fst snd]. split; [exact M'|split; [exact A|congruence]].
  - intros p [w s] v (M & A & R). cbn [fst snd] in *. specialize (R ltac:(discriminate)). unfold rec_mark, rec_source.
    destruct (cv_act v) as [i|] eqn:EA; [|congruence].
    assert (ES : cv_step (cdr_msg env) n v CoMark = Some (CrUnit, mk_cv (cv_reg v) (w_set (cv_world v) i (tl (cv_world v i))) None)) by (cbn [cv_step]; now rewrite EA).
    destruct (cdr_step_ok env n max HE HM Hn w s v CoMark _ _ M (rfits_all _ _ _ _ Hk A) I ES) as (s' & E & M' & _).
    cbn [cdr_step cv_world] in E, M'. cbn [cdr_source s1_mark s1_reset fst snd]. destruct (cdr_mark w s) as [w2 s2]. injection E as -> ->. eexists. split; [reflexivity|].
    unfold rec_rel. cbn [fst snd]. split; [exact M'|]. split; [|congruence]. rewrite (cs_w _ _ _ _ _ _ M). apply recs_set; [exact A|apply Forall_tl, A].
  - intros f [w s] v (M & A & R). cbn [cdr_source s1_reset]. split; [exact M|]. split; [exact A|congruence].
  - intros f [w s] v m (M & A & R) Ho. cbn [fst snd] in *. unfold rec_offer in Ho. destruct (rec_source v) as [i|] eqn:ES; [|discriminate].
    destruct (source_has _ _ _ _ _ _ i M ES) as (r & t & ER). rewrite ER in Ho. injection Ho as <-.
    pose proof (A i) as F. rewrite <- (cs_w _ _ _ _ _ _ M), ER in F. destruct (Forall_inv F) as (F1 & _ & F3). split; [now apply cdr_bytes|exact F3].
Qed.

Lemma rec_app env n max klen f w s v o r v' : senv_ok env -> is_u32 max -> 0 <= n -> 0 <= klen ->
  rec_rel env n max klen f (w, s) v -> op_recs (rfine env max klen) o -> (exists i, o = CoRegister i) \/ (exists i x, o = CoRecord i x) ->
  cv_step (cdr_msg env) n v o = Some (r, v') ->
  exists w' s', cdr_step env w s o = Some (r, w', s') /\ rec_rel env n max klen f (w', s') v' /\ (f <> None -> rec_offer env v' = rec_offer env v).
Proof.
  intros HE HM Hn Hk (M & A & R) Ho Hk2 HS. cbn [fst snd] in *.
  assert (Ho' : op_recs (rec_fits env max) o) by (destruct o; try exact I; cbn [op_recs] in *; now apply (rfine_fits env max klen)).
  destruct (cdr_step_ok env n max HE HM Hn w s v o r v' M (rfits_all _ _ _ _ Hk A) Ho' HS) as (s' & E & M' & _).
  exists (cv_world v'), s'. split; [exact E|].
  assert (X : cv_act v' = cv_act v /\ recs_all (rfine env max klen) (cv_world v') /\ forall i x t, cv_world v i = x :: t -> exists t', cv_world v' i = x :: t').
  { pose proof (cs_w _ _ _ _ _ _ M) as EW. destruct Hk2 as [(i & ->)|(i & x & ->)]; cbn [cv_step] in HS.
    - destruct (_ <? _) in HS; inv HS; cbn [cv_act cv_world]; (split; [reflexivity|split; [try exact A|eauto]]).
    - inv HS. cbn [cv_act cv_world]. split; [reflexivity|]. split.
      + apply recs_set; [exact A|]. apply Forall_app. split; [apply A|apply Forall_cons; [exact Ho|apply Forall_nil]].
      + intros j y t EJ. unfold w_set. destruct (j =? i) eqn:EI; [|eauto]. replace i with j by lia. rewrite EJ. cbn [Datatypes.app]. eauto. }
  destruct X as (X1 & X2 & X3). split.
  - split; [exact M'|]. cbn [fst snd]. split; [exact X2|]. rewrite X1. exact R.
  - intros Hf. specialize (R Hf). unfold rec_offer, rec_source. rewrite X1. destruct (cv_act v) as [i|] eqn:EA; [|congruence].
    destruct (source_has _ _ _ _ _ _ i M) as (y & t & EY); [unfold rec_source; now rewrite EA|]. destruct (X3 _ _ _ EY) as (t' & ->). rewrite EY. reflexivity.
Qed.

(* ------------------------------------------------------------ the device *)
Record dv_ok (c : dv_cfg) (ecap lcap rn rmax : Z) : Prop := {
  c_key : bytes (uc_key (dc_up c)) /\ zlen (uc_key (dc_up c)) <= 32;
  c_clear : forall st, bytes st -> cd_has_valid true (dc_clear c st) = None /\ bytes (dc_clear c st) /\ zlen (dc_clear c st) = zlen st;
  c_env : senv_ok (dc_env c);
  c_line : 4 <= dc_line c <= 255;
  c_log : 0 < lcap <= 268435456;
  c_rec : 0 <= rn /\ is_u32 rmax }.

Section Whole.
Variables (c : dv_cfg) (ecap lcap rn rmax : Z).
Hypothesis OK : dv_ok c ecap lcap rn rmax.
Let rle := uc_rle (dc_up c).
Let env := dc_env c.
Let tse := dc_tse c.
Let klen := zlen (uc_key (dc_up c)).
Notation dv := (dv_dev c ecap lcap rn rmax (core_msg rle) (fun b t l => log_msg env tse lcap b t l) (cdr_msg env)).

Definition at_src (s : src) (f : option (src * Z)) : option Z :=
  match f with Some (s', p) => if src_eqb s s' then Some p else None | None => None end.
Definition dv_rel (f : option (src * Z)) (w : world) (a : held) : Prop :=
  core_rel rle (at_src SCoredump f) (w_core w) (e_core a) /\
  ev_rel (dc_batch c) ecap (at_src SEvent f) (w_ev w) (e_ev a) /\
  log_rel (dc_line c) tse lcap (at_src SLog f) (w_log w) (e_log a, e_time a) /\
  rec_rel env rn rmax klen (at_src SCdr f) (w_cdr w) (e_cdr a).

Lemma wire_ok s m : (bytes m /\ zlen m + klen < 4294967292) -> msg_ok (u_cfg (dc_up c)) s m.
Proof.
  intros (B & L). destruct (c_key _ _ _ _ _ OK) as (KB & KL). unfold msg_ok, wire, u_cfg. cbn [cfg_key cfg_rle].
  assert (EB : body (mk_cfg (uc_key (dc_up c)) (if uc_rle (dc_up c) then Some (fun x => x) else None)) s m = m).
  { unfold body. cbn [cfg_rle]. destruct s, (uc_rle (dc_up c)); reflexivity. }
  rewrite EB. split.
  - apply Forall_cons; [|apply bytes_app_iff; auto]. unfold is_u8. destruct s, (uc_rle (dc_up c)), (uc_key (dc_up c)); lia.
  - rewrite zlen_cons, zlen_app. fold klen. lia.
Qed.

Lemma dv_keeps : keeps_contract (dv_sources c) (dc_up c) (dv_app c) dv dv_rel.
Proof.
  destruct OK as [CK CC CE CL CG [CR1 CR2]].
  assert (KL : 0 <= klen <= 32) by (pose proof (zlen_nonneg (uc_key (dc_up c))); unfold klen; lia).
  pose proof (core_one rle (dc_clear c) CC) as C1. pose proof (ev_one (dc_batch c) ecap) as C2.
  pose proof (log_one (dc_line c) env tse lcap CE CG CL) as C3. pose proof (rec_one env rn rmax klen CE CR2 CR1 (proj1 KL)) as C4.
  constructor.
  - intros s s' a. destruct s, s'; try reflexivity; cbn [dv_dev offer ask dv_offer dv_ask e_core e_ev e_log e_time e_cdr held_ev held_cdr].
    + exact (o_ask _ _ _ _ _ _ C2 (e_ev a)).
    + exact (o_ask _ _ _ _ _ _ C4 (e_cdr a)).
  - intros s w a (R1 & R2 & R3 & R4). destruct s; cbn [dv_sources so_has at_src src_eqb] in *.
    + destruct (o_has _ _ _ _ _ _ C1 _ _ R1) as (w' & E & A & B). unfold rle in E. rewrite E. cbn [bind fst snd]. eexists. split; [reflexivity|].
      split; [exact (conj A (conj R2 (conj R3 R4)))|]. intros N. exact (conj (B N) (conj R2 (conj R3 R4))).
    + destruct (o_has _ _ _ _ _ _ C2 _ _ R2) as (w' & E & A & B). rewrite E. cbn [bind fst snd]. eexists. split; [reflexivity|].
      split; [exact (conj R1 (conj A (conj R3 R4)))|]. intros N. exact (conj R1 (conj (B N) (conj R3 R4))).
    + destruct (o_has _ _ _ _ _ _ C3 _ _ R3) as (w' & E & A & B). unfold env, tse in E. rewrite E. cbn [bind fst snd]. eexists. split; [reflexivity|].
      split; [exact (conj R1 (conj R2 (conj A R4)))|]. intros N. exact (conj R1 (conj R2 (conj (B N) R4))).
    + destruct (o_has _ _ _ _ _ _ C4 _ _ R4) as (w' & E & A & B). unfold env in E. rewrite E. cbn [bind fst snd]. eexists. split; [reflexivity|].
      split; [exact (conj R1 (conj R2 (conj R3 A)))|]. intros N. exact (conj R1 (conj R2 (conj R3 (B N)))).
  - intros s p w a m buf (R1 & R2 & R3 & R4) Ho Hp Hb Hl. destruct s; cbn [dv_sources so_read].
    + destruct (o_read _ _ _ _ _ _ C1 p _ _ m buf R1 Ho Hp Hb Hl) as (w' & E & A). unfold rle in E. rewrite E. cbn [bind fst snd]. eexists. split; [reflexivity|]. exact (conj A (conj R2 (conj R3 R4))).
    + destruct (o_read _ _ _ _ _ _ C2 p _ _ m buf R2 Ho Hp Hb Hl) as (w' & E & A). rewrite E. cbn [bind fst snd]. eexists. split; [reflexivity|]. exact (conj R1 (conj A (conj R3 R4))).
    + destruct (o_read _ _ _ _ _ _ C3 p _ _ m buf R3 Ho Hp Hb Hl) as (w' & E & A). unfold env, tse in E. rewrite E. cbn [bind fst snd]. eexists. split; [reflexivity|]. exact (conj R1 (conj R2 (conj A R4))).
    + destruct (o_read _ _ _ _ _ _ C4 p _ _ m buf R4 Ho Hp Hb Hl) as (w' & E & A). unfold env in E. rewrite E. cbn [bind fst snd]. eexists. split; [reflexivity|]. exact (conj R1 (conj R2 (conj R3 A))).
  - intros s p w a (R1 & R2 & R3 & R4). destruct s; cbn [dv_sources so_mark so_reset].
    + destruct (o_mark _ _ _ _ _ _ C1 p _ _ R1) as (w' & E & A). unfold rle in E. rewrite E. cbn [bind]. do 2 eexists. split; [reflexivity|]. split; [reflexivity|]. exact (conj A (conj R2 (conj R3 R4))).
    + destruct (o_mark _ _ _ _ _ _ C2 p _ _ R2) as (w' & E & A). rewrite E. cbn [bind]. do 2 eexists. split; [reflexivity|]. split; [reflexivity|]. exact (conj (o_reset _ _ _ _ _ _ C1 _ _ _ R1) (conj A (conj R3 R4))).
    + destruct (o_mark _ _ _ _ _ _ C3 p _ _ R3) as (w' & E & A). unfold env, tse in E. rewrite E. cbn [bind]. do 2 eexists. split; [reflexivity|]. split; [reflexivity|].
      assert (A' : log_rel (dc_line c) tse lcap None w' (e_log (dv_mark c lcap SLog a), e_time (dv_mark c lcap SLog a))).
      { cbn [dv_mark]. unfold log_mark in A. cbn [fst snd] in A. destruct (hist_step (dc_line c) lcap (e_log a) LMarkSent) as [[x h]|]; exact A. }
      cbn [dv_dev mark]. assert (X : e_core (dv_mark c lcap SLog a) = e_core a /\ e_ev (dv_mark c lcap SLog a) = e_ev a /\ e_cdr (dv_mark c lcap SLog a) = e_cdr a)
        by (cbn [dv_mark]; destruct (hist_step _ _ _ _) as [[? ?]|]; auto).
      destruct X as (X1 & X2 & X3). unfold dv_rel. cbn [w_core w_ev w_log w_cdr]. rewrite X1, X2, X3. exact (conj (o_reset _ _ _ _ _ _ C1 _ _ _ R1) (conj R2 (conj A' R4))).
    + destruct (o_mark _ _ _ _ _ _ C4 p _ _ R4) as (w' & E & A). unfold env in E. rewrite E. cbn [bind]. do 2 eexists. split; [reflexivity|]. split; [reflexivity|].
      assert (A' : rec_rel env rn rmax klen None w' (e_cdr (dv_mark c lcap SCdr a))).
      { cbn [dv_mark]. unfold rec_mark in A. destruct (rec_source (e_cdr a)); exact A. }
      cbn [dv_dev mark]. assert (X : e_core (dv_mark c lcap SCdr a) = e_core a /\ e_ev (dv_mark c lcap SCdr a) = e_ev a /\ e_log (dv_mark c lcap SCdr a) = e_log a /\ e_time (dv_mark c lcap SCdr a) = e_time a)
        by (cbn [dv_mark]; destruct (rec_source (e_cdr a)); auto).
      destruct X as (X1 & X2 & X3 & X4). unfold dv_rel. cbn [w_core w_ev w_log w_cdr]. rewrite X1, X2, X3, X4. exact (conj (o_reset _ _ _ _ _ _ C1 _ _ _ R1) (conj R2 (conj R3 A'))).
  - intros f w a (R1 & R2 & R3 & R4). cbn [dv_sources so_reset]. eexists. split; [reflexivity|].
    exact (conj (o_reset _ _ _ _ _ _ C1 _ _ _ R1) (conj (o_reset _ _ _ _ _ _ C2 _ _ _ R2) (conj (o_reset _ _ _ _ _ _ C3 _ _ _ R3) (o_reset _ _ _ _ _ _ C4 _ _ _ R4)))).
  - intros f w a o r a' (R1 & R2 & R3 & R4) Fo HS. cbn [dv_dev spec fine] in *. destruct o as [o|o|o]; cbn [dv_spec dv_fine dv_app] in *.
    + destruct (is_reader o) eqn:Ro; [discriminate|]. apply bind_inv in HS as ([r0 v'] & HS & E). injection E as <- <-. cbn [fst snd].
      destruct (ev_app _ _ _ _ _ _ _ _ R2 Fo Ro HS) as (s' & E & A & B). rewrite E. cbn [bind fst snd]. eexists. split; [reflexivity|].
      split; [exact (conj R1 (conj A (conj R3 R4)))|]. destruct f as [[s p]|]; [|exact I]. destruct s; try reflexivity. apply B. discriminate.
    + assert (No : o <> LMarkSent) by (destruct o; discriminate).
      assert (HS' : exists r0 h', hist_step (dc_line c) lcap (e_log a) o = Some (r0, h') /\ r = ALogRes r0 /\
        a' = held_log a h' (match o, h_up (e_log a) with LTrigger t, None => t | _, _ => e_time a end)).
      { destruct o; try discriminate; apply bind_inv in HS as ([yy vv] & HS & E); injection E as <- <-; cbn [fst snd]; eauto 6. }
      destruct HS' as (r0 & h' & HS' & -> & ->).
      destruct (log_app _ env _ _ _ _ _ _ _ _ _ CE CG CL R3 Fo No HS') as (s' & E & A & B). unfold tse in E. rewrite E. cbn [bind fst snd]. eexists. split; [reflexivity|].
      split; [exact (conj R1 (conj R2 (conj A R4)))|]. destruct f as [[s p]|]; [|exact I]. destruct s; try reflexivity. apply B. discriminate.
    + assert (Hk2 : (exists i, o = CoRegister i) \/ (exists i x, o = CoRecord i x)) by (destruct o; try discriminate; eauto).
      assert (HS' : exists r0 v', cv_step (cdr_msg env) rn (e_cdr a) o = Some (r0, v') /\ r = ACdrRes r0 /\ a' = held_cdr a v').
      { destruct o; try discriminate; apply bind_inv in HS as ([yy vv] & HS & E); injection E as <- <-; cbn [fst snd]; eauto 6. }
      destruct HS' as (r0 & v' & HS' & -> & ->). destruct w as [wc we wl [ww ws]]. cbn [w_core w_ev w_log w_cdr fst snd] in *.
      destruct (rec_app env rn rmax klen _ ww ws _ _ _ _ CE CR2 CR1 (proj1 KL) R4 Fo Hk2 HS') as (w' & s' & E & A & B). unfold env in E. rewrite E. cbn [bind fst snd]. eexists. split; [reflexivity|].
      split; [exact (conj R1 (conj R2 (conj R3 A)))|]. destruct f as [[s p]|]; [|exact I]. destruct s; try reflexivity. apply B. discriminate.
  - intros f w a s m (R1 & R2 & R3 & R4) Ho. apply wire_ok. destruct s.
    + destruct (o_ok _ _ _ _ _ _ C1 _ _ _ _ R1 Ho). split; [assumption|lia].
    + destruct (o_ok _ _ _ _ _ _ C2 _ _ _ _ R2 Ho). split; [assumption|lia].
    + destruct (o_ok _ _ _ _ _ _ C3 _ _ _ _ R3 Ho). split; [assumption|lia].
    + destruct (o_ok _ _ _ _ _ _ C4 _ _ _ _ R4 Ho). split; [assumption|lia].
Qed.
End Whole.

(* ------------------------------------------------------------ boot *)
Lemma stored_ok st : bytes st -> core_held st = stored_core st.
Proof.
  intros B. unfold core_held, stored_core, cd_has_valid, cd_get_header. pose proof (zlen_nonneg st).
  destruct (zlen st =? 0) eqn:E0; [replace (12 <=? zlen st) with false by lia; reflexivity|].
  destruct (12 <=? zlen st) eqn:E; [|unfold read_at; replace (_ && _) with false by lia; reflexivity].
  rewrite read_at_some by lia. rewrite drop_0. cbn [andb].
  destruct st as [|b0 [|b1 [|b2 [|b3 [|b4 [|b5 [|b6 [|b7 [|b8 [|b9 [|b10 [|b11 st]]]]]]]]]]]]; try (cbn in E; discriminate).
  change (take 12 (b0 :: b1 :: b2 :: b3 :: b4 :: b5 :: b6 :: b7 :: b8 :: b9 :: b10 :: b11 :: st)) with [b0; b1; b2; b3; b4; b5; b6; b7; b8; b9; b10; b11].
  change (drop 8 [b0; b1; b2; b3; b4; b5; b6; b7; b8; b9; b10; b11]) with [b8; b9; b10; b11].
  change (take 4 (drop 8 (b0 :: b1 :: b2 :: b3 :: b4 :: b5 :: b6 :: b7 :: b8 :: b9 :: b10 :: b11 :: st))) with [b8; b9; b10; b11].
  unfold cd_header_valid. change (take 4 [b0; b1; b2; b3; b4; b5; b6; b7; b8; b9; b10; b11]) with [b0; b1; b2; b3].
  change (take 4 (b0 :: b1 :: b2 :: b3 :: b4 :: b5 :: b6 :: b7 :: b8 :: b9 :: b10 :: b11 :: st)) with [b0; b1; b2; b3].
  change (cd_le32 CD_MAGIC) with [0x43; 0x4f; 0x52; 0x45]. unfold CoredumpSpec.le. cbn [fold_right].
  pose proof (Forall_inv B) as B0. apply Forall_inv_tail in B. pose proof (Forall_inv B) as B1. apply Forall_inv_tail in B. pose proof (Forall_inv B) as B2. apply Forall_inv_tail in B. pose proof (Forall_inv B) as B3.
  unfold is_u8 in *. destruct (list_eq_dec Z.eq_dec [b0; b1; b2; b3] [0x43; 0x4f; 0x52; 0x45]) as [EQ|NE].
  - injection EQ as -> -> -> ->. cbn [option_map]. replace (_ =? _) with true by reflexivity. do 2 f_equal. lia.
  - replace (_ =? _) with false; [reflexivity|]. symmetry. apply Z.eqb_neq. intros X. apply NE. f_equal; [lia|]. f_equal; [lia|]. f_equal; [lia|]. f_equal; lia.
Qed.
Lemma dv_boot_ok c st ev log min recs rn rmax : dv_ok c (zlen ev) (zlen log) rn rmax -> 0 < zlen ev <= 2147483648 ->
  core_fine st -> recs_all (rfine (dc_env c) rmax (zlen (uc_key (dc_up c)))) recs ->
  exists w, dv_boot st ev log min recs rn rmax = Some w /\ dv_rel c (zlen ev) (zlen log) rn rmax None w (held_boot st min recs).
Proof.
  intros OK He Hst Hr. destruct OK as [_ _ CE CL CG [CR1 CR2]]. assert (LC : lcap (zlen log)) by (unfold lcap; lia).
  destruct (es_boot_ok (dc_batch c) ev He) as (e & E1 & M1). destruct (log_boot_ok (dc_line c) (dc_tse c) log min LC) as (l & E2 & K0).
  pose proof (hist_init_ok (zlen log) min) as Q0.
  unfold dv_boot. rewrite E1. cbn [bind]. rewrite E2. cbn [bind]. eexists. split; [reflexivity|].
  assert (P0 : pos_inv (zlen log) l (hist_init min)).
  { unfold pos_inv. rewrite (sim_sz _ _ _ _ _ _ K0 Q0). change (hrooms (fit (zlen log) (h_saved (hist_init min)))) with 0. change (hrooms (h_saved (hist_init min))) with 0.
    unfold log_boot in E2. apply bind_inv in E2 as (b & E & E2). destruct b as [b|]; [|discriminate]. injection E2 as <-. cbn [lg_cb]. unfold cb_init in E.
    repeat match type of E with context [if ?x then _ else _] => destruct x; try discriminate end. binv E. inv E. reflexivity. }
  split; [|split; [|split]]; cbn [w_core w_ev w_log w_cdr held_boot e_core e_ev e_log e_time e_cdr at_src].
  - split; [apply stored_ok, Hst|]. cbn [co_st co_ds]. split; [exact Hst|]. intros _. exists None. split; [|auto]. split; [|reflexivity].
    unfold co_msgs. destruct Hst as (B & L & F). destruct (cd_has_valid true st) as [n|] eqn:EV; [|constructor].
    constructor; [|constructor]. rewrite zlen_take. lia.
  - split; [exact M1|congruence].
  - lrel (slg_init min) K0 Q0 P0; [intros X; now elim X|congruence].
  - cbn [fst snd]. split; [|split; [exact Hr|congruence]].
    unfold cdr_init. constructor; cbn [cv_reg cv_world cv_act cd_sources cd_active cd_total cd_meta cd_enc_len cd_enc]; auto.
    + change (zlen (@nil Z)) with 0. lia.
    + unfold table_of. cbn [map Datatypes.app]. change (zlen (@nil Z)) with 0. replace (rn - 0) with rn by lia. reflexivity.
    + apply zlen_fill. unfold is_u32 in CR2. lia.
Qed.

(* ------------------------------------------------------------ accounts *)
Section Accounts.
Variables (c : dv_cfg) (ecap lcap rn rmax : Z) (cmsg : list Z -> list Z) (lmsg : Z -> option Z -> list hlog -> list Z) (rmsg : cdr_rec -> list Z).
Notation dv := (dv_dev c ecap lcap rn rmax cmsg lmsg rmsg).

Lemma deeds_keep (I : list (src * list Z) -> list (dv_op * dv_res) -> held -> Prop) :
  (forall p q s a, I p q a -> I p q (ask dv s a)) ->
  (forall p q s m a, I p q a -> offer dv s a = Some m -> I (p ++ [(s, m)]) q (mark dv s a)) ->
  (forall p q o r a a', I p q a -> spec dv a o = Some (r, a') -> I p (q ++ [(o, r)]) a') ->
  forall a t a', deeds dv a t a' -> forall p q, I p q a -> I (p ++ sent t) (q ++ app_deeds t) a'.
Proof.
  intros H1 H2 H3 a t a' D. induction D as [a|a s t a' D IH|a s m t a' O D IH|a o r a1 t a' O D IH]; intros p q Ha; cbn [sent app_deeds flat_map Datatypes.app].
  - now rewrite !app_nil_r.
  - apply IH, H1, Ha.
  - change ((s, m) :: _) with ([(s, m)] ++ sent t). rewrite app_assoc. apply IH. now apply H2.
  - change ((o, r) :: _) with ([(o, r)] ++ app_deeds t). rewrite app_assoc. apply IH. eapply H3; eassumption.
Qed.
Lemma of_src_app s a b : of_src s (a ++ b) = of_src s a ++ of_src s b.
Proof. unfold of_src. now rewrite filter_app, map_app. Qed.
Lemma of_src_one s s' m : of_src s [(s', m)] = if src_type s' =? src_type s then [m] else [].
Proof. unfold of_src. cbn [filter fst]. destruct (_ =? _); reflexivity. Qed.

(* coredumps *)
Lemma core_ledger boot t a a' : e_core a = boot -> deeds dv a t a' -> core_accounted cmsg (of_src SCoredump (sent t)) boot (e_core a').
Proof.
  intros E D. refine (deeds_keep (fun p _ a => core_accounted cmsg (of_src SCoredump p) boot (e_core a)) _ _ _ a t a' D [] [] _).
  - intros p q s x H. destruct s; exact H.
  - intros p q s m x H O. rewrite of_src_app, of_src_one. destruct s; cbn [src_type Z.eqb Pos.eqb] in *.
    + cbn [dv_dev offer mark dv_offer dv_mark e_core] in *. change (0 =? 0) with true. cbv iota. unfold core_accounted in *. destruct boot as [b|].
      * destruct H as [[H1 H2]|[H1 H2]]; rewrite H2 in O; [|discriminate]. injection O as <-. rewrite H1. right. auto.
      * destruct H as [_ H]. rewrite H in O. discriminate.
    + change (1 =? 0) with false. cbv iota. rewrite app_nil_r. exact H.
    + change (2 =? 0) with false. cbv iota. rewrite app_nil_r. cbn [dv_dev mark dv_mark]. destruct (hist_step _ _ _ _) as [[? ?]|]; exact H.
    + change (3 =? 0) with false. cbv iota. rewrite app_nil_r. cbn [dv_dev mark dv_mark]. destruct (rec_source _); exact H.
  - intros p q o r x x' H O. cbn [dv_dev spec] in O. destruct o as [o|o|o]; cbn [dv_spec] in O.
    + destruct (is_reader o); [discriminate|]. apply bind_inv in O as (y & _ & O). injection O as _ <-. exact H.
    + destruct o; try discriminate; apply bind_inv in O as (y & _ & O); injection O as _ <-; exact H.
    + destruct o; try discriminate; apply bind_inv in O as (y & _ & O); injection O as _ <-; exact H.
  - cbn [of_src filter map]. unfold core_accounted. rewrite <- E. destruct (e_core a); auto.
Qed.

(* events *)
Fixpoint open_part (p : list Z) (l : list (es_op * es_res)) : list Z :=
  match l with
  | [] => p
  | (EAppend d, ROk true) :: r => open_part (p ++ d) r
  | (EFinish _, _) :: r => open_part [] r
  | _ :: r => open_part p r
  end.
Lemma open_app l : forall p k, open_part p (l ++ k) = open_part (open_part p l) k.
Proof. induction l as [|[o r] l IH]; intros p k; cbn [open_part Datatypes.app]; [reflexivity|]. destruct o; auto. destruct r as [|[]| | | |]; auto. Qed.
Lemma committed_app l : forall p k, committed p (l ++ k) = committed p l ++ committed (open_part p l) k.
Proof.
  induction l as [|[o r] l IH]; intros p k; cbn [open_part committed Datatypes.app]; [reflexivity|]. destruct o; auto.
  - destruct r as [|[]| | | |]; auto.
  - rewrite IH, app_assoc. reflexivity.
Qed.
Definition ev_inv (v : sev) : Prop := 0 <= v_reading v <= zlen (v_events v) /\ (v_reading v <> 0 -> batch_ok c (take (v_reading v) (v_events v))).
Lemma covered_ok v : ev_inv v -> 0 <= ev_covered c v <= zlen (v_events v) /\ (1 <= ev_covered c v -> batch_ok c (take (ev_covered c v) (v_events v))).
Proof.
  intros (R1 & R2). unfold ev_covered. destruct (v_reading v =? 0) eqn:E; [|split; [exact R1|intros _; apply R2; lia]].
  destruct (batch_bounds (dc_batch c) (v_events v)) as (B1 & B2). split; [exact B1|]. intros H. unfold batch_ok. rewrite zlen_take.
  replace (Z.min (Z.max 0 (batch (dc_batch c) (v_events v))) (zlen (v_events v))) with (batch (dc_batch c) (v_events v)) by lia.
  destruct (dc_batch c) as [max|] eqn:EC; [|cbn [batch] in *; left; lia].
  destruct (batch_spec max (v_events v)) as (S1 & S2 & S3 & S4). destruct (Z.eq_dec (batch (Some max) (v_events v)) 1); [left; lia|]. right. lia.
Qed.
Lemma message_take cfg l k : 0 <= k <= zlen l -> message cfg (take k l) (zlen (take k l)) = message cfg l k.
Proof. intros H. unfold message. rewrite zlen_take. replace (Z.min (Z.max 0 k) (zlen l)) with k by lia. now rewrite take_take, Z.min_id. Qed.
Lemma ev_calls_app a b : ev_calls (a ++ b) = ev_calls a ++ ev_calls b. Proof. unfold ev_calls. now rewrite flat_map_app. Qed.

Lemma ev_ledger t a a' : e_ev a = mk_sev [] None 0 -> deeds dv a t a' ->
  ev_inv (e_ev a') /\ events_accounted c (of_src SEvent (sent t)) (ev_calls (app_deeds t)) (e_ev a').
Proof.
  intros E D.
  refine (proj2 (deeds_keep (fun p q a => open_part [] (ev_calls q) = (match v_part (e_ev a) with Some p => p | None => [] end) /\
    ev_inv (e_ev a) /\ events_accounted c (of_src SEvent p) (ev_calls q) (e_ev a)) _ _ _ a t a' D [] [] _)).
  - intros p q s x (H0 & H1 & H2). destruct s; try exact (conj H0 (conj H1 H2)). cbn [dv_dev ask dv_ask e_ev held_ev v_part].
    split; [exact H0|]. split; [|destruct H2 as (bs & X); exists bs; exact X].
    destruct (covered_ok _ H1) as (C1 & C2). split; cbn [v_reading v_events]; [exact C1|]. intros N. apply C2. lia.
  - intros p q s m x (H0 & H1 & H2) O. rewrite of_src_app, of_src_one. destruct s; cbn [src_type] in *.
    + change (0 =? 1) with false. cbv iota. rewrite app_nil_r. exact (conj H0 (conj H1 H2)).
    + change (1 =? 1) with true. cbv iota. cbn [dv_dev offer mark dv_offer dv_mark e_ev held_ev v_part] in *.
      destruct (1 <=? ev_covered c (e_ev x)) eqn:EK; [|discriminate]. injection O as <-. destruct (covered_ok _ H1) as (C1 & C2). specialize (C2 ltac:(lia)).
      set (k := ev_covered c (e_ev x)) in *. split; [exact H0|]. split.
      * split; cbn [v_reading v_events]; [pose proof (zlen_nonneg (drop k (v_events (e_ev x)))); lia|congruence].
      * destruct H2 as (bs & X1 & X2 & X3). exists (bs ++ [take k (v_events (e_ev x))]). split; [|split].
        -- rewrite map_app, X1. cbn [map]. now rewrite message_take by exact C1.
        -- apply Forall_app. split; [exact X2|]. constructor; [exact C2|constructor].
        -- cbn [v_events]. rewrite concat_app. cbn [concat]. rewrite app_nil_r, <- app_assoc, take_drop. exact X3.
    + change (2 =? 1) with false. cbv iota. rewrite app_nil_r. cbn [dv_dev mark dv_mark]. destruct (hist_step _ _ _ _) as [[? ?]|]; exact (conj H0 (conj H1 H2)).
    + change (3 =? 1) with false. cbv iota. rewrite app_nil_r. cbn [dv_dev mark dv_mark]. destruct (rec_source _); exact (conj H0 (conj H1 H2)).
  - intros p q o r x x' (H0 & H1 & H2) O. cbn [dv_dev spec] in O. rewrite ev_calls_app. destruct o as [o|o|o]; cbn [dv_spec] in O.
    + destruct (is_reader o) eqn:Ro; [discriminate|]. apply bind_inv in O as ([y v'] & HS & O). injection O as <- <-. cbn [e_ev held_ev fst snd ev_calls flat_map Datatypes.app].
      destruct H1 as (R1 & R2). destruct H2 as (bs & X1 & X2 & X3).
      unfold events_accounted. rewrite open_app, committed_app, H0, <- X3.
      assert (K : forall l, v_events v' = v_events (e_ev x) ++ l -> v_reading v' = v_reading (e_ev x) -> ev_inv v').
      { intros l L1 L2. split; rewrite L1, L2; [rewrite zlen_app; pose proof (zlen_nonneg l); lia|]. intros N. rewrite take_app_le by lia. now apply R2. }
      set (P := match v_part (e_ev x) with Some p => p | None => [] end) in *.
      assert (Y : v_events v' = v_events (e_ev x) ++ committed P [(o, y)] /\ v_reading v' = v_reading (e_ev x) /\
        open_part P [(o, y)] = match v_part v' with Some p => p | None => [] end).
      { destruct o; cbn [is_reader] in Ro; try discriminate; cbn [sev_step] in HS; unfold P;
          repeat match type of HS with context [match ?z with _ => _ end] => destruct z eqn:?; try discriminate end; inv HS;
          cbn [open_part committed v_part v_events v_reading Datatypes.app]; rewrite ?app_nil_r;
          repeat match goal with X : v_part _ = _ |- _ => rewrite X end; auto.
        - destruct l; [cbn in *; discriminate|auto].
        - destruct rollback; rewrite app_nil_r; auto. }
      destruct Y as (Y1 & Y2 & Y3). split; [exact Y3|]. split; [now apply (K _ Y1 Y2)|]. exists bs. split; [exact X1|]. split; [exact X2|].
      rewrite Y1, app_assoc. reflexivity.
    + assert (X : e_ev x' = e_ev x) by (destruct o; try discriminate; apply bind_inv in O as (y & _ & O); injection O as _ <-; reflexivity).
      rewrite X. replace (ev_calls [(ALog o, r)]) with (@nil (es_op * es_res)) by (destruct r; reflexivity). rewrite app_nil_r. exact (conj H0 (conj H1 H2)).
    + assert (X : e_ev x' = e_ev x) by (destruct o; try discriminate; apply bind_inv in O as (y & _ & O); injection O as _ <-; reflexivity).
      rewrite X. replace (ev_calls [(ACdr o, r)]) with (@nil (es_op * es_res)) by (destruct r; reflexivity). rewrite app_nil_r. exact (conj H0 (conj H1 H2)).
  - rewrite E. cbn [of_src filter map ev_calls flat_map open_part v_part]. split; [reflexivity|]. split; [split; cbn [v_reading v_events]; [change (zlen (@nil (list Z))) with 0; lia|congruence]|]. exists []. cbn. auto.
Qed.

(* recordings *)
Lemma rec_ledger boot t a a' : cv_world (e_cdr a) = boot -> deeds dv a t a' ->
  recs_accounted rmsg (of_src SCdr (sent t)) boot (app_deeds t) (e_cdr a').
Proof.
  intros E D. refine (deeds_keep (fun p q a => recs_accounted rmsg (of_src SCdr p) boot q (e_cdr a)) _ _ _ a t a' D [] [] _).
  - intros p q s x H. destruct s; try exact H. 
  - intros p q s m x H O. rewrite of_src_app, of_src_one. destruct s; cbn [src_type] in *.
    + change (0 =? 3) with false. cbv iota. rewrite app_nil_r. exact H.
    + change (1 =? 3) with false. cbv iota. rewrite app_nil_r. exact H.
    + change (2 =? 3) with false. cbv iota. rewrite app_nil_r. cbn [dv_dev mark dv_mark]. destruct (hist_step _ _ _ _) as [[? ?]|]; exact H.
    + change (3 =? 3) with true. cbv iota. cbn [dv_dev offer mark dv_offer dv_mark] in *. destruct (rec_source (e_cdr x)) as [i|]; [|discriminate].
      cbv zeta. cbn [e_cdr held_cdr]. destruct (cv_world (e_cdr x) i) as [|r rest] eqn:EW; [discriminate|]. injection O as <-.
      destruct H as (rs & X1 & X2). exists (rs ++ [(i, r)]). split; [rewrite map_app, X1; reflexivity|]. intros j. rewrite <- X2, filter_app, map_app. cbn [filter fst cv_world].
      unfold w_set. rewrite (Z.eqb_sym i j). destruct (j =? i) eqn:EJ; cbn [map snd tl]; [|now rewrite app_nil_r]. apply Z.eqb_eq in EJ. subst j.
      rewrite EW. cbn [tl]. now rewrite <- app_assoc.
  - intros p q o r x x' H O. cbn [dv_dev spec] in O. destruct H as (rs & X1 & X2).
    assert (A : forall i, recorded i (q ++ [(o, r)]) = recorded i q ++ recorded i [(o, r)]) by (intros; unfold recorded; now rewrite flat_map_app).
    destruct o as [o|o|o]; cbn [dv_spec] in O.
    + destruct (is_reader o); [discriminate|]. apply bind_inv in O as (y & _ & O). injection O as _ <-. exists rs. split; [exact X1|]. intros i. rewrite A. change (recorded i [(AEvent o, r)]) with (@nil cdr_rec). rewrite app_nil_r. apply X2.
    + assert (X : e_cdr x' = e_cdr x) by (destruct o; try discriminate; apply bind_inv in O as (y & _ & O); injection O as _ <-; reflexivity).
      exists rs. split; [exact X1|]. intros i. rewrite A, X. change (recorded i [(ALog o, r)]) with (@nil cdr_rec). rewrite app_nil_r. apply X2.
    + exists rs. split; [exact X1|]. intros i. rewrite A. destruct o as [j| | | | |j y]; try discriminate; apply bind_inv in O as (z & HS & O); injection O as _ <-; cbn [e_cdr held_cdr].
      * change (recorded i [(ACdr (CoRegister j), r)]) with (@nil cdr_rec). rewrite app_nil_r. rewrite <- X2. f_equal. cbn [cv_step] in HS. destruct (_ <? _) in HS; inv HS; reflexivity.
      * cbn [cv_step] in HS. injection HS as <-. cbn [snd cv_world]. change (recorded i [(ACdr (CoRecord j y), r)]) with ((if j =? i then [y] else []) ++ []). rewrite app_assoc, <- X2, app_nil_r, <- app_assoc. f_equal. unfold w_set. rewrite (Z.eqb_sym j i).
        destruct (i =? j) eqn:EI; [|now rewrite app_nil_r]. apply Z.eqb_eq in EI. now subst.
  - exists []. split; [reflexivity|]. intros i. cbn. rewrite app_nil_r. now rewrite E.
Qed.

(* logs *)
Definition log_inv (past : list (log_op * log_res)) (h : hist) (t : option Z) : Prop :=
  ginv lcap h /\ match h_up h with Some n => uploading lcap h <> [] /\ In (LTrigger t) (map fst past) /\ first lcap (take n (h_saved h)) = first lcap (h_saved h) | None => True end.
Lemma first_still M h n o r h' : h_up h = Some n -> n <= zlen (h_saved h) -> o <> LMarkSent -> hist_step M lcap h o = Some (r, h') ->
  first lcap (h_saved h') = first lcap (h_saved h) /\ take n (h_saved h') = take n (h_saved h).
Proof.
  intros U L NO H. destruct o as [level type ts text| |time| | |l| |]; cbn [hist_step] in H; try congruence; try (injection H as _ <-; auto; fail).
  - destruct (hist_save _ _ _) as [b h1] eqn:E. injection H as _ <-. unfold hist_save in E. rewrite U in E. destruct (_ <? h_min h) in E; [injection E as _ <-; auto|].
    destruct (_ || _) eqn:EX in E; injection E as _ <-; [auto|]. cbn [h_saved]. apply orb_false_iff in EX as (E1 & E2). split; [|now apply take_app_le].
    unfold first. rewrite fit_room by lia. rewrite !zlen_app. lia.
  - repeat match type of H with
      | context [if ?x then _ else _] => destruct x; try discriminate
      | context [match nth_error ?a ?b with _ => _ end] => destruct (nth_error a b)
      end; injection H as _ <-; auto.
  - rewrite U in H. injection H as _ <-. auto.
Qed.
Lemma accepted_app M l : forall k, accepted M (map fst (l ++ k)) (map snd (l ++ k)) = accepted M (map fst l) (map snd l) ++ accepted M (map fst k) (map snd k).
Proof.
  induction l as [|[o r] l IH]; intros k; cbn [map Datatypes.app fst snd]; [reflexivity|]. cbn [accepted]. destruct o; auto. destruct r as [[]| | |]; auto.
  cbn [Datatypes.app]. now rewrite IH.
Qed.
Lemma successive_snoc saved us : forall lo hi u, successive lcap saved lo us hi -> u_from u = Z.max hi (first lcap (take (u_to u) saved)) -> u_from u < u_to u -> successive lcap saved lo (us ++ [u]) (u_to u).
Proof. induction us as [|x us IH]; intros lo hi u A B C; cbn [Datatypes.app successive] in *; [subst; auto|]. destruct A as (A1 & A2 & A3). split; [exact A1|]. split; [exact A2|]. eapply IH; eassumption. Qed.
Lemma successive_hi saved us : forall lo hi, successive lcap saved lo us hi -> lo <= hi.
Proof.
  induction us as [|x us IH]; intros lo hi A; cbn [successive] in A; [lia|]. destruct A as (A1 & A2 & A3). pose proof (IH _ _ A3). lia.
Qed.
Lemma successive_from saved us : forall lo hi, successive lcap saved lo us hi -> Forall (fun u => lo <= u_from u < u_to u /\ u_to u <= hi) us.
Proof.
  induction us as [|x us IH]; intros lo hi A; cbn [successive] in A; [constructor|]. destruct A as (A1 & A2 & A3). pose proof (successive_hi _ _ _ _ A3).
  constructor; [lia|]. eapply Forall_impl; [|exact (IH _ _ A3)]. cbn. intros; lia.
Qed.
Lemma successive_app saved more us : forall lo hi, successive lcap saved lo us hi -> hi <= zlen saved -> successive lcap (saved ++ more) lo us hi.
Proof.
  induction us as [|x us IH]; intros lo hi A H; cbn [successive] in *; [exact A|]. destruct A as (A1 & A2 & A3). pose proof (successive_hi _ _ _ _ A3).
  rewrite take_app_le by lia. auto.
Qed.
Lemma logs_of_app saved more u : 0 <= u_from u < u_to u -> u_to u <= zlen saved -> logs_of (saved ++ more) u = logs_of saved u.
Proof. intros H1 H2. unfold logs_of. rewrite drop_app_le by lia. apply take_app_le. rewrite zlen_drop. lia. Qed.
Lemma uploading_rooms h : 0 <= lcap -> hrooms (uploading lcap h) <= lcap.
Proof.
  intros Hc. unfold uploading. destruct (h_up h) as [n|]; [|change (hrooms []) with 0; lia]. cbv zeta.
  destruct (fit_suffix lcap (h_saved h)) as (pre & EP & LP). destruct (first_range lcap (h_saved h)) as (FR & _).
  rewrite EP at 3. rewrite drop_app_ge by lia. pose proof (hrooms_take_drop (Z.max (first lcap (h_saved h)) (h_sent h) - zlen pre) (n - Z.max (first lcap (h_saved h)) (h_sent h)) (fit lcap (h_saved h))).
  pose proof (fit_fits lcap (h_saved h) Hc). lia.
Qed.
Lemma logs_grow msgs l h o r h' : logs_accounted c lcap lmsg msgs l h -> ginv lcap h -> 0 < lcap -> hist_step (dc_line c) lcap h o = Some (r, h') -> o <> LMarkSent ->
  logs_accounted c lcap lmsg msgs (l ++ [(o, r)]) h'.
Proof.
  intros (S & us & M & A & L & F) G Hc HS No. destruct (gstep _ _ _ _ _ _ Hc G HS) as (G' & SV & _). pose proof (successive_hi _ _ _ _ A) as A0.
  pose proof (successive_from _ _ _ _ A) as AF.
  assert (ES : h_sent h' = h_sent h).
  { destruct o; try congruence; cbn [hist_step] in HS; unfold hist_save in HS;
      repeat match type of HS with context [if ?x then _ else _] => destruct x | context [match ?x with _ => _ end] => destruct x eqn:?; try discriminate end; inv HS; reflexivity. }
  split; [rewrite accepted_app, <- S; exact SV|]. exists us. rewrite ES, SV. split; [|split; [now apply successive_app|split]].
  - rewrite M. apply map_ext_in. intros u Hu. rewrite Forall_forall in AF. destruct (AF u Hu) as (U1 & U2). rewrite logs_of_app by lia. now rewrite take_app_le by lia.
  - rewrite zlen_app. pose proof (zlen_nonneg (accepted (dc_line c) [o] [r])). lia.
  - rewrite Forall_forall in *. intros u Hu. destruct (F u Hu) as (F1 & F2). destruct (AF u Hu) as (U1 & U2). rewrite logs_of_app by lia.
    split; [|exact F2]. rewrite map_app. apply in_or_app. now left.
Qed.
Lemma log_calls_app a b : log_calls (a ++ b) = log_calls a ++ log_calls b. Proof. unfold log_calls. now rewrite flat_map_app. Qed.

Lemma log_ledger min t a a' : 0 < lcap -> e_log a = hist_init min -> deeds dv a t a' ->
  logs_accounted c lcap lmsg (of_src SLog (sent t)) (log_calls (app_deeds t)) (e_log a').
Proof.
  intros Hc E D.
  refine (proj2 (deeds_keep (fun p q a => log_inv (log_calls q) (e_log a) (e_time a) /\ logs_accounted c lcap lmsg (of_src SLog p) (log_calls q) (e_log a)) _ _ _ a t a' D [] [] _)).
  - intros p q s x H. destruct s; exact H.
  - intros p q s m x (H1 & H2) O. rewrite of_src_app, of_src_one. destruct s; cbn [src_type] in *.
    + change (0 =? 2) with false. cbv iota. rewrite app_nil_r. exact (conj H1 H2).
    + change (1 =? 2) with false. cbv iota. rewrite app_nil_r. exact (conj H1 H2).
    + change (2 =? 2) with true. cbv iota. cbn [dv_dev offer mark dv_offer dv_mark] in *. destruct H1 as (G & H1). destruct (h_up (e_log x)) as [n|] eqn:U; [|discriminate].
      destruct H1 as (NE & TR & FI). injection O as <-.
      destruct (hist_step (dc_line c) lcap (e_log x) LMarkSent) as [[y h']|] eqn:HS; [|cbn [hist_step] in HS; rewrite U in HS; discriminate].
      destruct (gstep _ _ _ _ _ _ Hc G HS) as (G' & _). cbn [hist_step] in HS. rewrite U in HS. injection HS as _ <-. cbn [e_log e_time held_log h_up h_saved h_sent].
      split; [split; [exact G'|exact I]|]. destruct H2 as (S & us & M & A & L & F). pose proof (i_up _ _ G) as UP. rewrite U in UP.
      set (k := up_from lcap (e_log x)). assert (EU : uploading lcap (e_log x) = logs_of (h_saved (e_log x)) (mk_upload k n (e_time x))).
      { unfold uploading, logs_of, k, up_from. rewrite U. reflexivity. }
      assert (KN : h_sent (e_log x) <= k < n).
      { split; [unfold k, up_from; lia|]. destruct (Z_lt_le_dec k n) as [?|GE]; [assumption|]. exfalso. apply NE. rewrite EU. unfold logs_of. cbn [u_from u_to]. unfold take. now replace (Z.to_nat (n - k)) with 0%nat by lia. }
      split; [exact S|]. exists (us ++ [mk_upload k n (e_time x)]). cbn [h_saved h_sent]. split; [|split; [|split]].
      * rewrite map_app, M. cbn [map u_from u_time]. rewrite <- EU. reflexivity.
      * apply (successive_snoc _ us 0 (h_sent (e_log x)) (mk_upload k n (e_time x)) A); cbn [u_from u_to]; [|lia]. rewrite FI. unfold k, up_from. lia.
      * lia.
      * apply Forall_app. split; [exact F|]. constructor; [|constructor]. cbn [u_time]. split; [exact TR|]. rewrite <- EU. apply uploading_rooms. lia.
    + change (3 =? 2) with false. cbv iota. rewrite app_nil_r. cbn [dv_dev mark dv_mark]. destruct (rec_source _); exact (conj H1 H2).
  - intros p q o r x x' (H1 & H2) O. cbn [dv_dev spec] in O. rewrite log_calls_app. destruct o as [o|o|o]; cbn [dv_spec] in O.
    + destruct (is_reader o); [discriminate|]. apply bind_inv in O as (y & _ & O). injection O as <- <-. cbn [log_calls flat_map Datatypes.app]. rewrite app_nil_r. exact (conj H1 H2).
    + assert (No : o <> LMarkSent) by (destruct o; discriminate).
      assert (HS' : exists r0 h', hist_step (dc_line c) lcap (e_log x) o = Some (r0, h') /\ r = ALogRes r0 /\
        x' = held_log x h' (match o, h_up (e_log x) with LTrigger t, None => t | _, _ => e_time x end)).
      { destruct o; try discriminate; apply bind_inv in O as ([yy vv] & HS & X); injection X as <- <-; cbn [fst snd]; eauto 6. }
      destruct HS' as (r0 & h' & HS & -> & ->). cbn [log_calls flat_map Datatypes.app e_log e_time held_log]. destruct H1 as (G & H1).
      destruct (gstep _ _ _ _ _ _ Hc G HS) as (G' & _). split; [split; [exact G'|]|eapply logs_grow; eassumption].
      assert (IL : in_log (e_log x)). { pose proof (i_up _ _ G). pose proof (i_sent _ _ G). unfold in_log. destruct (h_up (e_log x)); lia. }
      destruct (h_up (e_log x)) as [n|] eqn:U.
      * destruct (step_still _ _ _ _ _ _ _ U No IL HS) as (S1 & S2 & S3 & S4). rewrite S1, S3. destruct H1 as (NE & TR & FI). split; [exact NE|]. split.
        -- rewrite map_app. apply in_or_app. left. destruct o; exact TR.
        -- pose proof (i_up _ _ G) as UP. rewrite U in UP. destruct (first_still _ _ _ _ _ _ U ltac:(lia) No HS) as (X1 & X2). now rewrite X1, X2.
      * destruct (h_up h') as [n|] eqn:U'; [|exact I].
        destruct o; cbn [hist_step] in HS; try congruence; try (exfalso; unfold hist_save in HS; repeat match type of HS with context [if ?x then _ else _] => destruct x | context [match ?x with _ => _ end] => destruct x eqn:?; try discriminate end; inv HS; cbn [h_up] in U'; congruence).
        rewrite U in HS. destruct (_ <? _) eqn:EX in HS; injection HS as <- <-; [|congruence]. split.
        -- intros X. apply (f_equal zlen) in X. unfold uploading in X. rewrite U' in X. cbn [h_saved h_sent h_up] in X, U'. injection U' as <-. rewrite zlen_take, zlen_drop in X. change (zlen (@nil hlog)) with 0 in X. destruct (first_range lcap (h_saved (e_log x))) as (FR & _). lia.
        -- split; [rewrite map_app; apply in_or_app; right; now left|]. cbn [h_up h_saved] in *. injection U' as <-. now rewrite take_all by lia.
    + assert (X : e_log x' = e_log x /\ e_time x' = e_time x) by (destruct o; try discriminate; apply bind_inv in O as (y & _ & O); injection O as _ <-; auto).
      destruct X as (X1 & X2). rewrite X1, X2. replace (log_calls [(ACdr o, r)]) with (@nil (log_op * log_res)) by (destruct r; reflexivity). rewrite app_nil_r. exact (conj H1 H2).
  - cbn [log_calls flat_map of_src filter map]. rewrite E. split; [split; [apply ginv_init|exact I]|]. split; [reflexivity|]. exists []. cbn [map successive hist_init h_saved h_sent]. change (zlen (@nil hlog)) with 0. split; [reflexivity|]. split; [reflexivity|]. split; [lia|constructor].
Qed.

(** The measure of what is held. *)
Definition rec_sum (reg : list Z) (w : cdr_world) : Z := fold_right (fun i n => zlen (w i) + n) 0 reg.
Definition dv_size (a : held) : Z :=
  (match e_core a with Some _ => 1 | None => 0 end) + zlen (v_events (e_ev a)) + (match h_up (e_log a) with Some _ => 1 | None => 0 end) +
  rec_sum (cv_reg (e_cdr a)) (cv_world (e_cdr a)).
Definition dv_inv (a : held) : Prop := ev_inv (e_ev a) /\ forall i, cv_act (e_cdr a) = Some i -> In i (cv_reg (e_cdr a)).
Lemma rec_sum_pos reg w : 0 <= rec_sum reg w.
Proof. induction reg as [|i reg IH]; cbn [rec_sum fold_right]; [lia|]. fold (rec_sum reg w). pose proof (zlen_nonneg (w i)). lia. Qed.
Lemma rec_sum_set reg w i l : zlen l < zlen (w i) -> rec_sum reg (w_set w i l) <= rec_sum reg w /\ (In i reg -> rec_sum reg (w_set w i l) < rec_sum reg w).
Proof.
  intros H. induction reg as [|j reg (IH1 & IH2)]; cbn [rec_sum fold_right]; [split; [lia|intros []]|]. fold (rec_sum reg w). fold (rec_sum reg (w_set w i l)).
  unfold w_set at 1 3. destruct (j =? i) eqn:E; [apply Z.eqb_eq in E; subst j; split; [lia|intros _; lia]|]. split; [lia|].
  intros [->|X]; [rewrite Z.eqb_refl in E; discriminate|]. specialize (IH2 X). lia.
Qed.
Lemma first_with_in w reg i : first_with w reg = Some i -> In i reg.
Proof. induction reg as [|j reg IH]; cbn [first_with]; [discriminate|]. destruct (w j); [intros H; right; auto|intros H; injection H as ->; now left]. Qed.
Lemma act_in a : dv_inv a -> forall i, rec_source (e_cdr a) = Some i -> In i (cv_reg (e_cdr a)).
Proof. intros (_ & H) i E. unfold rec_source in E. destruct (cv_act (e_cdr a)) eqn:EA; [injection E as ->; now apply H|]. eapply first_with_in; exact E. Qed.
Lemma dv_shrinks : shrinks dv dv_inv dv_size.
Proof.
  constructor.
  - intros a _. unfold dv_size. pose proof (zlen_nonneg (v_events (e_ev a))). pose proof (rec_sum_pos (cv_reg (e_cdr a)) (cv_world (e_cdr a))). destruct (e_core a), (h_up (e_log a)); lia.
  - intros s a H. destruct s; cbn [dv_dev ask dv_ask]; try (split; [exact H|lia]).
    + destruct H as (H1 & H2). split; [|unfold dv_size; cbn [held_ev e_ev e_core e_log e_cdr v_events]; lia]. split; [|exact H2]. cbn [held_ev e_ev].
      destruct (covered_ok _ H1) as (C1 & C2). split; cbn [v_reading v_events]; [exact C1|]. intros X. apply C2. lia.
    + pose proof (act_in a H) as HI. destruct H as (H1 & H2). split; [|unfold dv_size; cbn [held_cdr e_ev e_core e_log e_cdr cv_reg cv_world]; lia]. split; [exact H1|exact HI].
  - intros s a m H O. destruct s; cbn [dv_dev mark offer dv_mark dv_offer] in *.
    + split; [exact H|]. unfold dv_size. cbn [e_core e_ev e_log e_cdr]. destruct (e_core a); [lia|discriminate].
    + destruct H as (H1 & H2). destruct (covered_ok _ H1) as (C1 & _). destruct (1 <=? ev_covered c (e_ev a)) eqn:E; [|discriminate].
      unfold dv_size, dv_inv, ev_inv. cbn [held_ev e_core e_ev e_log e_cdr v_events v_reading]. rewrite zlen_drop.
      split; [|lia]. split; [|exact H2]. split; [lia|lia].
    + cbn [hist_step]. destruct (h_up (e_log a)) as [n|] eqn:U; [|discriminate]. split; [exact H|]. unfold dv_size. cbn [held_log e_core e_ev e_log e_cdr h_up]. rewrite U. lia.
    + pose proof (act_in a H) as HI. destruct (rec_source (e_cdr a)) as [i|] eqn:ES; [|discriminate]. destruct (cv_world (e_cdr a) i) as [|r t] eqn:EW; [discriminate|].
      destruct H as (H1 & H2). split; [split; [exact H1|cbn [held_cdr e_cdr cv_act]; discriminate]|]. unfold dv_size. cbn [held_cdr e_core e_ev e_log e_cdr cv_reg cv_world].
      destruct (rec_sum_set (cv_reg (e_cdr a)) (cv_world (e_cdr a)) i (tl (r :: t))) as (_ & X); [rewrite EW; cbn [tl]; rewrite zlen_cons; lia|]. specialize (X (HI i eq_refl)). cbn [tl] in *. lia.
Qed.
Lemma act_ledger t a a' : cv_act (e_cdr a) = None -> deeds dv a t a' -> forall i, cv_act (e_cdr a') = Some i -> In i (cv_reg (e_cdr a')).
Proof.
  intros E D.
  refine (deeds_keep (fun p q a => forall i, cv_act (e_cdr a) = Some i -> In i (cv_reg (e_cdr a))) _ _ _ a t a' D [] [] _).
  - intros p q s x H. destruct s; try exact H. cbn [dv_dev ask dv_ask held_cdr e_cdr cv_act cv_reg]. intros i X. unfold rec_source in X. destruct (cv_act (e_cdr x)) eqn:EA; [injection X as ->; now apply H|]. eapply first_with_in; exact X.
  - intros p q s m x H _. destruct s; try exact H; cbn [dv_dev mark dv_mark].
    + destruct (hist_step _ _ _ _) as [[y h]|]; exact H.
    + destruct (rec_source _); [cbn [held_cdr e_cdr cv_act]; discriminate|exact H].
  - intros p q o r x x' H O. cbn [dv_dev spec] in O. destruct o as [o|o|o]; cbn [dv_spec] in O.
    + destruct (is_reader o); [discriminate|]. apply bind_inv in O as (y & _ & O). injection O as _ <-. exact H.
    + destruct o; try discriminate; apply bind_inv in O as (y & _ & O); injection O as _ <-; exact H.
    + destruct o; try discriminate; apply bind_inv in O as ([y v] & HS & O); injection O as _ <-; cbn [cv_step held_cdr e_cdr snd] in *.
      * destruct (_ <? _) in HS; injection HS as _ <-; [|exact H]. cbn [cv_act cv_reg]. intros j X. apply in_or_app. left. now apply H.
      * injection HS as _ <-. exact H.
  - rewrite E. discriminate.
Qed.
End Accounts.

(* ------------------------------------------------------------ the whole *)
Lemma held_none st : bytes st -> stored_core st = None -> cd_has_valid true st = None.
Proof. intros B H. rewrite <- stored_ok in H by exact B. unfold core_held in H. destruct (cd_has_valid true st); [discriminate|reflexivity]. Qed.
Lemma device_dv c st ev log rn rmax : device_ok c st ev log rn rmax -> dv_ok c (zlen ev) (zlen log) rn rmax /\ core_fine st.
Proof.
  intros [K (B & L & F) CC CE CV CL CG CR]. split.
  - constructor; try assumption. intros x Bx. destruct (CC x Bx) as (C1 & C2 & C3). split; [|auto]. now apply held_none.
  - split; [exact B|]. split; [exact L|]. pose proof (stored_ok st B) as E. unfold core_held in E. destruct (cd_has_valid true st) as [n|] eqn:EV; [|exact I].
    cbn [option_map] in E. rewrite <- E in F. specialize (F ltac:(discriminate)).
    unfold stored_core in E. destruct (_ && _) eqn:EB in E; [|discriminate]. unfold cd_has_valid, cd_get_header in EV.
    destruct (zlen st =? 0); [discriminate|]. destruct (read_at st 0 12) as [h|] eqn:ER; [|discriminate]. apply read_at_inv in ER as (_ & _ & _ & EH & LH).
    destruct (cd_header_valid h); [|discriminate]. rewrite drop_0 in EH.
    assert (X : take 4 (drop 8 st) = take 4 (drop 8 h)). { rewrite EH, drop_take by lia. rewrite take_take. reflexivity. }
    rewrite X in F. destruct (drop 8 h) as [|b0 [|b1 [|b2 [|b3 r]]]]; try discriminate. change (take 4 (b0 :: b1 :: b2 :: b3 :: r)) with [b0; b1; b2; b3] in F. injection EV as <-. unfold CoredumpSpec.le in F. cbn [fold_right] in F. lia.
Qed.

Lemma nothing_left c ecap lcap rn rmax (a : held) w s : dv_rel c ecap lcap rn rmax None w a -> ev_inv c (e_ev a) ->
  dv_offer c lcap (core_msg (uc_rle (dc_up c))) (fun b t l => log_msg (dc_env c) (dc_tse c) lcap b t l) (cdr_msg (dc_env c)) s a = None -> nothing_held s a.
Proof.
  intros (_ & _ & _ & R4) EI H. destruct s; cbn [dv_offer nothing_held] in *.
  - destruct (e_core a); [discriminate|reflexivity].
  - destruct (1 <=? ev_covered c (e_ev a)) eqn:E; [discriminate|]. destruct EI as (R & _). unfold ev_covered in E.
    destruct (batch_bounds (dc_batch c) (v_events (e_ev a))) as (B1 & B2).
    destruct (v_events (e_ev a)) as [|x l]; [reflexivity|]. exfalso. rewrite zlen_cons in *. pose proof (zlen_nonneg l). destruct (v_reading (e_ev a) =? 0) eqn:E0; lia.
  - destruct (h_up (e_log a)); [discriminate|reflexivity].
  - destruct (rec_source (e_cdr a)) as [i|] eqn:ES.
    + destruct R4 as (M & _). destruct (source_has _ _ _ _ _ _ i M ES) as (r & t & E). rewrite E in H. discriminate.
    + unfold rec_source in ES. destruct (cv_act (e_cdr a)); [discriminate|]. revert ES. generalize (cv_reg (e_cdr a)). clear.
      induction l as [|j l IH]; intros ES i Hi; [destruct Hi|]. cbn [first_with] in ES. destruct (cv_world (e_cdr a) j) eqn:EJ; [|discriminate].
      destruct Hi as [<-|Hi]; [exact EJ|now apply IH].
Qed.

Lemma messages_ok c ecap lcap rn rmax : dv_ok c ecap lcap rn rmax ->
  messages_read c lcap (core_msg (uc_rle (dc_up c))) (fun b t l => log_msg (dc_env c) (dc_tse c) lcap b t l) (cdr_msg (dc_env c)).
Proof.
  intros DV. destruct DV as [_ _ CE CL CG _]. split; [|split].
    - intros m Hm. unfold core_msg. destruct (uc_rle (dc_up c)); [|reflexivity]. destruct m as [|x m'] eqn:Em; [reflexivity|]. rewrite <- Em in *.
      destruct (enc_future m) as (s & _ & D & E & _); [rewrite Em; congruence|exact Hm|]. now rewrite E.
    - intros before t l F HR W. unfold log_msg. apply msg_read; try assumption.
    - intros r R. split; [now apply cdr_msg_reads|]. unfold cdr_msg. eauto.
Qed.
Theorem device_accounts c st ev log min recs rn rmax : device_ok c st ev log rn rmax ->
  exists cmsg lmsg rmsg, messages_read c (zlen log) cmsg lmsg rmsg /\
    (recs_all (rec_fine c rmax rmsg) recs ->
     exists w, dv_boot st ev log min recs rn rmax = Some w /\
     let dev := dv_dev c (zlen ev) (zlen log) rn rmax cmsg lmsg rmsg in
     let accounted := accounted c (zlen log) cmsg lmsg rmsg (stored_core st) recs in
     forall ops, Forall (by_chunk (dv_fine c rmax rmsg)) ops ->
     exists ops1 rs pk w' a, played dev ops ops1 a /\ dv_run c w pk_init ops1 = Some (rs, pk, w') /\ accounted ops1 rs a /\
       (forall buf, 9 <= zlen buf < 4294967296 ->
         exists b out calls pk2 w2, up_step (dv_sources c) (dc_up c) (dv_app c) w' pk (UCall (PChunk buf)) = Some (URCall (ResChunk b out) calls, pk2, w2) /\
           if b then 0 < zlen out <= zlen buf else out = [] /\ forall s, enabled (pk_mask pk) s = true -> nothing_held s a) /\
       exists n, forall bufs, Forall (fun b => 9 <= zlen b < 4294967296) bufs -> n <= zlen bufs ->
         exists rs2 pk2 w2 a2, let ops2 := ops1 ++ map (fun b => UCall (PChunk b)) bufs in
           dv_run c w pk_init ops2 = Some (rs ++ rs2, pk2, w2) /\ accounted ops2 (rs ++ rs2) a2 /\
           forall s, enabled (pk_mask pk) s = true -> nothing_held s a2).
Proof.
  intros OK. destruct (device_dv _ _ _ _ _ _ OK) as (DV & CF).
  exists (core_msg (uc_rle (dc_up c))), (fun b t l => log_msg (dc_env c) (dc_tse c) (zlen log) b t l), (cdr_msg (dc_env c)). split.
  { eapply messages_ok; exact DV. }
  intros RF. assert (RF' : recs_all (rfine (dc_env c) rmax (zlen (uc_key (dc_up c)))) recs) by exact RF.
  destruct (dv_boot_ok c st ev log min recs rn rmax DV (d_ev _ _ _ _ _ _ OK) CF RF') as (w & EB & R0). exists w. split; [exact EB|]. intros dev acc ops F.
  pose proof (dv_keeps c (zlen ev) (zlen log) rn rmax DV) as KC. fold dev in KC.
  destruct (run_chunks _ _ _ _ _ KC ops w _ pk_init None None (uinv_boot _ _ _ _ _ KC w _ R0) F I I)
    as (ops1 & rs & pk & w' & a & fl & t & got & cs & P & E & _ & U & D & AD & CL & RC & FS & AC).
  assert (LC : 0 < zlen log) by (destruct OK; lia).
  assert (LEDGER : forall t1 a1 ops0 rs0 got0 cs0, deeds dev (held_boot st min recs) t1 a1 -> app_deeds t1 = app_calls ops0 rs0 ->
    cloud None (chunks rs0) = (cs0, got0) -> received (dc_up c) got0 (sent t1) -> acc ops0 rs0 a1).
  { intros t1 a1 ops0 rs0 got0 cs0 D1 AD1 CL1 RC1. exists (sent t1), got0, cs0. split; [exact CL1|]. split; [exact RC1|]. cbv zeta. rewrite <- AD1.
    split; [exact (core_ledger _ _ _ _ _ _ _ _ (stored_core st) t1 (held_boot st min recs) a1 eq_refl D1)|].
    split; [exact (proj2 (ev_ledger _ _ _ _ _ _ _ _ t1 (held_boot st min recs) a1 eq_refl D1))|].
    split; [exact (log_ledger _ _ _ _ _ _ _ _ min t1 (held_boot st min recs) a1 LC eq_refl D1)|].
    exact (rec_ledger _ _ _ _ _ _ _ _ recs t1 (held_boot st min recs) a1 eq_refl D1). }
  assert (INV : forall t1 a1, deeds dev (held_boot st min recs) t1 a1 -> dv_inv c a1).
  { intros t1 a1 D1. split; [exact (proj1 (ev_ledger _ _ _ _ _ _ _ _ t1 (held_boot st min recs) a1 eq_refl D1))|].
    exact (act_ledger _ _ _ _ _ _ _ _ t1 (held_boot st min recs) a1 eq_refl D1). }
  assert (NONE : forall pk0 w0 a0 fl0, uinv (dc_up c) dev (dv_rel c (zlen ev) (zlen log) rn rmax) w0 a0 pk0 fl0 -> exists w3, dv_rel c (zlen ev) (zlen log) rn rmax None w3 a0).
  { intros pk0 w0 a0 fl0 U0. pose proof (ui_rel _ _ _ _ _ _ _ U0) as UR. destruct (pk_cur pk0); [|eauto]. destruct (k_reset _ _ _ _ _ KC _ _ _ UR) as (w3 & _ & X). eauto. }
  exists ops1, rs, pk, w', a. split; [exact P|]. split; [exact E|]. split; [eapply LEDGER; eassumption|]. split.
  - intros buf Hb. destruct (chunk_progress _ _ _ _ _ KC w' a pk fl buf U FS Hb) as (b & out & calls & pk2 & w2 & ES & PR).
    exists b, out, calls, pk2, w2. split; [exact ES|]. destruct b; [exact PR|]. destruct PR as (-> & PR). split; [reflexivity|]. intros s Hs.
    destruct (NONE _ _ _ _ U) as (w3 & RN). eapply nothing_left; [exact RN|exact (proj1 (INV _ _ D))|]. exact (PR s Hs).
  - exists (mu dv_size a pk). intros bufs FB LB.
    destruct (drain_chunks _ _ _ _ _ KC _ _ (dv_shrinks c (zlen ev) (zlen log) rn rmax _ _ _) bufs w' a pk fl cs U FS AC (INV _ _ D) FB (or_introl LB))
      as (rs2 & pk2 & w2 & a2 & fl2 & t2 & got2 & cs2 & E2 & U2 & D2 & Y2 & CL2 & RC2 & FS2 & _ & M2 & (_ & NO)).
    pose proof (deeds_app _ _ _ _ _ _ D D2) as D3.
    exists rs2, pk2, w2, a2. cbv zeta. split; [exact (up_run_app _ _ _ _ _ _ _ _ _ _ _ _ _ E E2)|]. split.
    + eapply LEDGER; [exact D3| | |].
      * unfold app_deeds in *. rewrite flat_map_app, AD, Y2. rewrite app_calls_app by (eapply up_run_len; exact E). now rewrite app_calls_chunks.
      * rewrite chunks_app, cloud_app, CL, CL2. reflexivity.
      * unfold received, sent in *. rewrite flat_map_app. now apply Forall2_app.
    + intros s Hs. destruct (NONE _ _ _ _ U2) as (w3 & RN). eapply nothing_left; [exact RN|exact (proj1 (INV _ _ D3))|]. apply NO. now rewrite M2.
Qed.

Theorem device_follows c st ev log min recs rn rmax : device_ok c st ev log rn rmax ->
  exists cmsg lmsg rmsg, messages_read c (zlen log) cmsg lmsg rmsg /\
    (recs_all (rec_fine c rmax rmsg) recs ->
     exists w, dv_boot st ev log min recs rn rmax = Some w /\
     let dev := dv_dev c (zlen ev) (zlen log) rn rmax cmsg lmsg rmsg in
     forall ops, Forall (up_ok (dv_fine c rmax rmsg)) ops ->
     exists ops1 rs pk w' a fl, played dev ops ops1 a /\ dv_run c w pk_init ops1 = Some (rs, pk, w') /\
       u_run (dc_up c) dev (held_boot st min recs) (pk_mask pk_init) None ops1 rs a (pk_mask pk) fl).
Proof.
  intros OK. destruct (device_dv _ _ _ _ _ _ OK) as (DV & CF).
  exists (core_msg (uc_rle (dc_up c))), (fun b t l => log_msg (dc_env c) (dc_tse c) (zlen log) b t l), (cdr_msg (dc_env c)). split; [eapply messages_ok; exact DV|].
  intros RF. assert (RF' : recs_all (rfine (dc_env c) rmax (zlen (uc_key (dc_up c)))) recs) by exact RF.
  destruct (dv_boot_ok c st ev log min recs rn rmax DV (d_ev _ _ _ _ _ _ OK) CF RF') as (w & EB & R0). exists w. split; [exact EB|]. intros dev ops F.
  pose proof (dv_keeps c (zlen ev) (zlen log) rn rmax DV) as KC. fold dev in KC.
  destruct (run_general _ _ _ _ _ KC ops w _ pk_init None (uinv_boot _ _ _ _ _ KC w _ R0) F) as (ops1 & rs & pk & w' & a & fl & P & E & R & _).
  exists ops1, rs, pk, w', a, fl. auto.
Qed.
