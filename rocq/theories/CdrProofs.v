From Verif Require Import Base Cbor CborSpec CborDoc CborProofs EventStorage EventStorageSpec EventStorageProofs SerializerHelper SerializerHelperSpec SerializerHelperProofs SerializerDocs DataSourceRle DataSourceRleProofs Cdr CdrSpec.

Definition cdr_calls (env : senv) (m : cdr_meta) : list cbor_op :=
  meta_ops env 5 (cm_time m) ++ [OpUnsigned 4] ++ OpDict 4 :: OpUnsigned 1 :: OpUnsigned (cm_duration m) ::
    [OpUnsigned 2; OpArray (zlen (cm_mimes m))] ++ map OpString (cm_mimes m) ++ [OpUnsigned 3; OpString (cm_reason m)] ++
    [OpUnsigned 4] ++ [OpBytesBegin (cm_size m)].
Definition cdr_doc (env : senv) (r : cdr_rec) : doc :=
  event_doc env 5 (cm_time (cr_meta r))
    (DMap [ dkv 1 (DUnsigned (cm_duration (cr_meta r)))
          ; dkv 2 (DArray (map DString (cm_mimes (cr_meta r))))
          ; dkv 3 (DString (cm_reason (cr_meta r))); dkv 4 (DBytes (cr_data r)) ]).
Definition cdr_head (env : senv) (m : cdr_meta) : list Z := ops_bytes (cdr_calls env m).
Definition cdr_msg (env : senv) (r : cdr_rec) : list Z := cdr_head env (cr_meta r) ++ cr_data r.

Lemma runs_cdr env m : runs (e_cdr env m) (cdr_calls env m).
Proof.
  unfold e_cdr, cdr_calls. apply runs_and; [apply runs_meta|]. apply runs_and; [apply runs_all|]. cbn [app]. apply runs_dict; [lia|].
  refine (runs_and _ _ [_; _] _ (runs_all _) _). refine (runs_and _ _ [_; _] _ (runs_all _) _).
  apply runs_and; [apply runs_all|]. refine (runs_and _ _ [_; _] _ (runs_all _) _). refine (runs_and _ _ [_] _ (runs_all _) _). apply runs_all.
Qed.

Lemma cdr_doc_value env r : doc_value (cdr_doc env r) = cdr_item env r.
Proof.
  unfold cdr_doc, cdr_item. rewrite event_doc_value. f_equal. unfold dkv. cbn [doc_value map fst snd]. rewrite map_map. reflexivity.
Qed.

Lemma strings_ops l : flat_map doc_ops (map DString l) = map OpString l.
Proof. induction l as [|s l IH]; cbn [map flat_map doc_ops app]; [reflexivity|]. now rewrite IH. Qed.

Lemma ops_bytes_bytes n d : zlen d = n -> is_u32 n -> op_bytes (OpBytes d) = op_bytes (OpBytesBegin n) ++ d.
Proof.
  intros E U. unfold op_bytes. cbn [op_chunks concat]. rewrite !app_nil_r. rewrite E, u32_id by exact U. reflexivity.
Qed.

Lemma cdr_msg_doc env r : rec_ok r -> ops_bytes (doc_ops (cdr_doc env r)) = cdr_msg env r.
Proof.
  intros (_ & U & E & _). unfold cdr_msg, cdr_head, cdr_doc, cdr_calls. rewrite event_doc_ops. unfold dkv. cbn [doc_ops flat_map fst snd app].
  rewrite strings_ops. change (zlen [_; _; _; _]) with 4. rewrite zlen_map, ops_bytes_app, (ops_bytes_app (meta_ops _ _ _)). rewrite <- app_assoc. f_equal.
  rewrite !ops_bytes_cons, !ops_bytes_app, !ops_bytes_cons. rewrite (ops_bytes_bytes _ _ E U). change (ops_bytes []) with (@nil Z).
  rewrite <- !app_assoc, ?app_nil_r. reflexivity.
Qed.

Lemma all_docs l : (forall s, In s l -> is_u32 (zlen s)) ->
  (fix all (l : list doc) := match l with [] => True | x :: r => doc_ok x /\ all r end) (map DString l).
Proof. induction l as [|s l IH]; intros H; cbn [map]; [exact I|]. split; [apply H; now left|]. apply IH. intros; apply H; now right. Qed.

Lemma cdr_doc_ok env r : senv_ok env -> rec_ok r -> doc_ok (cdr_doc env r).
Proof.
  intros HE (U1 & U2 & E & B & F & M). apply event_doc_ok; [exact HE|unfold is_u32; lia|].
  rewrite Forall_forall in F. unfold dkv. cbn [doc_ok fst snd].
  assert (S1 : forall s, In s (cm_reason (cr_meta r) :: cm_mimes (cr_meta r)) -> is_u32 (zlen s)).
  { intros s I. destruct (F s I) as [_ L]. pose proof (zlen_nonneg s). unfold is_u32. lia. }
  pose proof (zlen_nonneg (cm_mimes (cr_meta r))).
  split; [unfold is_u32; change (zlen [_; _; _; _]) with 4; lia|].
  split; [split; [unfold is_u32; lia|exact U1]|].
  split; [split; [unfold is_u32; lia|]; split; [rewrite zlen_map; unfold is_u32; lia|apply all_docs; intros; apply S1; now right]|].
  split; [split; [unfold is_u32; lia|apply S1; now left]|].
  split; [|exact I]. split; [unfold is_u32; lia|]. rewrite E. exact U2.
Qed.

Lemma mimes_len l : Forall (fun s => bytes s /\ zlen s < 65536) l -> zlen (ops_bytes (map OpString l)) <= 65545 * zlen l.
Proof.
  induction 1 as [|s l [_ H] _ IH]; cbn [map].
  - change (zlen (ops_bytes [])) with 0. change (zlen (@nil (list Z))) with 0. lia.
  - rewrite ops_bytes_cons, zlen_app, zlen_cons. pose proof (op_bytes_len (OpString s)) as L. cbn [op_data] in L. lia.
Qed.

Lemma cdr_head_len env r : senv_ok env -> rec_ok r -> 0 <= zlen (cdr_head env (cr_meta r)) <= 1500000000.
Proof.
  intros HE (U1 & U2 & E & B & F & M). split; [apply zlen_nonneg|]. unfold cdr_head, cdr_calls.
  inv F. pose proof (mimes_len _ H2) as L1. destruct H1 as [_ L2].
  pose proof (meta_len env 5 (cm_time (cr_meta r)) HE) as L3.
  cbn [app]. rewrite ops_bytes_app, zlen_app, !ops_bytes_cons, !zlen_app, ops_bytes_app, !zlen_app, !ops_bytes_cons, !zlen_app.
  change (zlen (ops_bytes [])) with 0.
  repeat match goal with |- context [zlen (op_bytes ?o)] =>
    let H := fresh in pose proof (op_bytes_len o) as H; cbn [op_data] in H; change (zlen (@nil Z)) with 0 in H; revert H; generalize (zlen (op_bytes o)); intros end.
  lia.
Qed.

(** The message decodes to the recording. *)
Lemma cdr_msg_reads env r : senv_ok env -> rec_ok r -> cbor_read (cdr_msg env r) = Some (cdr_item env r, []).
Proof.
  intros HE HR. rewrite <- cdr_msg_doc by exact HR. rewrite <- (app_nil_r (ops_bytes _)), doc_cbor_read by (now apply cdr_doc_ok).
  now rewrite cdr_doc_value.
Qed.

(** What encoding the metadata does. *)
Lemma cdr_encode env r buf : senv_ok env -> rec_ok r -> is_u32 (zlen buf) ->
  exists ok e enc, eprog_run (cbor_init (zlen buf)) (e_cdr env (cr_meta r)) = (ok, e) /\
    memcpy_writes buf (ce_writes e) = Some enc /\ zlen enc = zlen buf /\
    (ok = true <-> zlen (cdr_head env (cr_meta r)) <= zlen buf) /\
    (ok = true -> cbor_deinit e = zlen (cdr_head env (cr_meta r)) /\
       enc = cdr_head env (cr_meta r) ++ drop (zlen (cdr_head env (cr_meta r))) buf).
Proof.
  intros HE HR L. pose proof (cdr_head_len env r HE HR) as HL. unfold cdr_head in *.
  destruct (cbor_seq_ok (cdr_calls env (cr_meta r)) (cbor_init (zlen buf)) (enc_wf_init _ L)) as (b & e & o & E & W & LE & B & O & T & X); [change (ce_size (cbor_init (zlen buf))) with 0; lia|].
  change (ce_size (cbor_init (zlen buf))) with 0 in B. change (ce_len (cbor_init (zlen buf))) with (zlen buf) in B, LE.
  change (ce_output (cbor_init (zlen buf))) with (@nil Z) in O. cbn [app] in O.
  pose proof (cbor_memcpy e buf W ltac:(lia)) as MC.
  exists b, e, (ce_output e ++ drop (zlen (ce_output e)) buf).
  split; [rewrite runs_cdr; [exact E|right; now apply enc_wf_init|change (ce_size (cbor_init (zlen buf))) with 0; lia]|].
  split; [exact MC|].
  pose proof (ew_size _ W) as WS. pose proof (ew_le _ W) as WL. rewrite LE in WL.
  split. { rewrite zlen_app, zlen_drop. pose proof (zlen_nonneg (ce_output e)). lia. }
  split; [rewrite B; lia|]. intros ->. specialize (T eq_refl). rewrite T in O.
  rewrite O in WS |- *. split; [|reflexivity]. unfold cbor_deinit. lia.
Qed.

(* ------------------------------------------------------------ refinement *)
Definition rec_fits (env : senv) (max : Z) (r : cdr_rec) : Prop :=
  rec_ok r /\ zlen (cdr_head env (cr_meta r)) <= max /\ zlen (cdr_msg env r) < 4294967296.

Definition table_of (n : Z) (reg : list Z) : list (option Z) := map Some reg ++ repeat None (Z.to_nat (n - zlen reg)).
Record cdr_sim (env : senv) (n max : Z) (w : cdr_world) (s : cdr) (v : cdr_view) : Prop := {
  cs_w : cv_world v = w;
  cs_n : 0 <= zlen (cv_reg v) <= n;
  cs_tab : cd_sources s = table_of n (cv_reg v);
  cs_act : cd_active s = cv_act v;
  cs_len : zlen (cd_enc s) = max;
  cs_cur : match cv_act v with
           | None => True
           | Some i => exists r t, w i = r :: t /\ cd_meta s = cr_meta r /\ cd_total s = zlen (cdr_msg env r) /\
               cd_enc_len s = zlen (cdr_head env (cr_meta r)) /\
               take (cd_enc_len s) (cd_enc s) = cdr_head env (cr_meta r)
           end }.

Lemma zlen_repeat {A} (x : A) n : zlen (repeat x n) = Z.of_nat n.
Proof. unfold zlen. now rewrite repeat_length. Qed.
Lemma zlen_table n reg : zlen reg <= n -> zlen (table_of n reg) = n.
Proof. intros H. unfold table_of. rewrite zlen_app, zlen_map, zlen_repeat. lia. Qed.

Lemma find_none w k : cdr_find w (repeat None k) = None.
Proof. induction k; cbn [repeat cdr_find]; auto. Qed.
Lemma find_ok w reg k : match first_with w reg with
  | None => cdr_find w (map Some reg ++ repeat None k) = None
  | Some i => exists r t, w i = r :: t /\ cdr_find w (map Some reg ++ repeat None k) = Some (i, cr_meta r) end.
Proof.
  induction reg as [|i reg IH]; cbn [first_with map app cdr_find].
  - apply find_none.
  - destruct (w i) as [|r t] eqn:E; [exact IH|]. eauto.
Qed.
Lemma register_ok reg k i : cdr_register_in (map Some reg ++ repeat None k) i =
  match k with O => (false, map Some reg) | S k' => (true, map Some (reg ++ [i]) ++ repeat None k') end.
Proof.
  induction reg as [|j reg IH]; cbn [map app cdr_register_in].
  - destruct k; reflexivity.
  - rewrite IH. destruct k as [|k]; [reflexivity|]. rewrite map_app. reflexivity.
Qed.

Lemma cdr_step_ok env n max : senv_ok env -> is_u32 max -> 0 <= n -> forall w s v o y v',
  cdr_sim env n max w s v -> recs_all (rec_fits env max) w -> op_recs (rec_fits env max) o ->
  cv_step (cdr_msg env) n v o = Some (y, v') ->
  exists s', cdr_step env w s o = Some (y, cv_world v', s') /\ cdr_sim env n max (cv_world v') s' v' /\
    recs_all (rec_fits env max) (cv_world v').
Proof.
  intros HE HM Hn w s v o y v' [C1 C2 C3 C4 C5 C6] RA OR E. subst w.
  destruct v as [reg w act]. destruct s as [tab act' total m elen enc]. cbn [cv_reg cv_world cv_act cd_sources cd_active cd_total cd_meta cd_enc_len cd_enc] in *.
  subst tab act'. destruct o as [i| |off len| | |i r]; cbn [cv_step cdr_step cv_reg cv_world cv_act] in *.
  - (* register *)
    unfold cdr_register. cbn [cd_sources cd_active cd_total cd_meta cd_enc_len cd_enc]. unfold table_of. rewrite register_ok.
    destruct (zlen reg <? n) eqn:L; injection E as <- <-; cbn [cv_world].
    + destruct (Z.to_nat (n - zlen reg)) as [|k] eqn:K; [lia|].
      eexists. split; [reflexivity|]. split; [|exact RA].
      constructor; cbn [cv_reg cv_world cv_act cd_sources cd_active cd_total cd_meta cd_enc_len cd_enc]; auto.
      * rewrite zlen_app, zlen_cons. change (zlen (@nil Z)) with 0. lia.
      * unfold table_of. f_equal. f_equal. rewrite zlen_app, zlen_cons. change (zlen (@nil Z)) with 0. lia.
    + replace (Z.to_nat (n - zlen reg)) with 0%nat by lia. eexists. split; [reflexivity|]. split; [|exact RA].
      constructor; cbn [cv_reg cv_world cv_act cd_sources cd_active cd_total cd_meta cd_enc_len cd_enc]; auto.
      unfold table_of. replace (Z.to_nat (n - zlen reg)) with 0%nat by lia. cbn [repeat]. now rewrite app_nil_r.
  - (* has *)
    set (tgt := match act with Some i => Some i | None => first_with w reg end) in *.
    assert (T : match tgt with
                | None => cdr_try_get w (mk_cdr (table_of n reg) act total m elen enc) = mk_cdr (table_of n reg) None total m elen enc
                | Some i => exists r t, w i = r :: t /\ cdr_try_get w (mk_cdr (table_of n reg) act total m elen enc) =
                    mk_cdr (table_of n reg) (Some i) total (cr_meta r) elen enc end).
    { unfold cdr_try_get, tgt. cbn [cd_active cd_sources]. destruct act as [i|].
      - destruct C6 as (r & t & W & -> & _). eauto.
      - pose proof (find_ok w reg (Z.to_nat (n - zlen reg))) as F. fold (table_of n reg) in F.
        destruct (first_with w reg) as [i|]; [|now rewrite F]. destruct F as (r & t & W & ->). exists r, t. auto. }
    unfold cdr_has. destruct tgt as [i|] eqn:Et.
    + destruct T as (r & t & W & ->). rewrite W in E. injection E as <- <-. cbn [cd_active cd_enc cd_meta].
      assert (RF : rec_fits env max r) by (pose proof (RA i) as X; rewrite W in X; now inv X).
      destruct RF as (R1 & R2 & R3).
      destruct (cdr_encode env r enc HE R1) as (ok & e & enc' & Q1 & Q2 & Q3 & Q4 & Q5); [rewrite C5; exact HM|].
      rewrite Q1, Q2. cbn [bind]. destruct ok; [|exfalso; destruct Q4 as [_ Q4]; discriminate Q4; lia].
      destruct (Q5 eq_refl) as [Q6 Q7]. cbn [negb]. rewrite Q6.
      assert (EL : zlen (cdr_msg env r) = zlen (cdr_head env (cr_meta r)) + cm_size (cr_meta r)).
      { unfold cdr_msg. rewrite zlen_app. destruct R1 as (_ & _ & -> & _). reflexivity. }
      rewrite <- EL, u32_in by (pose proof (zlen_nonneg (cdr_msg env r)); lia).
      eexists. split; [reflexivity|]. split; [|exact RA].
      constructor; cbn [cv_reg cv_world cv_act cd_sources cd_active cd_total cd_meta cd_enc_len cd_enc]; auto; [lia|].
      exists r, t. split; [exact W|]. split; [reflexivity|]. split; [reflexivity|]. split; [reflexivity|].
      rewrite Q7. now rewrite take_app_exact.
    + rewrite T. cbn [cd_active]. injection E as <- <-. eexists. split; [reflexivity|]. split; [|exact RA].
      assert (act = None) as -> by (unfold tgt in Et; destruct act; [discriminate|reflexivity]).
      constructor; cbn [cv_reg cv_world cv_act cd_sources cd_active cd_total cd_meta cd_enc_len cd_enc]; auto.
  - (* read *)
    destruct (off <? 0) eqn:A1; [discriminate|]. destruct (len <? 0) eqn:A2; [discriminate|]. destruct (4294967296 <=? off + len) eqn:A3; [discriminate|].
    cbn [orb] in E. unfold cdr_read. cbn [cd_active cd_total cd_enc_len cd_enc].
    destruct act as [i|].
    2: { injection E as <- <-. eexists. split; [reflexivity|]. split; [|exact RA].
         constructor; cbn [cv_reg cv_world cv_act cd_sources cd_active cd_total cd_meta cd_enc_len cd_enc]; auto. }
    destruct C6 as (r & t & W & M1 & M2 & M3 & M4). rewrite W in E. injection E as <- <-.
    rewrite u32_in by lia. cbn [cv_world].
    assert (SIM : cdr_sim env n max w (mk_cdr (table_of n reg) (Some i) total m elen enc) (mk_cv reg w (Some i))).
    { constructor; cbn [cv_reg cv_world cv_act cd_sources cd_active cd_total cd_meta cd_enc_len cd_enc]; auto. exists r, t. auto. }
    destruct (total <? off + len) eqn:A4.
    { replace (off + len <=? zlen (cdr_msg env r)) with false by lia. cbn [bind]. eauto. }
    replace (off + len <=? zlen (cdr_msg env r)) with true by lia.
    set (h := cdr_head env (cr_meta r)) in *. pose proof (zlen_nonneg h) as Hh.
    assert (EM : cdr_msg env r = h ++ cr_data r) by reflexivity. rewrite EM in *. rewrite zlen_app in M2.
    assert (HL : zlen h <= zlen enc).
    { rewrite <- M4, zlen_take. lia. }
    unfold cdr_read_data. rewrite W.
    destruct (off <? elen) eqn:A5.
    + set (k := Z.min len (elen - off)). assert (RK : read_at enc off k = Some (take k (drop off h))).
      { rewrite read_at_some by lia. f_equal. rewrite <- M4. rewrite drop_take by lia. rewrite take_take by lia. f_equal. lia. }
      rewrite RK. cbn [bind]. destruct (len - k =? 0) eqn:A6.
      * cbn [bind]. eexists. split; [|split; [exact SIM|exact RA]]. do 4 f_equal. rewrite drop_app_le by lia.
        rewrite take_app_le by (rewrite zlen_drop; lia). do 2 f_equal. lia.
      * rewrite read_at_some by lia. cbn [bind]. eexists. split; [|split; [exact SIM|exact RA]]. do 4 f_equal.
        rewrite drop_app_le by lia. rewrite (take_app_ge len) by (rewrite zlen_drop; lia).
        rewrite drop_0. f_equal. f_equal; [apply take_all; rewrite zlen_drop; lia|]. f_equal. rewrite zlen_drop. lia.
    + rewrite read_at_some by lia. cbn [bind]. eexists. split; [|split; [exact SIM|exact RA]]. do 4 f_equal.
      rewrite drop_app_ge by lia. do 3 f_equal. lia.
  - (* mark *)
    unfold cdr_mark. cbn [cd_active cd_sources cd_enc]. destruct act as [i|]; injection E as <- <-; cbn [cv_world].
    + eexists. split; [reflexivity|]. split.
      * constructor; cbn [cv_reg cv_world cv_act cd_sources cd_active cd_total cd_meta cd_enc_len cd_enc]; auto.
        pose proof (zlen_nonneg enc). rewrite zlen_fill by lia. exact C5.
      * intros j. unfold w_set. destruct (j =? i) eqn:J; [|apply RA]. pose proof (RA i) as X. destruct (w i); [constructor|now inv X].
    + eexists. split; [reflexivity|]. split; [|exact RA].
      constructor; cbn [cv_reg cv_world cv_act cd_sources cd_active cd_total cd_meta cd_enc_len cd_enc]; auto.
  - (* reset *)
    injection E as <- <-. cbn [cv_world cd_sources cd_enc]. rewrite zlen_table by lia. rewrite C5. eexists. split; [reflexivity|]. split; [|exact RA].
    unfold cdr_init. constructor; cbn [cv_reg cv_world cv_act cd_sources cd_active cd_total cd_meta cd_enc_len cd_enc]; auto.
    + change (zlen (@nil Z)) with 0. lia.
    + unfold table_of. cbn [map app]. change (zlen (@nil Z)) with 0. f_equal. lia.
    + apply zlen_fill. unfold is_u32 in HM. lia.
  - (* a new recording *)
    injection E as <- <-. cbn [cv_world]. eexists. split; [reflexivity|]. split.
    + constructor; cbn [cv_reg cv_world cv_act cd_sources cd_active cd_total cd_meta cd_enc_len cd_enc]; auto.
      destruct act as [j|]; [|exact I]. destruct C6 as (r0 & t & W & X). unfold w_set. destruct (j =? i) eqn:J.
      * assert (j = i) as <- by lia. exists r0, (t ++ [r]). rewrite W. auto.
      * exists r0, t. auto.
    + intros j. unfold w_set. destruct (j =? i) eqn:J; [|apply RA]. apply Forall_app. split; [apply RA|]. constructor; [exact OR|constructor].
Qed.

Lemma cdr_run_ok env n max : senv_ok env -> is_u32 max -> 0 <= n -> forall ops w s v rs v',
  cdr_sim env n max w s v -> recs_all (rec_fits env max) w -> Forall (op_recs (rec_fits env max)) ops ->
  cv_run (cdr_msg env) n v ops = Some (rs, v') ->
  exists s', cdr_run env w s ops = Some (rs, cv_world v', s') /\ cdr_sim env n max (cv_world v') s' v'.
Proof.
  intros HE HM Hn. induction ops as [|o ops IH]; intros w s v rs v' S RA F E; cbn [cv_run cdr_run] in *.
  - injection E as <- <-. exists s. pose proof (cs_w _ _ _ _ _ _ S) as ->. split; [reflexivity|]. pose proof (cs_w _ _ _ _ _ _ S) as <-. exact S.
  - inv F. destruct (cv_step (cdr_msg env) n v o) as [[y v1]|] eqn:E1; [|discriminate]. cbn [bind] in E.
    destruct (cv_run (cdr_msg env) n v1 ops) as [[ys v2]|] eqn:E2; [|discriminate]. cbn [bind] in E. injection E as <- <-.
    destruct (cdr_step_ok env n max HE HM Hn w s v o y v1 S RA H1 E1) as (s1 & D1 & S1 & RA1). rewrite D1. cbn [bind].
    destruct (IH _ _ _ _ _ S1 RA1 H2 E2) as (s2 & D2 & S2). rewrite D2. cbn [bind]. eauto.
Qed.

Lemma cdr_refines env n max w : senv_ok env -> is_u32 max -> 0 <= n ->
  exists msg,
    (forall r, rec_ok r -> cbor_read (msg r) = Some (cdr_item env r, []) /\
       exists head, msg r = head ++ cr_data r) /\
    let fits r := rec_ok r /\ zlen (msg r) - zlen (cr_data r) <= max /\ zlen (msg r) < 4294967296 in
    forall ops rs v', recs_all fits w -> Forall (op_recs fits) ops ->
      cv_run msg n (mk_cv [] w None) ops = Some (rs, v') ->
      exists s, cdr_run env w (cdr_init n max) ops = Some (rs, cv_world v', s).
Proof.
  intros HE HM Hn. exists (cdr_msg env). split.
  - intros r R. split; [now apply cdr_msg_reads|]. unfold cdr_msg. eauto.
  - intros fits ops rs v' RA F E.
    assert (IMP : forall r, fits r -> rec_fits env max r).
    { intros r (A & B & C). unfold rec_fits. split; [exact A|]. split; [|exact C]. unfold cdr_msg in B. rewrite zlen_app in B. lia. }
    destruct (cdr_run_ok env n max HE HM Hn ops w (cdr_init n max) (mk_cv [] w None) rs v') as (s & D & _); auto.
    + unfold cdr_init. constructor; cbn [cv_reg cv_world cv_act cd_sources cd_active cd_total cd_meta cd_enc_len cd_enc]; auto.
      * change (zlen (@nil Z)) with 0. lia.
      * unfold table_of. cbn [map app]. change (zlen (@nil Z)) with 0. f_equal. lia.
      * apply zlen_fill. unfold is_u32 in HM. lia.
    + intros i. eapply Forall_impl; [|apply RA]. exact IMP.
    + eapply Forall_impl; [|exact F]. intros [] X; cbn in *; auto.
    + eauto.
Qed.

(* ------------------------------------------------------------ a recording that does not fit *)
Lemma string_len s : zlen s <= zlen (op_bytes (OpString s)).
Proof. unfold op_bytes. cbn [op_chunks concat]. rewrite !zlen_app. pose proof (zlen_nonneg (cbor_head 3 (u32 (zlen s)))). change (zlen (@nil Z)) with 0. lia. Qed.
Lemma reason_in_head env m : zlen (cm_reason m) <= zlen (cdr_head env m).
Proof.
  unfold cdr_head, cdr_calls. cbn [app]. rewrite ops_bytes_app, zlen_app, !ops_bytes_cons, !zlen_app, ops_bytes_app, !zlen_app, !ops_bytes_cons, !zlen_app.
  pose proof (string_len (cm_reason m)) as L. revert L. generalize (zlen (op_bytes (OpString (cm_reason m)))). intros a L.
  repeat match goal with |- context [zlen (op_bytes ?o)] => let H := fresh in pose proof (zlen_nonneg (op_bytes o)) as H; revert H; generalize (zlen (op_bytes o)); intros end.
  repeat match goal with |- context [zlen (ops_bytes ?o)] => let H := fresh in pose proof (zlen_nonneg (ops_bytes o)) as H; revert H; generalize (zlen (ops_bytes o)); intros end.
  lia.
Qed.

Definition quiet (o : cdr_op) : Prop := match o with CoHas | CoRegister _ | CoRecord _ _ => True | _ => False end.
Record stuck (max i : Z) (r : cdr_rec) (w : cdr_world) (s : cdr) : Prop := {
  sk_w : exists t, w i = r :: t;
  sk_len : zlen (cd_enc s) = max;
  sk_at : (cd_active s = Some i /\ cd_meta s = cr_meta r) \/ (cd_active s = None /\ exists t, cd_sources s = Some i :: t) }.

Lemma stuck_step env max i r : senv_ok env -> is_u32 max -> rec_ok r -> max < zlen (cm_reason (cr_meta r)) -> forall w s o,
  stuck max i r w s -> quiet o ->
  exists y w' s', cdr_step env w s o = Some (y, w', s') /\ stuck max i r w' s' /\ (forall k, y <> CrSize (Some k)).
Proof.
  intros HE HM HR BIG w s o [(t & W) L A] Q. destruct o as [j| |off len| | |j c]; try contradiction; cbn [cdr_step].
  - unfold cdr_register. destruct (cdr_register_in (cd_sources s) j) as [b tab] eqn:E. do 3 eexists. split; [reflexivity|]. split; [|discriminate].
    constructor; cbn [cd_enc cd_active cd_meta cd_sources]; [eauto|exact L|]. destruct A as [A|(A & t1 & A1)]; [now left|right].
    split; [exact A|]. rewrite A1 in E. cbn [cdr_register_in] in E. destruct (cdr_register_in t1 j). inv E. eauto.
  - assert (T : exists tab tot, cdr_try_get w s = mk_cdr tab (Some i) tot (cr_meta r) (cd_enc_len s) (cd_enc s)).
    { unfold cdr_try_get. destruct A as [(A & A1)|(A & t1 & A1)]; rewrite A.
      - destruct s. cbn in *. subst. eauto.
      - rewrite A1. cbn [cdr_find]. rewrite W. eauto. }
    destruct T as (tab & tot & T). unfold cdr_has. rewrite T. cbn [cd_active cd_enc cd_meta].
    destruct (cdr_encode env r (cd_enc s) HE HR) as (ok & e & enc & Q1 & Q2 & Q3 & Q4 & _); [now rewrite L|].
    rewrite Q1, Q2. cbn [bind]. pose proof (reason_in_head env (cr_meta r)).
    destruct ok; [exfalso; destruct Q4 as [Q4 _]; specialize (Q4 eq_refl); lia|]. cbn [negb bind].
    do 3 eexists. split; [reflexivity|]. split; [|discriminate]. constructor; cbn [cd_enc cd_active cd_meta cd_sources]; [eauto|lia|now left].
  - do 3 eexists. split; [reflexivity|]. split; [|discriminate]. constructor; auto. unfold w_set. destruct (i =? j) eqn:J; [|eauto].
    assert (i = j) as <- by lia. rewrite W. cbn [app]. eauto.
Qed.

Lemma stuck_forever env n max w i r t ops : senv_ok env -> is_u32 max -> 0 < n ->
  w i = r :: t -> rec_ok r -> max < zlen (cm_reason (cr_meta r)) -> Forall quiet ops ->
  exists rs w' s, cdr_run env w (cdr_init n max) (CoRegister i :: ops) = Some (rs, w', s) /\
    Forall (fun y => forall k, y <> CrSize (Some k)) rs.
Proof.
  intros HE HM Hn W HR BIG F. cbn [cdr_run cdr_step]. unfold cdr_register, cdr_init. cbn [cd_sources cd_active cd_total cd_meta cd_enc_len cd_enc].
  destruct (Z.to_nat n) as [|k] eqn:K; [lia|]. cbn [repeat cdr_register_in bind].
  match goal with |- context [cdr_run env w ?s0 ops] => assert (ST : stuck max i r w s0) end.
  { constructor; cbn [cd_enc cd_active cd_meta cd_sources]; [eauto|apply zlen_fill; unfold is_u32 in HM; lia|right; eauto]. }
  revert ST. generalize (mk_cdr (Some i :: repeat None k) None 0 cm_zero 0 (fill max 0)). clear W. revert w.
  assert (G : forall w c, stuck max i r w c -> exists rs w' s, cdr_run env w c ops = Some (rs, w', s) /\ Forall (fun y => forall k, y <> CrSize (Some k)) rs).
  { induction F as [|o ops Q F IH]; intros w c ST; cbn [cdr_run].
    - do 3 eexists. split; [reflexivity|constructor].
    - destruct (stuck_step env max i r HE HM HR BIG w c o ST Q) as (y & w1 & s1 & E1 & ST1 & N). rewrite E1. cbn [bind].
      destruct (IH w1 s1 ST1) as (rs & w2 & s2 & E2 & N2). rewrite E2. cbn [bind]. do 3 eexists. split; [reflexivity|]. constructor; assumption. }
  intros w c ST. destruct (G w c ST) as (rs & w2 & s2 & E2 & N2). rewrite E2. cbn [bind]. do 3 eexists. split; [reflexivity|]. constructor; [discriminate|exact N2].
Qed.

(** The documented limit of 100 characters for a reason does not make the metadata fit 128 bytes. *)
Definition refuted_env : senv := mk_senv [] [109; 97; 105; 110] [49; 46; 48] [100; 118; 116] false None 6 None.
Definition refuted_rec : cdr_rec := mk_cr (mk_cm None [fill 24 97] 3 0 (fill 100 98)) [1; 2; 3].
Lemma documented_limits_block : ~ (forall env w ops rs w' s,
  senv_ok env -> recs_all (fun r => rec_ok r /\ zlen (cm_reason (cr_meta r)) <= 100 /\ zlen (cm_mimes (cr_meta r)) <= 1) w ->
  Forall (fun o => exists i, o = CoRegister i) ops ->
  cdr_run env w (cdr_init 4 128) (ops ++ [CoHas]) = Some (rs ++ [CrSize None], w', s) ->
  forall i, In (CoRegister i) ops -> w i = []).
Proof.
  intros H. set (w := fun i : Z => if i =? 7 then [refuted_rec] else []).
  assert (E : exists w' s, cdr_run refuted_env w (cdr_init 4 128) ([CoRegister 7] ++ [CoHas]) = Some ([CrBool true] ++ [CrSize None], w', s)).
  { vm_compute. eauto. }
  destruct E as (w' & s & E).
  assert (X : w 7 = []).
  { apply (H refuted_env w [CoRegister 7] [CrBool true] w' s); [| | |exact E|now left].
    - unfold senv_ok, refuted_env. cbn [en_serial en_swtype en_swver en_hwver en_build en_build_len en_time].
      split; [|split; [lia|split; exact I]]. repeat (apply Forall_cons; [split; [unfold bytes; repeat (apply Forall_cons; [unfold is_u8; lia|]); apply Forall_nil|vm_compute; reflexivity]|]). apply Forall_nil.
    - intros i. unfold w. destruct (i =? 7); [|constructor]. constructor; [|constructor].
      split; [|split; vm_compute; discriminate]. unfold rec_ok, refuted_rec. cbn [cr_meta cr_data cm_duration cm_size cm_reason cm_mimes].
      split; [unfold is_u32; lia|]. split; [unfold is_u32; lia|]. split; [reflexivity|].
      split; [unfold bytes; repeat (apply Forall_cons; [unfold is_u8; lia|]); apply Forall_nil|].
      split; [|vm_compute; reflexivity].
      apply Forall_cons; [split; [apply bytes_fill; unfold is_u8; lia|vm_compute; reflexivity]|].
      apply Forall_cons; [split; [apply bytes_fill; unfold is_u8; lia|vm_compute; reflexivity]|]. apply Forall_nil.
    - constructor; [eauto|constructor]. }
  discriminate X.
Qed.
