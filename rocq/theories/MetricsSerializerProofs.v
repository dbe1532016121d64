(** The event of a session. *)
From Verif Require Import Base CircularBuffer Cbor CborSpec CborDoc CborProofs EventStorage EventStorageSpec EventStorageProofs
  SerializerHelper SerializerHelperSpec SerializerHelperProofs SerializerDocs Metrics MetricsSpec MetricsProofs
  MetricsSerializer MetricsSerializerSpec.

Fixpoint am_entries (defs : list mdef) (a : list aval) : list mentry :=
  match defs, a with
  | d :: ds, v :: vs => (md_session d, md_type d, a_item d v) :: am_entries ds vs
  | _, _ => []
  end.
Lemma entries_ok defs s a : mrel defs s a -> me_entries defs s = Some (am_entries defs a).
Proof.
  intros R. unfold me_entries.
  enough (H : forall ds dpre, defs = dpre ++ ds -> forall vs vpre, a = vpre ++ vs -> zlen vpre = zlen dpre ->
            me_entries_from defs s (length ds) (zlen dpre) = Some (am_entries ds vs)).
  { exact (H defs [] eq_refl a [] eq_refl eq_refl). }
  induction ds as [|d ds IH]; intros dpre D vs vpre A L; [reflexivity|].
  assert (G : get defs (zlen dpre) = Some d) by (rewrite D, get_app2 by lia; rewrite Z.sub_diag; reflexivity).
  destruct vs as [|v vs].
  { exfalso. pose proof (mr_len _ _ _ R) as LL. rewrite D, A, !zlen_app, zlen_cons, zlen_nil in LL. pose proof (zlen_nonneg ds). lia. }
  assert (GA : get a (zlen dpre) = Some v) by (rewrite A, get_app2 by lia; rewrite L, Z.sub_diag; reflexivity).
  destruct (item_ok defs s a _ d v R G GA) as (info & F & MD & IT).
  cbn [length me_entries_from am_entries]. rewrite F. cbn [bind]. rewrite IT. cbn [bind].
  specialize (IH (dpre ++ [d])). rewrite zlen_app in IH. change (zlen [d]) with 1 in IH.
  rewrite (IH ltac:(rewrite <- app_assoc; exact D) vs (vpre ++ [v])).
  - cbn [bind]. rewrite MD. reflexivity.
  - rewrite <- app_assoc. exact A.
  - rewrite !zlen_app. change (zlen [v]) with 1. lia.
Qed.

(** What is written of a list of entries. *)
Definition item_doc (x : mitem) : doc :=
  match x with IUnsigned v => DUnsigned v | ISigned v => DSigned v | Metrics.INull => DNull | Metrics.IText c => DString c end.
Fixpoint picked (session : Z) (worst : bool) (l : list mentry) : list mitem :=
  match l with
  | [] => []
  | (k, t, x) :: r => if k =? session then w_item worst t x :: picked session worst r else picked session worst r
  end.
Lemma item_doc_ops x : doc_ops (item_doc x) = [item_op x].
Proof. destruct x; reflexivity. Qed.
Lemma item_doc_value x : doc_value (item_doc x) = m_value x.
Proof. destruct x; reflexivity. Qed.
Lemma picked_items defs : forall a session, picked session false (am_entries defs a) = am_items defs a session.
Proof.
  induction defs as [|d ds IH]; intros [|v vs] session; try reflexivity.
  cbn [am_entries picked am_items w_item]. rewrite IH. destruct (md_session d =? session); reflexivity.
Qed.
Lemma num_picked session worst l : num_metrics session l = zlen (picked session worst l).
Proof.
  induction l as [|[[k t] x] r IH]; [reflexivity|]. cbn [num_metrics picked]. rewrite IH.
  destruct (k =? session); [rewrite zlen_cons|]; lia.
Qed.
Lemma writers_run session worst l : forall ok e, (ok = true \/ l <> []) ->
  eprog_run e (e_writers session worst ok l) = cbor_seq e (map item_op (picked session worst l)).
Proof.
  induction l as [|[[k t] x] r IH]; intros ok e H.
  - destruct H as [->|H]; [reflexivity|congruence].
  - cbn [e_writers picked]. destruct (k =? session).
    + cbn [eprog_run map cbor_seq]. destruct (cbor_do e (item_op (w_item worst t x))) as [[|] e1]; [|reflexivity].
      apply IH. now left.
    + apply IH. now left.
Qed.

Definition session_info (session : Z) (l : list mitem) : doc :=
  DMap [dkv 2 (DUnsigned session); dkv 1 (DArray (map item_doc l))].
Definition session_doc (env : senv) (session : Z) (l : list mitem) : doc :=
  event_doc env 1 (en_time env) (session_info session l).
Lemma flat_items l : flat_map doc_ops (map item_doc l) = map item_op l.
Proof. induction l as [|x r IH]; [reflexivity|]. cbn [map flat_map]. rewrite item_doc_ops, IH. reflexivity. Qed.
Lemma session_info_ops session l : doc_ops (session_info session l) =
  [OpDict 2; OpUnsigned 2; OpUnsigned session; OpUnsigned 1; OpArray (zlen l)] ++ map item_op l.
Proof.
  unfold session_info, dkv. cbn [doc_ops flat_map fst snd app]. rewrite flat_items, zlen_map, app_nil_r. reflexivity.
Qed.
Lemma runs_session env worst session l : l <> [] ->
  runs (e_session env worst session l) (doc_ops (session_doc env session (picked session worst l))).
Proof.
  intros NE. unfold session_doc. rewrite event_doc_ops, session_info_ops. unfold e_session. apply runs_and; [apply runs_meta|].
  rewrite (num_picked session worst).
  change (OpUnsigned 4 :: [OpDict 2; OpUnsigned 2; OpUnsigned session; OpUnsigned 1; OpArray (zlen (picked session worst l))] ++ map item_op (picked session worst l))
    with ([OpUnsigned 4; OpDict 2; OpUnsigned 2; OpUnsigned session; OpUnsigned 1; OpArray (zlen (picked session worst l))] ++ map item_op (picked session worst l)).
  apply runs_and; [apply runs_all|]. intros e _ _. apply writers_run. now right.
Qed.
Lemma session_doc_value env session l : doc_value (session_doc env session l) = session_item env session l.
Proof.
  unfold session_doc, session_item. rewrite event_doc_value. f_equal. unfold session_info, dkv. cbn [doc_value map fst snd].
  do 4 f_equal. rewrite map_map. f_equal. apply map_ext. exact item_doc_value.
Qed.

(** Items in the range of their types. *)
Definition mitem_ok (x : mitem) : Prop :=
  match x with IUnsigned v => is_u32 v | ISigned v => is_s32 v | Metrics.INull => True | Metrics.IText c => bytes c /\ zlen c < 65536 end.
Lemma item_doc_ok x : mitem_ok x -> doc_ok (item_doc x).
Proof.
  destruct x; cbn [mitem_ok item_doc doc_ok]; try trivial.
  intros [_ H]. pose proof (zlen_nonneg c). unfold is_u32. lia.
Qed.
Lemma session_doc_ok env session l : senv_ok env -> is_u32 session -> zlen l < 60000 -> Forall mitem_ok l -> doc_ok (session_doc env session l).
Proof.
  intros HE HS HL F. apply event_doc_ok; [exact HE|unfold is_u32; lia|]. unfold session_info, dkv. cbn [doc_ok fst snd].
  split; [unfold is_u32; rewrite !zlen_cons; change (zlen (@nil (doc * doc))) with 0; lia|].
  split; [split; [unfold is_u32; lia|exact HS]|]. split; [|exact I]. split; [unfold is_u32; lia|].
  rewrite zlen_map. pose proof (zlen_nonneg l). split; [unfold is_u32; lia|]. clear - F.
  induction F as [|x r H F IH]; cbn [map]; [exact I|]. split; [now apply item_doc_ok|exact IH].
Qed.
Lemma charz_bytes c : Forall charz c -> bytes c.
Proof. intros F. unfold bytes. eapply Forall_impl; [|exact F]. intros x H. unfold charz, is_char in H. unfold is_u8. lia. Qed.
Lemma a_item_ok defs s a i d v : mrel defs s a -> get defs i = Some d -> get a i = Some v -> 0 <= md_range d < 65536 -> mitem_ok (a_item d v).
Proof.
  intros R G GA RG. pose proof (mr_each _ _ _ R _ _ _ G GA) as M. unfold a_item, m_ok in *.
  destruct (md_type d), v as [o|t r|c]; try contradiction; cbn [mitem_ok].
  - destruct M as (_ & M & _). destruct o; [exact M|exact I].
  - destruct M as (_ & M & _). destruct o; [exact M|exact I].
  - unfold is_u32. apply Z.mod_pos_bound. lia.
  - destruct M as (junk & _ & L & F). pose proof (zlen_nonneg junk). split; [now apply charz_bytes|lia].
Qed.
Lemma am_entries_get : forall defs a i e, get (am_entries defs a) i = Some e -> exists d v, get defs i = Some d /\ get a i = Some v /\ e = (md_session d, md_type d, a_item d v).
Proof.
  assert (N0 : forall i (e : mentry), get [] i = Some e -> False).
  { intros i e H. apply get_range in H. change (zlen (@nil mentry)) with 0 in H. lia. }
  induction defs as [|d ds IH]; intros [|v vs] i e H; cbn [am_entries] in H; try (destruct (N0 _ _ H)).
  destruct (Z.eq_dec i 0) as [->|N].
  - rewrite get_cons_0 in H. inv H. exists d, v. rewrite !get_cons_0. auto.
  - assert (0 < i) by (apply get_range in H; lia). rewrite get_cons_S in H by lia.
    destruct (IH vs (i - 1) e H) as (d' & v' & G1 & G2 & E). exists d', v'. rewrite !get_cons_S by lia. auto.
Qed.
Lemma entries_items_ok defs s a : mrel defs s a -> table_ok defs -> Forall (fun e : mentry => mitem_ok (snd e)) (am_entries defs a).
Proof.
  intros R (_ & _ & F). apply Forall_get. intros i e H. destruct (am_entries_get _ _ _ _ H) as (d & v & G & GA & ->). cbn [snd].
  apply (a_item_ok defs s a i d v R G GA). rewrite Forall_forall in F. apply F. eapply get_in; exact G.
Qed.
Lemma picked_ok session worst l : Forall (fun e : mentry => mitem_ok (snd e)) l -> Forall mitem_ok (picked session worst l).
Proof.
  induction 1 as [|[[k t] x] r H F IH]; cbn [picked]; [apply Forall_nil|].
  destruct (k =? session); [apply Forall_cons; [|exact IH]|exact IH]. cbn [snd] in H. unfold w_item.
  destruct worst; [|exact H]. destruct t; cbn; unfold is_u32, is_s32; try lia. exact H.
Qed.
Lemma picked_len session worst l : zlen (picked session worst l) <= zlen l.
Proof. induction l as [|[[k t] x] r IH]; [reflexivity|]. cbn [picked]. destruct (k =? session); rewrite ?zlen_cons; lia. Qed.
Lemma am_entries_len : forall defs a, zlen (am_entries defs a) <= zlen defs.
Proof.
  induction defs as [|d ds IH]; intros [|v vs]; cbn [am_entries]; rewrite ?zlen_cons; try reflexivity.
  - change (zlen (@nil mentry)) with 0. pose proof (zlen_nonneg ds). lia.
  - specialize (IH vs). lia.
Qed.
Lemma entries_nonempty defs s a : mrel defs s a -> table_ok defs -> am_entries defs a <> [].
Proof.
  intros R (NE & _). pose proof (mr_len _ _ _ R) as L. destruct defs as [|d ds]; [congruence|]. destruct a as [|v vs]; [|discriminate].
  rewrite zlen_cons in L. change (zlen (@nil aval)) with 0 in L. pose proof (zlen_nonneg ds). lia.
Qed.
Lemma eok_session env worst session l : senv_ok env -> Forall (fun e : mentry => mitem_ok (snd e)) l -> eprog_ok (e_session env worst session l).
Proof.
  intros HE F. unfold e_session. apply eok_and; [now apply eok_meta|]. apply eok_and; [eok|].
  enough (forall ok, eprog_ok (e_writers session worst ok l)) by auto. induction F as [|[[k t] x] r H F IH]; intros ok; [exact I|].
  cbn [e_writers]. destruct (k =? session); [|apply IH]. cbn [eprog_ok]. cbn [snd] in H.
  assert (O : opd_ok (item_op (w_item worst t x))).
  { unfold w_item. destruct worst; [destruct t|]; try (apply opd_none; reflexivity);
      (destruct x; try (apply opd_none; reflexivity); destruct H; split; cbn [op_data item_op]; [assumption|lia]). }
  destruct O as [O1 O2]. split; [exact O1|]. split; [exact O2|]. intros [|]; [apply IH|exact I].
Qed.
Lemma session_size env session l : senv_ok env -> zlen l < 60000 -> Forall mitem_ok l ->
  doc_size (session_doc env session l) < 4294967296.
Proof.
  intros HE HL F. unfold doc_size, session_doc. rewrite event_doc_ops, ops_bytes_app, zlen_app, ops_bytes_cons, zlen_app.
  change (zlen (op_bytes (OpUnsigned 4))) with 1. pose proof (meta_len env 1 (en_time env) HE).
  pose proof (ops_bytes_len (doc_ops (session_info session l))) as B. rewrite session_info_ops in *.
  assert (calls_bound (map item_op l) <= 65544 * zlen l).
  { clear - F. induction F as [|x r H F IH]; [reflexivity|]. cbn [map]. rewrite zlen_cons. unfold calls_bound in *. cbn [fold_right].
    assert (zlen (op_data (item_op x)) < 65536).
    { destruct x; cbn [item_op op_data]; try (change (zlen (@nil Z)) with 0; lia). destruct H; assumption. }
    lia. }
  assert (calls_bound ([OpDict 2; OpUnsigned 2; OpUnsigned session; OpUnsigned 1; OpArray (zlen l)] ++ map item_op l) = 45 + calls_bound (map item_op l)).
  { unfold calls_bound. cbn [app fold_right op_data]. change (zlen (@nil Z)) with 0. lia. }
  lia.
Qed.

(** C52 *)
Lemma session_event cfg storage ops rs v defs timers mops mrs a env session :
  0 < zlen storage <= 2147483648 -> Forall shop_ok ops ->
  ssv_run cfg (zlen storage) (mk_ssv (mk_sev [] None 0) 0) ops = Some (rs, v) -> v_part (q_store v) = None ->
  table_ok defs -> am_run defs timers (am_init defs) mops = Some (mrs, a) -> senv_ok env -> is_u32 session ->
  exists ms l, me_run defs timers (ms_init defs) mops = Some (mrs, ms) /\ me_entries defs ms = Some l /\
    let p := e_session env false session l in
    (sh_compute_size p <= 65532 ->
     exists s b s' v', es_boot storage (zlen storage) = Some (Some s) /\
       sh_run cfg (mk_sh s 0 0) (ops ++ [SEncode p]) = Some (rs ++ [RSaved b], s') /\
       ssv_run cfg (zlen storage) (mk_ssv (mk_sev [] None 0) 0) (ops ++ [SEncode p]) = Some (rs ++ [RSaved b], v') /\
       (b = true <-> used (q_store v) + 2 + sh_compute_size p <= zlen storage) /\
       (b = true -> exists ev, v' = mk_ssv (mk_sev (v_events (q_store v) ++ [ev]) None (v_reading (q_store v))) (q_missed v) /\
          zlen ev = sh_compute_size p /\ cbor_read ev = Some (session_item env session (am_items defs a session), [])) /\
       (b = false -> v' = mk_ssv (q_store v) (q_missed v + 1))).
Proof.
  intros HS HO HR P HT HM HE HK.
  assert (MD : mdefs_ok defs). { destruct HT as (_ & _ & F). unfold mdefs_ok. eapply Forall_impl; [|exact F]. intros d H. cbn beta in *. lia. }
  destruct (me_run_ok defs timers MD mops _ _ _ _ (me_init_ok defs MD) HM) as (ms & RM & MR).
  exists ms, (am_entries defs a). split; [exact RM|]. split; [now apply entries_ok|]. intros p SZ.
  pose proof (entries_items_ok _ _ _ MR HT) as EI. pose proof (entries_nonempty _ _ _ MR HT) as NE.
  pose proof (am_entries_len defs a). pose proof (picked_len session false (am_entries defs a)). destruct HT as (_ & HL & _).
  pose proof (picked_ok session false _ EI) as PO.
  pose proof (runs_session env false session _ NE) as R.
  assert (ZP : zlen (picked session false (am_entries defs a)) < 60000) by lia.
  pose proof (session_size env session _ HE ZP PO) as DS.
  pose proof (runs_size _ _ R DS) as RS. unfold p in SZ. rewrite RS in SZ. fold (doc_size (session_doc env session (picked session false (am_entries defs a)))) in SZ.
  destruct (doc_in_history cfg storage ops rs v p _ HS HO HR P R (eok_session _ _ _ _ HE EI) (session_doc_ok _ _ _ HE HK ZP PO) SZ)
    as (s & b & s' & v' & A1 & A2 & A3 & A4 & A5). rewrite session_doc_value, picked_items in A5. exists s, b, s', v'. auto.
Qed.

(** The worst case. *)
Lemma head_le5 mt v : 0 <= v -> zlen (cbor_head mt v) <= zlen (cbor_head mt 4294967295).
Proof. intros. change (zlen (cbor_head mt 4294967295)) with 5. pose proof (cbor_head_len mt v). lia. Qed.
Lemma picked_worst session l1 : forall l2, Forall (fun e : mentry => mitem_ok (snd e)) l1 ->
  map fst l1 = map fst l2 -> Forall (fun e : mentry => fst (fst e) = session -> snd (fst e) <> MString) l1 ->
  (forall e, In e l1 -> match snd (fst e), snd e with MString, _ => True | _, Metrics.IText _ => False | _, _ => True end) ->
  zlen (ops_bytes (map item_op (picked session false l1))) <= zlen (ops_bytes (map item_op (picked session true l2))) /\
  zlen (picked session false l1) = zlen (picked session true l2).
Proof.
  induction l1 as [|[[k t] x] r IH]; intros [|[[k2 t2] x2] r2] F M N T; try discriminate; [split; reflexivity|].
  cbn [map fst] in M. injection M as E1 E2 M. subst k2 t2. inv F. inv N. cbn [snd fst] in *.
  destruct (IH r2 H2 M H4 (fun e H => T e (or_intror H))) as [I1 I2]. cbn [picked]. destruct (k =? session) eqn:K; [|split; assumption].
  apply Z.eqb_eq in K. specialize (H3 K). specialize (T _ (or_introl eq_refl)). cbn [fst snd] in T.
  cbn [map]. rewrite !ops_bytes_cons, !zlen_app, !zlen_cons. split; [|lia].
  enough (zlen (op_bytes (item_op (w_item false t x))) <= zlen (op_bytes (item_op (w_item true t x2)))) by lia.
  assert (W : zlen (op_bytes (item_op (w_item true t x2))) = 5) by (destruct t; try reflexivity; congruence). rewrite W.
  cbn [w_item]. destruct x; cbn [item_op mitem_ok] in *.
  - unfold op_bytes. cbn [op_chunks concat]. rewrite app_nil_r. apply cbor_head_len.
  - rewrite signed_chunk by assumption. apply cbor_head_len.
  - discriminate.
  - destruct t; try contradiction; congruence.
Qed.

Lemma am_entries_fst : forall defs a b, zlen a = zlen defs -> zlen b = zlen defs -> map fst (am_entries defs a) = map fst (am_entries defs b).
Proof.
  induction defs as [|d ds IH]; intros [|v vs] [|w ws] L1 L2; try reflexivity; rewrite ?zlen_cons in *;
    try (change (zlen (@nil aval)) with 0 in *; pose proof (zlen_nonneg ds); lia).
  cbn [am_entries map fst]. f_equal. apply IH; lia.
Qed.
Lemma am_entries_type defs s a e : mrel defs s a -> In e (am_entries defs a) ->
  match snd (fst e), snd e with MString, _ => True | _, Metrics.IText _ => False | _, _ => True end.
Proof.
  intros R I. apply In_nth_error in I as (n & N).
  destruct (am_entries_get defs a (Z.of_nat n) e) as (d & v & G & GA & ->).
  { unfold get. replace (Z.of_nat n <? 0) with false by lia. now rewrite Nat2Z.id. }
  pose proof (mr_each _ _ _ R _ _ _ G GA) as M. cbn [fst snd]. unfold a_item, m_ok in *.
  destruct (md_type d), v as [o|t r|c]; try contradiction; try (destruct o); exact I.
Qed.
Lemma session_len env session l : zlen (ops_bytes (doc_ops (session_doc env session l))) =
  zlen (ops_bytes (meta_ops env 1 (en_time env))) + 4 + zlen (cbor_head 0 session) + zlen (cbor_head 4 (zlen l)) + zlen (ops_bytes (map item_op l)).
Proof.
  unfold session_doc. rewrite event_doc_ops, session_info_ops, ops_bytes_app, zlen_app.
  rewrite ops_bytes_cons, zlen_app, ops_bytes_app, zlen_app. rewrite !ops_bytes_cons, !zlen_app.
  change (zlen (op_bytes (OpUnsigned 4))) with 1. change (zlen (op_bytes (OpDict 2))) with 1. change (zlen (op_bytes (OpUnsigned 2))) with 1.
  change (zlen (op_bytes (OpUnsigned 1))) with 1. change (zlen (ops_bytes [])) with 0. rewrite u_len.
  replace (zlen (op_bytes (OpArray (zlen l)))) with (zlen (cbor_head 4 (zlen l))) by (unfold op_bytes; cbn [op_chunks concat]; rewrite app_nil_r; reflexivity).
  lia.
Qed.
Lemma session_worst env session defs timers ops1 ops2 rs1 rs2 a1 a2 : table_ok defs -> no_strings session defs -> senv_ok env ->
  am_run defs timers (am_init defs) ops1 = Some (rs1, a1) -> am_run defs timers (am_init defs) ops2 = Some (rs2, a2) ->
  exists s1 s2 l1 l2, me_run defs timers (ms_init defs) ops1 = Some (rs1, s1) /\ me_run defs timers (ms_init defs) ops2 = Some (rs2, s2) /\
    me_entries defs s1 = Some l1 /\ me_entries defs s2 = Some l2 /\
    sh_compute_size (e_session env false session l1) <= session_worst_size env session l2.
Proof.
  intros HT NS HE H1 H2.
  assert (MD : mdefs_ok defs). { destruct HT as (_ & _ & F). unfold mdefs_ok. eapply Forall_impl; [|exact F]. intros d H. cbn beta in *. lia. }
  destruct (me_run_ok defs timers MD ops1 _ _ _ _ (me_init_ok defs MD) H1) as (s1 & R1 & M1).
  destruct (me_run_ok defs timers MD ops2 _ _ _ _ (me_init_ok defs MD) H2) as (s2 & R2 & M2).
  exists s1, s2, (am_entries defs a1), (am_entries defs a2).
  split; [exact R1|]. split; [exact R2|]. split; [now apply entries_ok|]. split; [now apply entries_ok|].
  pose proof (entries_items_ok _ _ _ M1 HT) as E1. pose proof (entries_items_ok _ _ _ M2 HT) as E2.
  pose proof (entries_nonempty _ _ _ M1 HT) as N1. pose proof (entries_nonempty _ _ _ M2 HT) as N2.
  pose proof (am_entries_len defs a1). pose proof (am_entries_len defs a2). destruct HT as (_ & HL & _).
  pose proof (picked_len session false (am_entries defs a1)). pose proof (picked_len session true (am_entries defs a2)).
  assert (Z1 : zlen (picked session false (am_entries defs a1)) < 60000) by lia.
  assert (Z2 : zlen (picked session true (am_entries defs a2)) < 60000) by lia.
  unfold session_worst_size.
  rewrite (runs_size _ _ (runs_session env false session _ N1) (session_size env session _ HE Z1 (picked_ok _ _ _ E1))).
  rewrite (runs_size _ _ (runs_session env true session _ N2) (session_size env session _ HE Z2 (picked_ok _ _ _ E2))).
  rewrite !session_len.
  destruct (picked_worst session (am_entries defs a1) (am_entries defs a2)) as [W1 W2].
  - exact E1.
  - apply am_entries_fst; [exact (mr_len _ _ _ M1)|exact (mr_len _ _ _ M2)].
  - apply Forall_get. intros i e G. destruct (am_entries_get _ _ _ _ G) as (d & v & GD & _ & ->). cbn [fst snd].
    unfold no_strings in NS. rewrite Forall_forall in NS. apply NS. eapply get_in; exact GD.
  - intros e I. eapply am_entries_type; [exact M1|exact I].
  - rewrite W2. lia.
Qed.
