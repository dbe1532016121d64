(** Encode callbacks that amount to one chain of calls, and the documents they write. *)
From Verif Require Import Base CircularBuffer Cbor CborSpec CborDoc CborProofs EventStorage EventStorageSpec EventStorageProofs
  SerializerHelper SerializerHelperSpec SerializerHelperProofs.

Definition enc_any (e : cbor_enc) : Prop := (ce_size_only e = true /\ 0 <= ce_size e) \/ enc_wf e.
Definition runs (p : eprog) (ops : list cbor_op) : Prop := forall e, enc_any e ->
  ce_size e + zlen (ops_bytes ops) < 4294967296 -> eprog_run e p = cbor_seq e ops.

Lemma seq_app a b : forall e, cbor_seq e (a ++ b) = let (t, e1) := cbor_seq e a in if t then cbor_seq e1 b else (false, e1).
Proof.
  induction a as [|o a IH]; intros e; cbn [app cbor_seq]; [reflexivity|].
  destruct (cbor_do e o) as [[|] e1]; [apply IH|reflexivity].
Qed.
Lemma seq_any ops e : enc_any e -> ce_size e + zlen (ops_bytes ops) < 4294967296 ->
  exists b e', cbor_seq e ops = (b, e') /\ enc_any e' /\ (b = true -> ce_size e' = ce_size e + zlen (ops_bytes ops)).
Proof.
  intros [[S P]|W] H.
  - rewrite cbor_seq_size_only by assumption. eexists _, _. split; [reflexivity|]. cbn [ce_size ce_size_only]. split; [|reflexivity].
    left. cbn. pose proof (zlen_nonneg (ops_bytes ops)). split; [reflexivity|lia].
  - destruct (cbor_seq_ok ops e W H) as (b & e' & o & E & W' & L & B & O & T & _). exists b, e'. split; [exact E|]. split; [now right|].
    intros Hb. rewrite (ew_size _ W'), O, zlen_app, <- (ew_size _ W), (T Hb). reflexivity.
Qed.
Lemma runs_all ops : runs (e_all ops) ops.
Proof. intros e _ _. apply run_all. Qed.
Lemma runs_ret : runs (ERet true) [].
Proof. intros e _ _. reflexivity. Qed.
Lemma runs_and p q a b : runs p a -> runs q b -> runs (e_and p q) (a ++ b).
Proof.
  intros P Q e A H. rewrite ops_bytes_app, zlen_app in H. pose proof (zlen_nonneg (ops_bytes b)).
  rewrite run_and, seq_app, P by (assumption || lia).
  destruct (seq_any a e A ltac:(lia)) as (t & e1 & E & A1 & S1). rewrite E. destruct t; [|reflexivity].
  apply Q; [assumption|]. rewrite S1 by reflexivity. lia.
Qed.
Lemma runs_if (c : bool) p ops : runs p ops -> runs (if c then p else ERet true) (if c then ops else []).
Proof. intros H. destruct c; [exact H|apply runs_ret]. Qed.
Lemma runs_unless (c : bool) p ops : runs p ops -> runs (if c then ERet true else p) (if c then [] else ops).
Proof. intros H. destruct c; [apply runs_ret|exact H]. Qed.

(** A dictionary head of one byte whose result is ignored: when it is refused, so is what follows. *)
Lemma runs_dict n k r q : n < 24 -> runs q (OpUnsigned k :: r) -> runs (ECall (OpDict n) (fun _ => q)) (OpDict n :: OpUnsigned k :: r).
Proof.
  intros Hn Q e A H. cbn [eprog_run]. set (tl := OpUnsigned k :: r) in *. cbn [cbor_seq].
  assert (HB : op_bytes (OpDict n) = [u8 (cbor_mt 5 + u8 n)]).
  { unfold op_bytes. cbn [op_chunks concat app]. unfold cbor_head. cbv zeta. replace (n <? 24) with true by lia. reflexivity. }
  rewrite ops_bytes_cons, zlen_app, HB in H. rewrite zlen_cons in H. change (zlen (@nil Z)) with 0 in H. pose proof (zlen_nonneg (ops_bytes tl)).
  destruct A as [[S P]|W].
  - destruct (seq_any [OpDict n] e (or_introl (conj S P))) as (t & e1 & E & A1 & S1).
    { rewrite ops_bytes_cons. change (ops_bytes []) with (@nil Z). rewrite app_nil_r, HB. change (zlen [u8 (cbor_mt 5 + u8 n)]) with 1. lia. }
    pose proof (cbor_seq_size_only [OpDict n] e S P) as X. cbn [cbor_seq] in E, X. 
    rewrite ops_bytes_cons in S1, X. change (ops_bytes []) with (@nil Z) in S1, X. rewrite app_nil_r, HB in S1, X. change (zlen [u8 (cbor_mt 5 + u8 n)]) with 1 in S1, X.
    destruct (cbor_do e (OpDict n)) as [[|] e2]; [|specialize (X ltac:(lia)); discriminate].
    inv E. apply Q; [exact A1|]. rewrite S1 by reflexivity. lia.
  - pose proof (add_ok e [u8 (cbor_mt 5 + u8 n)] W ltac:(change (zlen [u8 (cbor_mt 5 + u8 n)]) with 1; lia)) as (b & e1 & E & W1 & L1 & B1 & O1 & _ & F1).
    change (zlen [u8 (cbor_mt 5 + u8 n)]) with 1 in B1.
    assert (ED : cbor_do e (OpDict n) = (b, e1)).
    { rewrite cbor_do_adds. unfold op_bytes in HB. cbn [op_chunks concat app] in HB |- *. rewrite adds_1. rewrite app_nil_r in HB. now rewrite HB. }
    rewrite ED. destruct b.
    + apply Q; [now right|]. rewrite (ew_size _ W1), O1, zlen_app, <- (ew_size _ W). change (zlen [u8 (cbor_mt 5 + u8 n)]) with 1. lia.
    + rewrite (F1 eq_refl) in *. rewrite Q by (try (now right); lia). unfold tl. cbn [cbor_seq]. rewrite cbor_do_adds. cbn [op_chunks]. rewrite adds_1.
      unfold tl in H0, H. rewrite ops_bytes_cons, zlen_app in H. pose proof (zlen_nonneg (ops_bytes r)).
      assert (LK : zlen (op_bytes (OpUnsigned k)) = zlen (cbor_head 0 k)) by (unfold op_bytes; cbn [op_chunks concat]; now rewrite app_nil_r).
      destruct (add_ok e (cbor_head 0 k) W ltac:(lia)) as (b & e2 & E2 & _ & _ & B2 & _ & _ & F2). rewrite E2.
      pose proof (cbor_head_len 0 k). destruct b; [|now rewrite (F2 eq_refl)].
      exfalso. destruct B1 as [_ B1]. destruct B2 as [B2 _]. specialize (B2 eq_refl). assert (X : false = true) by (apply B1; lia). discriminate.
Qed.

(** ** The metadata *)
Definition time_ops (time : option Z) : list cbor_op := match time with Some t => [OpUnsigned 1; OpUnsigned (u32 t)] | None => [] end.
Definition meta_ops (env : senv) (type : Z) (time : option Z) : list cbor_op :=
  let pairs := 1 + (match time with Some _ => 1 | None => 0 end) + (if en_with_serial env then 1 else 0) + 3
               + (match en_build env with Some _ => 1 | None => 0 end) + 1 + 1 in
  OpDict pairs :: [OpUnsigned 2; OpUnsigned type] ++ [OpUnsigned 3; OpUnsigned 1]
  ++ ((if en_with_serial env then [OpUnsigned 7; OpString (en_serial env)] else [])
  ++ [OpUnsigned 10; OpString (en_swtype env)] ++ [OpUnsigned 9; OpString (en_swver env)] ++ [OpUnsigned 6; OpString (en_hwver env)])
  ++ (match en_build env with Some id => [OpUnsigned 11; OpBytes (take (en_build_len env) id)] | None => [] end)
  ++ time_ops time.
Lemma runs_meta env type time : runs (e_metadata_with_time env type time) (meta_ops env type time).
Proof.
  unfold e_metadata_with_time, meta_ops. cbv zeta. cbn [app]. apply runs_dict.
  { destruct time, (en_with_serial env), (en_build env); lia. }
  refine (runs_and _ _ [_; _] _ (runs_all _) _). refine (runs_and _ _ [_; _] _ (runs_all _) _).
  refine (runs_and _ _ (_ ++ [_; _; _; _; _; _]) _ _ _).
  - unfold e_device. apply runs_and; [apply runs_if, runs_all|].
    refine (runs_and _ _ [_; _] _ (runs_all _) _). refine (runs_and _ _ [_; _] _ (runs_all _) _). apply runs_all.
  - apply runs_and; [destruct (en_build env); [apply runs_all|apply runs_ret]|destruct time; [apply runs_all|apply runs_ret]].
Qed.

Definition dkv (k : Z) (d : doc) : doc * doc := (DUnsigned k, d).
Definition event_doc (env : senv) (type : Z) (time : option Z) (info : doc) : doc :=
  DMap ([dkv 2 (DUnsigned type); dkv 3 (DUnsigned 1)]
        ++ (if en_with_serial env then [dkv 7 (DString (en_serial env))] else [])
        ++ [dkv 10 (DString (en_swtype env)); dkv 9 (DString (en_swver env)); dkv 6 (DString (en_hwver env))]
        ++ (match en_build env with Some id => [dkv 11 (DBytes (take (en_build_len env) id))] | None => [] end)
        ++ (match time with Some t => [dkv 1 (DUnsigned (u32 t))] | None => [] end)
        ++ [dkv 4 info]).
Lemma event_doc_ops env type time info : doc_ops (event_doc env type time info) = meta_ops env type time ++ OpUnsigned 4 :: doc_ops info.
Proof.
  unfold event_doc, meta_ops, time_ops, dkv. destruct (en_with_serial env), (en_build env), time;
    cbn [app doc_ops flat_map fst snd]; rewrite app_nil_r; reflexivity.
Qed.
Lemma event_doc_value env type time info : doc_value (event_doc env type time info) = event_item env type time (doc_value info).
Proof.
  unfold event_doc, event_item, kv_if, kv_opt, dkv. destruct (en_with_serial env), (en_build env), time; reflexivity.
Qed.
Definition time_ok (time : option Z) : Prop := match time with Some t => 0 <= t | None => True end.
Lemma event_doc_ok env type time info : senv_ok env -> is_u32 type -> doc_ok info -> doc_ok (event_doc env type time info).
Proof.
  intros (F & HB & HI & _) HT HD. inv F. inv H2. inv H4. inv H5. unfold is_u32 in HT.
  assert (U : forall t, is_u32 (u32 t)) by apply u32_range.
  assert (ZB : forall id : list Z, 0 <= zlen (take (en_build_len env) id) < 4294967296).
  { intros id. rewrite zlen_take. pose proof (zlen_nonneg id). lia. }
  unfold event_doc, dkv.
  destruct (en_with_serial env), (en_build env), time; cbn [app doc_ok fst snd];
    (split; [unfold is_u32; rewrite ?zlen_cons; change (zlen (@nil (doc * doc))) with 0; lia|]);
    repeat match goal with |- _ /\ _ => split end; try exact I; try apply U; try exact HD;
    unfold is_u32; try apply ZB; try lia;
    repeat match goal with H : bytes ?x /\ zlen ?x < _ |- _ => destruct H end;
    match goal with |- 0 <= zlen ?x < _ => pose proof (zlen_nonneg x); lia end.
Qed.

(** ** Trace events *)
Definition trace_pairs (reason_key reason pc lr : Z) : list (doc * doc) :=
  dkv reason_key (DUnsigned reason) :: (if pc =? 0 then [] else [dkv 2 (DUnsigned pc)]) ++ (if lr =? 0 then [] else [dkv 3 (DUnsigned lr)]).
Definition pair_ops (l : list (doc * doc)) : list cbor_op := flat_map (fun kv => doc_ops (fst kv) ++ doc_ops (snd kv)) l.
Lemma pair_ops_app a b : pair_ops (a ++ b) = pair_ops a ++ pair_ops b.
Proof. apply flat_map_app. Qed.
Lemma runs_trace env rk r pc lr more p : zlen more < 4294967290 -> runs p (pair_ops more) ->
  runs (e_and (e_trace env rk r pc lr (zlen more)) p)
       (doc_ops (event_doc env 2 (en_time env) (DMap (trace_pairs rk r pc lr ++ more)))).
Proof.
  intros HM HP. rewrite event_doc_ops. cbn [doc_ops]. fold (pair_ops (trace_pairs rk r pc lr ++ more)). rewrite pair_ops_app.
  assert (EN : u32 (1 + (if pc =? 0 then 0 else 1) + (if lr =? 0 then 0 else 1) + zlen more) = zlen (trace_pairs rk r pc lr ++ more)).
  { pose proof (zlen_nonneg more). rewrite zlen_app. unfold trace_pairs. rewrite u32_in by (destruct (pc =? 0), (lr =? 0); lia).
    destruct (pc =? 0), (lr =? 0); cbn [app]; rewrite !zlen_cons; change (zlen (@nil (doc * doc))) with 0; lia. }
  set (n := zlen (trace_pairs rk r pc lr ++ more)) in *.
  replace (meta_ops env 2 (en_time env) ++ OpUnsigned 4 :: OpDict n :: pair_ops (trace_pairs rk r pc lr) ++ pair_ops more)
    with ((meta_ops env 2 (en_time env) ++ [OpUnsigned 4; OpDict n] ++ [OpUnsigned rk; OpUnsigned r]
      ++ (if pc =? 0 then [] else [OpUnsigned 2; OpUnsigned pc]) ++ (if lr =? 0 then [] else [OpUnsigned 3; OpUnsigned lr])) ++ pair_ops more).
  2: { unfold trace_pairs. destruct (pc =? 0), (lr =? 0); rewrite <- !app_assoc; reflexivity. }
  apply runs_and; [|exact HP]. unfold e_trace. cbv zeta. rewrite EN.
  apply runs_and; [apply runs_meta|]. apply runs_and; [apply runs_all|]. apply runs_and; [apply runs_all|].
  apply runs_and; apply runs_unless, runs_all.
Qed.

Lemma runs_ext p q ops : (forall e, eprog_run e p = eprog_run e q) -> runs q ops -> runs p ops.
Proof. intros E H e A L. rewrite E. now apply H. Qed.

(** Reboot events. *)
Definition reboot_more (i : reset_info) : list (doc * doc) :=
  (if ri_reg0 i =? 0 then [] else [dkv 4 (DUnsigned (ri_reg0 i))]) ++ [dkv 5 (DUnsigned (ri_coredump i))].
Definition reboot_doc (env : senv) (i : reset_info) : doc :=
  event_doc env 2 (en_time env) (DMap (trace_pairs 1 (ri_reason i) (ri_pc i) (ri_lr i) ++ reboot_more i)).
Lemma runs_reboot env i : runs (e_reboot env i) (doc_ops (reboot_doc env i)).
Proof.
  unfold e_reboot. replace (1 + (if ri_reg0 i =? 0 then 0 else 1)) with (zlen (reboot_more i))
    by (unfold reboot_more; destruct (ri_reg0 i =? 0); reflexivity).
  apply runs_trace.
  - unfold reboot_more. destruct (ri_reg0 i =? 0); cbn [app]; rewrite !zlen_cons; change (zlen (@nil (doc * doc))) with 0; lia.
  - unfold reboot_more. rewrite pair_ops_app. apply runs_and; [|apply runs_all].
    replace (pair_ops (if ri_reg0 i =? 0 then [] else [dkv 4 (DUnsigned (ri_reg0 i))])) with (if ri_reg0 i =? 0 then [] else [OpUnsigned 4; OpUnsigned (ri_reg0 i)])
      by (destruct (ri_reg0 i =? 0); reflexivity).
    apply runs_unless, runs_all.
Qed.
Lemma reboot_doc_value env i : doc_value (reboot_doc env i) = reboot_item env i.
Proof.
  unfold reboot_doc, reboot_item. rewrite event_doc_value. f_equal. unfold trace_pairs, reboot_more, kv_if, dkv.
  destruct (ri_pc i =? 0), (ri_lr i =? 0), (ri_reg0 i =? 0); reflexivity.
Qed.
Lemma reboot_doc_ok env i : senv_ok env -> reset_ok i -> doc_ok (reboot_doc env i).
Proof.
  intros HE (H1 & H2 & H3 & H4 & H5). apply event_doc_ok; [exact HE|unfold is_u32; lia|].
  unfold is_u16, is_u32 in *. unfold trace_pairs, reboot_more, dkv.
  destruct (ri_pc i =? 0), (ri_lr i =? 0), (ri_reg0 i =? 0); cbn [app doc_ok fst snd];
    (split; [unfold is_u32; rewrite ?zlen_cons; change (zlen (@nil (doc * doc))) with 0; lia|]);
    repeat match goal with |- _ /\ _ => split end; try exact I; unfold is_u32; lia.
Qed.

(** ** Storing a document *)
Definition doc_size (d : doc) : Z := zlen (ops_bytes (doc_ops d)).
Lemma doc_encode cfg cap v p d : runs p (doc_ops d) -> doc_ok d -> 0 <= cap <= 2147483648 -> 0 <= used (q_store v) ->
  v_part (q_store v) = None -> doc_size d <= 65532 ->
  ssv_step cfg cap v (SEncode p) =
    (if used (q_store v) + 2 + doc_size d <=? cap
     then Some (RSaved true, mk_ssv (mk_sev (v_events (q_store v) ++ [ops_bytes (doc_ops d)]) None (v_reading (q_store v))) (q_missed v))
     else Some (RSaved false, mk_ssv (q_store v) (q_missed v + 1))).
Proof.
  intros R K HC HU P HS. cbn [ssv_step]. rewrite P. unfold doc_size in *.
  assert (HQ : is_u32 (q_space cap (q_store v))) by (unfold is_u32, q_space; lia).
  assert (HL : ce_size (cbor_init (q_space cap (q_store v))) + zlen (ops_bytes (doc_ops d)) < 4294967296) by (cbn [cbor_init ce_size]; lia).
  rewrite R; [|now right; apply enc_wf_init|exact HL].
  destruct (doc_reads d K) as [L1 _].
  destruct (cbor_seq_ok (doc_ops d) _ (enc_wf_init _ HQ) HL) as (b & e & o & E & W & LE & B & O & T & _). rewrite E.
  cbn [cbor_init ce_size ce_len] in *. unfold q_space in B.
  destruct b.
  - rewrite O, (T eq_refl). change (ce_output (cbor_init (q_space cap (q_store v)))) with (@nil Z). cbn [app].
    destruct B as [B _]. specialize (B eq_refl). assert (1 <= zlen (ops_bytes (doc_ops d))) by (unfold zlen; lia).
    set (m := ops_bytes (doc_ops d)) in *.
    replace (1 <=? zlen m) with true by lia. replace (zlen m <=? 65532) with true by lia.
    replace (used (q_store v) + 2 + zlen m <=? cap) with true by lia. reflexivity.
  - destruct (used (q_store v) + 2 + zlen (ops_bytes (doc_ops d)) <=? cap) eqn:EE; [|reflexivity].
    destruct B as [_ B]. specialize (B ltac:(lia)). discriminate.
Qed.
Lemma runs_size p ops : runs p ops -> zlen (ops_bytes ops) < 4294967296 -> sh_compute_size p = zlen (ops_bytes ops).
Proof.
  intros R H. unfold sh_compute_size, cbor_deinit. rewrite R; [|left; split; reflexivity|cbn; lia].
  rewrite cbor_seq_size_only by (cbn; try reflexivity; lia). cbn. lia.
Qed.

(** ** Well-formedness of the programs *)
Definition opd_ok (o : cbor_op) : Prop := bytes (op_data o) /\ zlen (op_data o) < 2147483600.
Lemma eok_all ops : Forall opd_ok ops -> eprog_ok (e_all ops).
Proof.
  induction 1 as [|o r [H1 H2] F IH]; cbn [e_all eprog_ok]; [exact I|].
  repeat split; [assumption..|]. intros [|]; [exact IH|exact I].
Qed.
Lemma eok_and p q : eprog_ok p -> eprog_ok q -> eprog_ok (e_and p q).
Proof.
  intros P Q. induction p as [b|o k IH]; cbn [e_and eprog_ok] in *; [destruct b; [exact Q|exact I]|].
  destruct P as (P1 & P2 & P3). repeat split; [assumption..|]. intros b. apply IH, P3.
Qed.
Lemma opd_none o : op_data o = [] -> opd_ok o.
Proof. intros E. unfold opd_ok. rewrite E. split; [constructor|reflexivity]. Qed.
Ltac eok := apply eok_all; repeat (apply Forall_cons; [first [apply opd_none; reflexivity | idtac]|]); try apply Forall_nil.
Lemma eok_str k s : bytes s -> zlen s < 65536 -> eprog_ok (e_str k s).
Proof. intros. unfold e_str. eok. split; cbn [op_data]; [assumption|lia]. Qed.
Lemma eok_u32 k v : eprog_ok (e_u32 k v). Proof. unfold e_u32. eok. Qed.
Lemma eok_s32 k v : eprog_ok (e_s32 k v). Proof. unfold e_s32. eok. Qed.
Lemma eok_meta env type time : senv_ok env -> eprog_ok (e_metadata_with_time env type time).
Proof.
  intros (F & HB & HI & _). inv F. inv H2. inv H4. inv H5.
  destruct H1, H2, H3, H4.
  unfold e_metadata_with_time. cbv zeta. cbn [eprog_ok op_data]. split; [constructor|split; [reflexivity|]]. intros _.
  apply eok_and; [apply eok_u32|]. apply eok_and; [apply eok_u32|]. apply eok_and.
  - unfold e_device. apply eok_and; [destruct (en_with_serial env); [now apply eok_str|exact I]|].
    apply eok_and; [now apply eok_str|]. apply eok_and; now apply eok_str.
  - apply eok_and; [|destruct time; [apply eok_u32|exact I]]. destruct (en_build env) as [id|]; [|exact I]. destruct HI as [HI1 HI2].
    unfold e_bytes. eok. split; cbn [op_data]; [now apply bytes_take|rewrite zlen_take; lia].
Qed.
Lemma eok_trace env rk r pc lr x : senv_ok env -> eprog_ok (e_trace env rk r pc lr x).
Proof.
  intros H. unfold e_trace. cbv zeta. apply eok_and; [now apply eok_meta|]. apply eok_and; [eok|]. apply eok_and; [apply eok_u32|].
  apply eok_and; [destruct (pc =? 0)|destruct (lr =? 0)]; first [exact I|apply eok_u32].
Qed.
Lemma eok_reboot env i : senv_ok env -> eprog_ok (e_reboot env i).
Proof.
  intros H. unfold e_reboot. apply eok_and; [now apply eok_trace|]. apply eok_and; [|apply eok_u32].
  destruct (ri_reg0 i =? 0); [exact I|apply eok_u32].
Qed.

(** ** Appending a document to any history *)
Lemma sh_run_app cfg a : forall s b, sh_run cfg s (a ++ b) =
  do x <- sh_run cfg s a; let (r, s1) := x in do y <- sh_run cfg s1 b; let (r2, s2) := y in Some (r ++ r2, s2).
Proof.
  induction a as [|o a IH]; intros s b.
  - cbn [app sh_run bind]. destruct (sh_run cfg s b) as [[r v2]|]; reflexivity.
  - cbn [app sh_run]. destruct (sh_step cfg s o) as [[r v1]|]; [cbn [bind]|reflexivity].
    rewrite IH. destruct (sh_run cfg v1 a) as [[r1 v2]|]; [cbn [bind]|reflexivity].
    destruct (sh_run cfg v2 b) as [[r2 v3]|]; reflexivity.
Qed.
Lemma ssv_run_app cfg cap a : forall s b, ssv_run cfg cap s (a ++ b) =
  do x <- ssv_run cfg cap s a; let (r, s1) := x in do y <- ssv_run cfg cap s1 b; let (r2, s2) := y in Some (r ++ r2, s2).
Proof.
  induction a as [|o a IH]; intros s b.
  - cbn [app ssv_run bind]. destruct (ssv_run cfg cap s b) as [[r v2]|]; reflexivity.
  - cbn [app ssv_run]. destruct (ssv_step cfg cap s o) as [[r v1]|]; [cbn [bind]|reflexivity].
    rewrite IH. destruct (ssv_run cfg cap v1 a) as [[r1 v2]|]; [cbn [bind]|reflexivity].
    destruct (ssv_run cfg cap v2 b) as [[r2 v3]|]; reflexivity.
Qed.

Lemma doc_in_history cfg storage ops rs v p d :
  0 < zlen storage <= 2147483648 -> Forall shop_ok ops ->
  ssv_run cfg (zlen storage) (mk_ssv (mk_sev [] None 0) 0) ops = Some (rs, v) -> v_part (q_store v) = None ->
  runs p (doc_ops d) -> eprog_ok p -> doc_ok d -> doc_size d <= 65532 ->
  exists s b s' v', es_boot storage (zlen storage) = Some (Some s) /\
    sh_run cfg (mk_sh s 0 0) (ops ++ [SEncode p]) = Some (rs ++ [RSaved b], s') /\
    ssv_run cfg (zlen storage) (mk_ssv (mk_sev [] None 0) 0) (ops ++ [SEncode p]) = Some (rs ++ [RSaved b], v') /\
    sh_compute_size p = doc_size d /\
    (b = true <-> used (q_store v) + 2 + sh_compute_size p <= zlen storage) /\
    (b = true -> exists ev, v' = mk_ssv (mk_sev (v_events (q_store v) ++ [ev]) None (v_reading (q_store v))) (q_missed v) /\
       zlen ev = sh_compute_size p /\ cbor_read ev = Some (doc_value d, [])) /\
    (b = false -> v' = mk_ssv (q_store v) (q_missed v + 1)).
Proof.
  intros HS HO HR P R K KD SZ. destruct (sh_boot_ok cfg storage HS) as (s & EB & M).
  assert (HU : 0 <= used (q_store v)).
  { destruct (sh_run_ok _ _ _ _ _ _ _ M HO HR) as (s1 & _ & [M1 _ _ _]). destruct (esim_sz _ _ _ _ M1) as (_ & _ & HU & _). lia. }
  pose proof (doc_encode cfg (zlen storage) v p d R KD ltac:(lia) HU P SZ) as ST.
  pose proof (zlen_nonneg (ops_bytes (doc_ops d))).
  assert (CS : sh_compute_size p = doc_size d) by (apply runs_size; [exact R|unfold doc_size in SZ; lia]).
  set (b := used (q_store v) + 2 + doc_size d <=? zlen storage) in *.
  assert (exists v', ssv_step cfg (zlen storage) v (SEncode p) = Some (RSaved b, v') /\
    (b = true -> exists ev, v' = mk_ssv (mk_sev (v_events (q_store v) ++ [ev]) None (v_reading (q_store v))) (q_missed v) /\
       zlen ev = sh_compute_size p /\ cbor_read ev = Some (doc_value d, [])) /\
    (b = false -> v' = mk_ssv (q_store v) (q_missed v + 1))) as (v' & E & V1 & V2).
  { destruct b; (eexists; split; [exact ST|]); (split; [|try reflexivity]); try discriminate.
    intros _. exists (ops_bytes (doc_ops d)). split; [reflexivity|]. split; [now rewrite CS|].
    rewrite <- (app_nil_r (ops_bytes (doc_ops d))). now apply doc_cbor_read. }
  assert (ER : ssv_run cfg (zlen storage) (mk_ssv (mk_sev [] None 0) 0) (ops ++ [SEncode p]) = Some (rs ++ [RSaved b], v')).
  { rewrite ssv_run_app, HR. cbn [bind ssv_run]. rewrite E. reflexivity. }
  assert (HO' : Forall shop_ok (ops ++ [SEncode p])) by (apply Forall_app; split; [exact HO|constructor; [exact K|constructor]]).
  destruct (sh_run_ok _ _ _ _ _ _ _ M HO' ER) as (s' & RR & _).
  exists s, b, s', v'. split; [exact EB|]. split; [exact RR|]. split; [exact ER|]. split; [exact CS|].
  split; [rewrite CS; unfold b; lia|]. split; assumption.
Qed.

(** ** The worst case of a reboot event *)
Lemma head_len_le mt v w : 0 <= v <= w -> zlen (cbor_head mt v) <= zlen (cbor_head mt w).
Proof.
  intros H. unfold cbor_head. cbv zeta.
  destruct (v <? 24) eqn:A1; [|destruct (v <=? 255) eqn:A2; [|destruct (v <=? 65535) eqn:A3]];
    (destruct (w <? 24) eqn:B1; [|destruct (w <=? 255) eqn:B2; [|destruct (w <=? 65535) eqn:B3]]); zl.
Qed.
Lemma u_len v : zlen (op_bytes (OpUnsigned v)) = zlen (cbor_head 0 v).
Proof. unfold op_bytes; cbn [op_chunks concat]; now rewrite app_nil_r. Qed.
Lemma d_len v : zlen (op_bytes (OpDict v)) = zlen (cbor_head 5 v).
Proof. unfold op_bytes; cbn [op_chunks concat]; now rewrite app_nil_r. Qed.
Lemma doc_map_len l : zlen (ops_bytes (doc_ops (DMap l))) = zlen (cbor_head 5 (zlen l)) + zlen (ops_bytes (pair_ops l)).
Proof. cbn [doc_ops]. fold (pair_ops l). rewrite ops_bytes_cons, zlen_app, d_len. reflexivity. Qed.
Lemma meta_len env type time : senv_ok env -> 0 <= zlen (ops_bytes (meta_ops env type time)) <= 263000.
Proof.
  intros (F & HB & HI & _). inv F. inv H2. inv H4. inv H5. destruct H1, H2, H3, H4.
  split; [apply zlen_nonneg|]. etransitivity; [apply ops_bytes_len|].
  unfold meta_ops, time_ops. cbv zeta. destruct (en_with_serial env), (en_build env) as [id|], time; cbn [app calls_bound fold_right op_data];
    rewrite ?zlen_take; change (zlen (@nil Z)) with 0; lia.
Qed.
Lemma reboot_len env i : senv_ok env -> zlen (ops_bytes (doc_ops (reboot_doc env i))) =
  zlen (ops_bytes (meta_ops env 2 (en_time env))) + 2 + (1 + zlen (cbor_head 0 (ri_reason i)))
  + (if ri_pc i =? 0 then 0 else 1 + zlen (cbor_head 0 (ri_pc i))) + (if ri_lr i =? 0 then 0 else 1 + zlen (cbor_head 0 (ri_lr i)))
  + (if ri_reg0 i =? 0 then 0 else 1 + zlen (cbor_head 0 (ri_reg0 i))) + (1 + zlen (cbor_head 0 (ri_coredump i))).
Proof.
  intros HE. unfold reboot_doc. rewrite event_doc_ops, ops_bytes_app, zlen_app, ops_bytes_cons, zlen_app, doc_map_len.
  change (zlen (op_bytes (OpUnsigned 4))) with 1. unfold trace_pairs, reboot_more.
  assert (KV : forall k v l, zlen (ops_bytes (pair_ops (dkv k (DUnsigned v) :: l))) = zlen (cbor_head 0 k) + zlen (cbor_head 0 v) + zlen (ops_bytes (pair_ops l))).
  { intros k v l. change (pair_ops (dkv k (DUnsigned v) :: l)) with (OpUnsigned k :: OpUnsigned v :: pair_ops l).
    rewrite !ops_bytes_cons, !zlen_app, !u_len. lia. }
  assert (HD : forall l : list (doc * doc), zlen l < 24 -> zlen (cbor_head 5 (zlen l)) = 1).
  { intros l Hl. unfold cbor_head. cbv zeta. replace (zlen l <? 24) with true by lia. reflexivity. }
  rewrite HD by (destruct (ri_pc i =? 0), (ri_lr i =? 0), (ri_reg0 i =? 0); reflexivity).
  generalize (zlen (ops_bytes (meta_ops env 2 (en_time env)))). intros m.
  destruct (ri_pc i =? 0), (ri_lr i =? 0), (ri_reg0 i =? 0); cbn [app]; rewrite !KV;
    change (zlen (ops_bytes (pair_ops []))) with 0; change (zlen (cbor_head 0 1)) with 1; change (zlen (cbor_head 0 2)) with 1;
    change (zlen (cbor_head 0 3)) with 1; change (zlen (cbor_head 0 4)) with 1; change (zlen (cbor_head 0 5)) with 1;
    generalize (zlen (cbor_head 0 (ri_reason i))), (zlen (cbor_head 0 (ri_pc i))), (zlen (cbor_head 0 (ri_lr i))), (zlen (cbor_head 0 (ri_reg0 i))), (zlen (cbor_head 0 (ri_coredump i)));
    clear; intros; lia.
Qed.
Lemma reboot_worst env i : senv_ok env -> reset_ok i -> doc_size (reboot_doc env i) <= reboot_worst_size env.
Proof.
  intros HE (H1 & H2 & H3 & H4 & H5). unfold is_u16, is_u32 in *. unfold reboot_worst_size.
  pose proof (meta_len env 2 (en_time env) HE) as ML.
  assert (HW : zlen (ops_bytes (doc_ops (reboot_doc env worst_reset))) = zlen (ops_bytes (meta_ops env 2 (en_time env))) + 26).
  { rewrite reboot_len by assumption. cbn [worst_reset ri_reason ri_pc ri_lr ri_reg0 ri_coredump].
    change (zlen (cbor_head 0 4294967295)) with 5. change (zlen (cbor_head 0 37888)) with 3. change (zlen (cbor_head 0 1)) with 1.
    change (4294967295 =? 0) with false. cbv iota. lia. }
  rewrite (runs_size _ _ (runs_reboot env worst_reset)) by lia. unfold doc_size. rewrite HW, reboot_len by assumption.
  pose proof (head_len_le 0 (ri_reason i) 65535 ltac:(lia)) as L1. change (zlen (cbor_head 0 65535)) with 3 in L1.
  pose proof (head_len_le 0 (ri_coredump i) 1 ltac:(lia)) as L2. change (zlen (cbor_head 0 1)) with 1 in L2.
  pose proof (cbor_head_len 0 (ri_pc i)). pose proof (cbor_head_len 0 (ri_lr i)). pose proof (cbor_head_len 0 (ri_reg0 i)).
  destruct (ri_pc i =? 0), (ri_lr i =? 0), (ri_reg0 i =? 0); lia.
Qed.

Lemma chain_in_history cfg storage ops rs v d :
  0 < zlen storage <= 2147483648 -> Forall shop_ok ops ->
  ssv_run cfg (zlen storage) (mk_ssv (mk_sev [] None 0) 0) ops = Some (rs, v) -> v_part (q_store v) = None ->
  doc_ok d -> let p := e_all (doc_ops d) in eprog_ok p -> calls_bound (doc_ops d) <= 65532 ->
  exists s b s' v', es_boot storage (zlen storage) = Some (Some s) /\
    sh_run cfg (mk_sh s 0 0) (ops ++ [SEncode p]) = Some (rs ++ [RSaved b], s') /\
    ssv_run cfg (zlen storage) (mk_ssv (mk_sev [] None 0) 0) (ops ++ [SEncode p]) = Some (rs ++ [RSaved b], v') /\
    (b = true <-> used (q_store v) + 2 + sh_compute_size p <= zlen storage) /\
    (b = true -> exists ev, v' = mk_ssv (mk_sev (v_events (q_store v) ++ [ev]) None (v_reading (q_store v))) (q_missed v) /\
       zlen ev = sh_compute_size p /\ cbor_read ev = Some (doc_value d, [])) /\
    (b = false -> v' = mk_ssv (q_store v) (q_missed v + 1)).
Proof.
  intros HS HO HR P KD p K SZ. pose proof (ops_bytes_len (doc_ops d)).
  destruct (doc_in_history cfg storage ops rs v p d HS HO HR P (runs_all _) K KD ltac:(unfold doc_size; lia))
    as (s & b & s' & v' & A1 & A2 & A3 & A4 & A5). exists s, b, s', v'. auto.
Qed.
Lemma event_in_history cfg storage ops rs v env type info :
  0 < zlen storage <= 2147483648 -> Forall shop_ok ops ->
  ssv_run cfg (zlen storage) (mk_ssv (mk_sev [] None 0) 0) ops = Some (rs, v) -> v_part (q_store v) = None ->
  senv_ok env -> is_u32 type -> doc_ok info -> eprog_ok (e_all (doc_ops info)) ->
  let p := e_and (e_metadata env type) (e_all (OpUnsigned 4 :: doc_ops info)) in
  sh_compute_size p <= 65532 -> calls_bound (doc_ops info) < 4294000000 ->
  exists s b s' v', es_boot storage (zlen storage) = Some (Some s) /\
    sh_run cfg (mk_sh s 0 0) (ops ++ [SEncode p]) = Some (rs ++ [RSaved b], s') /\
    ssv_run cfg (zlen storage) (mk_ssv (mk_sev [] None 0) 0) (ops ++ [SEncode p]) = Some (rs ++ [RSaved b], v') /\
    (b = true <-> used (q_store v) + 2 + sh_compute_size p <= zlen storage) /\
    (b = true -> exists ev, v' = mk_ssv (mk_sev (v_events (q_store v) ++ [ev]) None (v_reading (q_store v))) (q_missed v) /\
       zlen ev = sh_compute_size p /\ cbor_read ev = Some (event_item env type (en_time env) (doc_value info), [])) /\
    (b = false -> v' = mk_ssv (q_store v) (q_missed v + 1)).
Proof.
  intros HS HO HR P HE HT KD K p SZ CB.
  assert (R : runs p (doc_ops (event_doc env type (en_time env) info))).
  { rewrite event_doc_ops. apply runs_and; [apply runs_meta|apply runs_all]. }
  assert (EP : eprog_ok p).
  { apply eok_and; [now apply eok_meta|]. cbn [e_all eprog_ok op_data]. split; [constructor|split; [reflexivity|]].
    intros [|]; [exact K|exact I]. }
  pose proof (meta_len env type (en_time env) HE). pose proof (ops_bytes_len (doc_ops info)).
  assert (LE : zlen (ops_bytes (doc_ops (event_doc env type (en_time env) info))) < 4294967296).
  { rewrite event_doc_ops, ops_bytes_app, zlen_app, ops_bytes_cons, zlen_app. change (zlen (op_bytes (OpUnsigned 4))) with 1. lia. }
  rewrite (runs_size _ _ R LE) in SZ.
  destruct (doc_in_history cfg storage ops rs v p _ HS HO HR P R EP (event_doc_ok _ _ _ _ HE HT KD) SZ)
    as (s & b & s' & v' & A1 & A2 & A3 & A4 & A5). rewrite event_doc_value in A5. exists s, b, s', v'. auto.
Qed.
Lemma reboot_in_history cfg storage ops rs v env i :
  0 < zlen storage <= 2147483648 -> Forall shop_ok ops ->
  ssv_run cfg (zlen storage) (mk_ssv (mk_sev [] None 0) 0) ops = Some (rs, v) -> v_part (q_store v) = None ->
  senv_ok env -> reset_ok i -> reboot_worst_size env <= 65532 ->
  used (q_store v) + 2 + reboot_worst_size env <= zlen storage ->
  exists s s' v' ev, es_boot storage (zlen storage) = Some (Some s) /\
    sh_run cfg (mk_sh s 0 0) (ops ++ [SEncode (e_reboot env i)]) = Some (rs ++ [RSaved true], s') /\
    ssv_run cfg (zlen storage) (mk_ssv (mk_sev [] None 0) 0) (ops ++ [SEncode (e_reboot env i)]) = Some (rs ++ [RSaved true], v') /\
    v' = mk_ssv (mk_sev (v_events (q_store v) ++ [ev]) None (v_reading (q_store v))) (q_missed v) /\
    zlen ev <= reboot_worst_size env /\ cbor_read ev = Some (reboot_item env i, []).
Proof.
  intros HS HO HR P HE HI HW HU. pose proof (reboot_worst env i HE HI) as WC.
  destruct (doc_in_history cfg storage ops rs v _ _ HS HO HR P (runs_reboot env i) (eok_reboot env i HE) (reboot_doc_ok _ _ HE HI) ltac:(lia))
    as (s & b & s' & v' & A1 & A2 & A3 & A4 & A5 & A6 & A7). rewrite A4 in *.
  assert (b = true) as -> by (apply A5; lia). destruct (A6 eq_refl) as (ev & V & L & RD). rewrite reboot_doc_value in RD.
  exists s, s', v', ev. repeat (split; [assumption|]). split; [lia|assumption].
Qed.
