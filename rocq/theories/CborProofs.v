From Verif Require Import Base Cbor CborSpec CborDoc.

(** ** Calls as sequences of [cbor_add] *)
Definition op_chunks (o : cbor_op) : list (list Z) :=
  match o with
  | OpUnsigned v => [cbor_head 0 v]
  | OpSigned v => [cbor_head (Z.land (Z.shiftr v 31) 1) (u32 (Z.lxor (Z.shiftr v 31) v))]
  | OpLong v =>
      let ui := Z.shiftr v 63 in
      let mt := Z.land ui 1 in
      let ui := Z.lxor ui v in
      [if ui <=? 4294967295 then cbor_head mt (u32 ui) else Z.lor (cbor_mt mt) 27 :: cbor_be64 (u64 ui)]
  | OpDouble v => [Z.lor (cbor_mt 7) 27 :: cbor_be64 v]
  | OpJoin d => [d]
  | OpBytes b => [cbor_head 2 (u32 (zlen b)); b]
  | OpBytesBegin n => [cbor_head 2 n]
  | OpString s => [cbor_head 3 (u32 (zlen s)); s]
  | OpStringBegin n => [cbor_head 3 n]
  | OpDict n => [cbor_head 5 n]
  | OpArray n => [cbor_head 4 n]
  | OpNull => [[Z.lor (cbor_mt 7) 22]]
  end.
Definition op_bytes (o : cbor_op) : list Z := concat (op_chunks o).
Definition ops_bytes (l : list cbor_op) : list Z := concat (map op_bytes l).

#[global] Arguments ops_bytes : simpl never.
#[global] Arguments op_bytes : simpl never.

Fixpoint adds (e : cbor_enc) (l : list (list Z)) : bool * cbor_enc :=
  match l with
  | [] => (true, e)
  | d :: r => let (b, e) := cbor_add e d in if b then adds e r else (false, e)
  end.
Lemma adds_1 e d : adds e [d] = cbor_add e d.
Proof. cbn. destruct (cbor_add e d) as [[|] ?]; reflexivity. Qed.
Lemma cbor_do_adds e o : cbor_do e o = adds e (op_chunks o).
Proof.
  destruct o; cbn [cbor_do op_chunks]; rewrite ?adds_1; try reflexivity.
  - unfold cbor_encode_long_signed. cbv zeta. destruct (_ <=? _); reflexivity.
  - unfold cbor_encode_bytes, cbor_string_like, cbor_uint. cbn [adds].
    destruct (cbor_add e _) as [[|] e1]; [|reflexivity]. destruct (cbor_add e1 _) as [[|] ?]; reflexivity.
  - unfold cbor_encode_string, cbor_string_like, cbor_uint. cbn [adds].
    destruct (cbor_add e _) as [[|] e1]; [|reflexivity]. destruct (cbor_add e1 _) as [[|] ?]; reflexivity.
Qed.
Lemma adds_app e a b : adds e (a ++ b) = let (t, e1) := adds e a in if t then adds e1 b else (false, e1).
Proof.
  revert e; induction a as [|d a IH]; intros e; cbn [app adds]; [reflexivity|].
  destruct (cbor_add e d) as [[|] e1]; [apply IH|reflexivity].
Qed.
Lemma cbor_seq_adds ops : forall e, cbor_seq e ops = adds e (concat (map op_chunks ops)).
Proof.
  induction ops as [|o r IH]; intros e; cbn [cbor_seq map concat]; [reflexivity|].
  rewrite adds_app, cbor_do_adds. destruct (adds e (op_chunks o)) as [[|] e1]; [apply IH|reflexivity].
Qed.
Lemma ops_bytes_chunks ops : ops_bytes ops = concat (concat (map op_chunks ops)).
Proof.
  unfold ops_bytes. induction ops as [|o r IH]; cbn [map concat]; [reflexivity|].
  rewrite concat_app, IH. reflexivity.
Qed.
Lemma ops_bytes_cons o r : ops_bytes (o :: r) = op_bytes o ++ ops_bytes r.
Proof. reflexivity. Qed.
Lemma ops_bytes_app a b : ops_bytes (a ++ b) = ops_bytes a ++ ops_bytes b.
Proof. unfold ops_bytes. now rewrite map_app, concat_app. Qed.

(** ** Space accounting *)
Lemma contiguous_snoc ws : forall off d, contiguous off ws -> d <> [] ->
  contiguous off (ws ++ [(off + zlen (concat (map snd ws)), d)]).
Proof.
  induction ws as [|[o x] r IH]; intros off d H Hd; cbn [contiguous app map concat snd] in *.
  - rewrite zlen_nil. repeat split; [lia|assumption].
  - destruct H as (-> & Hx & H). repeat split; [assumption|].
    specialize (IH _ d H Hd). rewrite zlen_app.
    replace (off + (zlen x + zlen (concat (map snd r)))) with (off + zlen x + zlen (concat (map snd r))) by lia.
    exact IH.
Qed.

Record enc_wf (e : cbor_enc) : Prop := {
  ew_so : ce_size_only e = false;
  ew_len : is_u32 (ce_len e);
  ew_size : ce_size e = zlen (ce_output e);
  ew_le : ce_size e <= ce_len e;
  ew_cont : contiguous 0 (ce_writes e) }.
Lemma enc_wf_init L : is_u32 L -> enc_wf (cbor_init L).
Proof. intros H. constructor; cbn; try reflexivity; try assumption. unfold is_u32 in H; lia. Qed.

Lemma add_ok e d : enc_wf e -> ce_size e + zlen d < 4294967296 ->
  exists b e', cbor_add e d = (b, e') /\ enc_wf e' /\ ce_len e' = ce_len e /\
    (b = true <-> ce_size e + zlen d <= ce_len e) /\
    ce_output e' = ce_output e ++ (if b then d else []) /\
    (exists ws, ce_writes e' = ce_writes e ++ ws) /\ (b = false -> e' = e).
Proof.
  intros W Hd. destruct W as [W1 W2 W3 W4 W5]. unfold cbor_add. unfold is_u32 in W2.
  pose proof (zlen_nonneg d). pose proof (zlen_nonneg (ce_output e)).
  destruct (zlen d =? 0) eqn:E0.
  - assert (d = []) as -> by (apply zlen_0_nil; lia).
    exists true, e. rewrite app_nil_r. repeat split; try assumption; try lia; try congruence.
    exists []. now rewrite app_nil_r.
  - rewrite W1. rewrite u32_id by (unfold is_u32; lia).
    destruct (ce_len e <? ce_size e + zlen d) eqn:E1.
    + exists false, e. rewrite app_nil_r. repeat split; try assumption; try lia; try congruence.
      exists []. now rewrite app_nil_r.
    + eexists true, _. split; [reflexivity|].
      assert (EO : ce_output (mk_ce false (ce_len e) (ce_size e + zlen d) (ce_writes e ++ [(ce_size e, d)])) = ce_output e ++ d).
      { unfold ce_output. cbn [ce_writes]. rewrite map_app, concat_app. cbn. now rewrite app_nil_r. }
      split; [constructor|]; cbn [ce_size_only ce_len ce_size ce_writes]; try reflexivity; try assumption; try lia.
      * rewrite EO, zlen_app. lia.
      * pose proof (contiguous_snoc (ce_writes e) 0 d W5) as HC. fold (ce_output e) in HC.
        rewrite Z.add_0_l, <- W3 in HC. apply HC. intros ->. now rewrite zlen_nil in E0.
      * split; [reflexivity|]. split; [lia|]. split; [exact EO|]. split; [eauto|congruence].
Qed.

Lemma adds_ok l : forall e, enc_wf e -> ce_size e + zlen (concat l) < 4294967296 ->
  exists b e' o, adds e l = (b, e') /\ enc_wf e' /\ ce_len e' = ce_len e /\
    (b = true <-> ce_size e + zlen (concat l) <= ce_len e) /\
    ce_output e' = ce_output e ++ o /\ (b = true -> o = concat l) /\
    (exists p, concat l = o ++ p) /\
    (exists ws, ce_writes e' = ce_writes e ++ ws).
Proof.
  induction l as [|d l IH]; intros e W Hl; cbn [adds concat] in *.
  - exists true, e, []. rewrite app_nil_r. rewrite zlen_nil in *. destruct W. 
    split; [reflexivity|]. split; [constructor; assumption|]. split; [reflexivity|]. split; [lia|]. split; [reflexivity|]. split; [reflexivity|]. split; [exists []; reflexivity|exists []; now rewrite app_nil_r].
  - rewrite zlen_app in *. pose proof (zlen_nonneg (concat l)).
    destruct (add_ok e d W ltac:(lia)) as (b & e1 & E1 & W1 & L1 & B1 & O1 & (ws1 & S1) & F1).
    rewrite E1. destruct b.
    + destruct B1 as [B1 _]. specialize (B1 eq_refl).
      assert (Z1 : ce_size e1 = ce_size e + zlen d).
      { rewrite (ew_size _ W1), O1, zlen_app, <- (ew_size _ W). reflexivity. }
      destruct (IH e1 W1 ltac:(lia)) as (b & e2 & o & E2 & W2 & L2 & B2 & O2 & T2 & (p & P2) & (ws2 & S2)).
      exists b, e2, (d ++ o). rewrite E2. split; [reflexivity|]. split; [assumption|]. split; [congruence|].
      split; [rewrite B2, Z1, L1; lia|]. split; [rewrite O2, O1; now rewrite app_assoc|].
      split; [intros Hb; now rewrite (T2 Hb)|]. split; [exists p; rewrite P2; now rewrite app_assoc|].
      exists (ws1 ++ ws2). rewrite S2, S1. now rewrite app_assoc.
    + rewrite (F1 eq_refl) in *. exists false, e, []. split; [reflexivity|]. split; [assumption|]. split; [reflexivity|].
      assert (~ (ce_size e + zlen d <= ce_len e)) by (intros Hx; apply B1 in Hx; discriminate).
      split; [split; [discriminate|lia]|]. split; [now rewrite app_nil_r|]. split; [discriminate|].
      split; [exists (d ++ concat l); reflexivity|]. exists []. now rewrite app_nil_r.
Qed.

Lemma adds_size_only l : forall e, ce_size_only e = true -> 0 <= ce_size e -> ce_size e + zlen (concat l) < 4294967296 ->
  adds e l = (true, mk_ce true (ce_len e) (ce_size e + zlen (concat l)) (ce_writes e)).
Proof.
  induction l as [|d l IH]; intros e Hs H0 Hl; cbn [adds concat] in *.
  - rewrite zlen_nil, Z.add_0_r. destruct e; cbn in *; now subst.
  - rewrite zlen_app in *. pose proof (zlen_nonneg (concat l)). pose proof (zlen_nonneg d).
    unfold cbor_add. rewrite Hs. destruct (zlen d =? 0) eqn:E.
    + rewrite IH by (assumption || lia). do 2 f_equal. lia.
    + rewrite u32_id by (unfold is_u32; lia). rewrite IH by (cbn; lia). cbn. do 2 f_equal. lia.
Qed.

(** ** Sequences of calls *)
Lemma cbor_calls_ok ops : forall e, enc_wf e -> ce_size e + zlen (ops_bytes ops) < 4294967296 ->
  exists bs e', cbor_calls e ops = (bs, e') /\ enc_wf e' /\ ce_len e' = ce_len e /\
    (forallb (fun b => b) bs = true <-> ce_size e + zlen (ops_bytes ops) <= ce_len e) /\
    ce_size e' <= ce_size e + zlen (ops_bytes ops) /\
    (forallb (fun b => b) bs = true -> ce_output e' = ce_output e ++ ops_bytes ops).
Proof.
  induction ops as [|o r IH]; intros e W Hl; cbn [cbor_calls].
  - exists [], e. cbn. change (ops_bytes []) with (@nil Z). rewrite zlen_nil, app_nil_r. destruct W. split; [reflexivity|]. split; [constructor; assumption|]. split; [reflexivity|]. split; [lia|]. split; [lia|]. reflexivity.
  - rewrite ops_bytes_cons, zlen_app in *. pose proof (zlen_nonneg (ops_bytes r)).
    rewrite cbor_do_adds.
    destruct (adds_ok (op_chunks o) e W ltac:(fold (op_bytes o); lia)) as (b & e1 & x & E1 & W1 & L1 & B1 & O1 & T1 & (p & P1) & _).
    fold (op_bytes o) in *. rewrite E1.
    assert (Z1 : ce_size e1 = ce_size e + zlen x).
    { rewrite (ew_size _ W1), O1, zlen_app, <- (ew_size _ W). reflexivity. }
    assert (zlen x <= zlen (op_bytes o)) by (rewrite P1; zl).
    destruct (IH e1 W1 ltac:(lia)) as (bs & e2 & E2 & W2 & L2 & B2 & Q2 & T2). rewrite E2.
    exists (b :: bs), e2. split; [reflexivity|]. split; [assumption|]. split; [congruence|].
    cbn [forallb]. split; [|split; [lia|]].
    + destruct b; cbn [andb].
      * rewrite (T1 eq_refl) in Z1. rewrite B2, L1, Z1. lia.
      * split; [discriminate|]. intros Hx. assert (false = true) by (apply B1; lia). discriminate.
    + intros Hb. apply andb_prop in Hb as [-> Hb]. rewrite (T2 Hb), O1, (T1 eq_refl). now rewrite app_assoc.
Qed.
Lemma cbor_calls_size_only ops : forall e, ce_size_only e = true -> 0 <= ce_size e -> ce_size e + zlen (ops_bytes ops) < 4294967296 ->
  cbor_calls e ops = (map (fun _ => true) ops, mk_ce true (ce_len e) (ce_size e + zlen (ops_bytes ops)) (ce_writes e)).
Proof.
  induction ops as [|o r IH]; intros e Hs H0 Hl; cbn [cbor_calls map].
  - change (ops_bytes []) with (@nil Z). rewrite zlen_nil, Z.add_0_r. destruct e; cbn in *; now subst.
  - rewrite ops_bytes_cons, zlen_app in *. pose proof (zlen_nonneg (ops_bytes r)). pose proof (zlen_nonneg (op_bytes o)).
    rewrite cbor_do_adds, adds_size_only by (assumption || (fold (op_bytes o); lia)). fold (op_bytes o).
    rewrite IH by (cbn [ce_size ce_size_only]; lia). cbn [ce_size ce_len ce_writes]. now rewrite Z.add_assoc.
Qed.
Lemma cbor_seq_ok ops e : enc_wf e -> ce_size e + zlen (ops_bytes ops) < 4294967296 ->
  exists b e' o, cbor_seq e ops = (b, e') /\ enc_wf e' /\ ce_len e' = ce_len e /\
    (b = true <-> ce_size e + zlen (ops_bytes ops) <= ce_len e) /\
    ce_output e' = ce_output e ++ o /\ (b = true -> o = ops_bytes ops) /\ (exists p, ops_bytes ops = o ++ p).
Proof.
  intros W Hl. rewrite cbor_seq_adds. rewrite ops_bytes_chunks in *.
  destruct (adds_ok _ e W Hl) as (b & e' & o & H). exists b, e', o. tauto.
Qed.
Lemma cbor_seq_size_only ops e : ce_size_only e = true -> 0 <= ce_size e -> ce_size e + zlen (ops_bytes ops) < 4294967296 ->
  cbor_seq e ops = (true, mk_ce true (ce_len e) (ce_size e + zlen (ops_bytes ops)) (ce_writes e)).
Proof.
  intros. rewrite cbor_seq_adds. rewrite ops_bytes_chunks in *. now apply adds_size_only.
Qed.

Lemma cbor_head_len mt v : 1 <= zlen (cbor_head mt v) <= 5.
Proof. unfold cbor_head. cbv zeta. repeat (destruct (_ <? _) || destruct (_ <=? _)); zl. Qed.
Lemma zlen_be64 v : zlen (cbor_be64 v) = 8.
Proof. reflexivity. Qed.
Lemma op_bytes_len o : zlen (op_bytes o) <= 9 + zlen (op_data o).
Proof.
  unfold op_bytes. destruct o; cbn [op_chunks concat op_data]; cbv zeta; rewrite ?zlen_app, ?zlen_nil;
    try match goal with |- context[if ?b then _ else _] => destruct b end;
    repeat match goal with |- context[cbor_head ?a ?b] => pose proof (cbor_head_len a b); generalize dependent (cbor_head a b); intros end;
    rewrite ?zlen_cons, ?zlen_be64, ?zlen_nil; lia.
Qed.
Lemma ops_bytes_len ops : zlen (ops_bytes ops) <= calls_bound ops.
Proof.
  induction ops as [|o r IH]; [vm_compute; congruence|].
  rewrite ops_bytes_cons, zlen_app. cbn [calls_bound fold_right]. fold (calls_bound r). pose proof (op_bytes_len o). lia.
Qed.

Lemma cbor_bounds ops L : is_u32 L -> calls_bound ops < 4294967296 ->
  exists bs e bs0 e0, cbor_calls (cbor_init L) ops = (bs, e) /\ cbor_calls cbor_size_only_init ops = (bs0, e0) /\
    contiguous 0 (ce_writes e) /\ zlen (ce_output e) = cbor_deinit e /\ cbor_deinit e <= L /\
    forallb (fun b => b) bs0 = true /\ ce_writes e0 = [] /\
    (forallb (fun b => b) bs = true <-> cbor_deinit e0 <= L) /\
    (cbor_deinit e0 <= L -> cbor_deinit e = cbor_deinit e0).
Proof.
  intros HL Hb. pose proof (ops_bytes_len ops).
  destruct (cbor_calls_ok ops (cbor_init L) (enc_wf_init _ HL)) as (bs & e & E & W & Le & B & _ & T); [cbn; lia|].
  exists bs, e. rewrite (cbor_calls_size_only ops cbor_size_only_init) by (cbn [ce_size ce_size_only cbor_size_only_init]; lia). eexists _, _. split; [exact E|]. split; [reflexivity|].
  split; [apply W|]. split; [symmetry; apply W|]. split; [unfold cbor_deinit; pose proof (ew_le _ W); cbn in Le; lia|].
  split; [apply forallb_forall; intros x Hx; apply in_map_iff in Hx as (? & <- & _); reflexivity|]. split; [reflexivity|].
  unfold cbor_deinit. cbn [ce_size cbor_size_only_init]. split; [rewrite B; cbn; lia|].
  intros Hs. rewrite (ew_size _ W), T by (apply B; cbn; lia). cbn. lia.
Qed.

Lemma cbor_call_fits ops o L bs e : is_u32 L -> calls_bound (ops ++ [o]) < 4294967296 ->
  cbor_calls (cbor_init L) ops = (bs, e) ->
  exists b e' e0, cbor_do e o = (b, e') /\ cbor_do cbor_size_only_init o = (true, e0) /\
    (b = true <-> cbor_deinit e + cbor_deinit e0 <= L) /\
    (b = true -> cbor_deinit e' = cbor_deinit e + cbor_deinit e0) /\
    cbor_deinit e' <= L /\ contiguous 0 (ce_writes e') /\ exists ws, ce_writes e' = ce_writes e ++ ws.
Proof.
  intros HL Hb E.
  assert (Hc : calls_bound (ops ++ [o]) = calls_bound ops + (9 + zlen (op_data o))).
  { unfold calls_bound. clear. induction ops as [|x r IH]; cbn [app fold_right]; lia. }
  pose proof (ops_bytes_len ops). pose proof (op_bytes_len o). pose proof (zlen_nonneg (op_data o)).
  destruct (cbor_calls_ok ops (cbor_init L) (enc_wf_init _ HL)) as (bs' & e' & E' & W & Le & B & Q & T); [cbn; lia|].
  rewrite E in E'. injection E' as <- <-. cbn in Q, Le.
  destruct (adds_ok (op_chunks o) e W ltac:(fold (op_bytes o); lia)) as (b & e1 & x & E1 & W1 & L1 & B1 & O1 & T1 & _ & S1).
  fold (op_bytes o) in *.
  exists b, e1. pose proof (zlen_nonneg (ops_bytes ops)). rewrite !cbor_do_adds, E1, (adds_size_only (op_chunks o) cbor_size_only_init) by (cbn [ce_size ce_size_only cbor_size_only_init]; fold (op_bytes o); lia). fold (op_bytes o).
  eexists. split; [reflexivity|]. split; [reflexivity|]. unfold cbor_deinit. cbn [ce_size cbor_size_only_init].
  split; [rewrite B1, Le; lia|]. split; [intros Hx; rewrite (ew_size _ W1), O1, (T1 Hx), zlen_app, <- (ew_size _ W); lia|].
  split; [pose proof (ew_le _ W1); lia|]. split; [apply W1|exact S1].
Qed.

Lemma memcpy_writes_ok ws : forall off pre buf, contiguous off ws -> zlen pre = off ->
  zlen (concat (map snd ws)) <= zlen buf ->
  memcpy_writes (pre ++ buf) ws = Some (pre ++ concat (map snd ws) ++ drop (zlen (concat (map snd ws))) buf).
Proof.
  induction ws as [|[o d] r IH]; intros off pre buf Hc Hp Hl; cbn [memcpy_writes map concat snd].
  - rewrite zlen_nil. reflexivity.
  - cbn [contiguous map concat snd] in *. destruct Hc as (-> & _ & Hc). rewrite zlen_app in *.
    pose proof (zlen_nonneg (concat (map snd r))). pose proof (zlen_nonneg d).
    rewrite splice_app_pre by lia. cbn [bind]. rewrite app_assoc. rewrite (IH (off + zlen d)) by (assumption || zl).
    rewrite drop_drop by lia. rewrite <- !app_assoc. do 5 f_equal. lia.
Qed.
Lemma cbor_memcpy e buf : enc_wf e -> ce_len e <= zlen buf ->
  memcpy_writes buf (ce_writes e) = Some (ce_output e ++ drop (zlen (ce_output e)) buf).
Proof.
  intros W Hl. rewrite <- (app_nil_l buf) at 1. apply (memcpy_writes_ok (ce_writes e) 0 [] buf); [apply W|reflexivity|].
  fold (ce_output e). pose proof (ew_size _ W). pose proof (ew_le _ W). lia.
Qed.

(** ** Heads *)
Lemma be_1 a : be [a] = a.
Proof. unfold be. cbn. lia. Qed.
Lemma land_shift v k : 0 <= k -> Z.land (Z.shiftr v k) 255 = v / 2 ^ k mod 256.
Proof. intros. now rewrite land_255, shiftr_div. Qed.

Lemma cbor_mt_val mt : 0 <= mt < 8 -> cbor_mt mt = 32 * mt.
Proof.
  intros H. pose proof (zrange_all (fun m => cbor_mt m =? 32 * m) 8 ltac:(reflexivity) mt ltac:(lia)) as E.
  cbv beta in E. lia.
Qed.

Ltac divm := 
  repeat match goal with
  | |- context[?a / ?b] => 
      lazymatch goal with H : a = b * (a / b) + a mod b |- _ => fail | _ => 
        pose proof (Z.div_mod a b ltac:(lia)); pose proof (Z.mod_pos_bound a b ltac:(lia)) end
  end.

Lemma be_16 v : 0 <= v < 65536 -> be [v / 2 ^ 8 mod 256; v mod 256] = v.
Proof. intros. unfold be. cbn [fold_left]. change (2 ^ 8) with 256. rewrite (Z.mod_small (v / 256)).
  - pose proof (Z.div_mod v 256). lia.
  - split; [apply Z.div_pos; lia|apply Z.div_lt_upper_bound; lia]. Qed.
Lemma split_256 v : v = 256 * (v / 256) + v mod 256.
Proof. apply Z.div_mod. lia. Qed.
Lemma be_32 v : 0 <= v < 4294967296 ->
  be [v / 2 ^ 24 mod 256; v / 2 ^ 16 mod 256; v / 2 ^ 8 mod 256; v mod 256] = v.
Proof.
  intros H. unfold be. cbn [fold_left].
  change (2 ^ 24) with (256 * 256 * 256). change (2 ^ 16) with (256 * 256). change (2 ^ 8) with 256.
  rewrite <- !Z.div_div by lia.
  rewrite (Z.mod_small (v / 256 / 256 / 256)).
  - rewrite (split_256 v) at 5. rewrite (split_256 (v / 256)) at 4. rewrite (split_256 (v / 256 / 256)) at 3. lia.
  - split; [repeat apply Z.div_pos; lia|]. rewrite !Z.div_div by lia. apply Z.div_lt_upper_bound; lia.
Qed.
Lemma be_64 v : 0 <= v < 18446744073709551616 -> be (cbor_be64 v) = v.
Proof.
  intros H. unfold be, cbor_be64. cbn [map fold_left]. rewrite !land_shift by lia.
  change (2 ^ 56) with (256 * 256 * 256 * 256 * 256 * 256 * 256).
  change (2 ^ 48) with (256 * 256 * 256 * 256 * 256 * 256).
  change (2 ^ 40) with (256 * 256 * 256 * 256 * 256). change (2 ^ 32) with (256 * 256 * 256 * 256).
  change (2 ^ 24) with (256 * 256 * 256). change (2 ^ 16) with (256 * 256). change (2 ^ 8) with 256.
  change (2 ^ 0) with 1. rewrite Z.div_1_r.
  rewrite <- !Z.div_div by lia.
  set (a1 := v / 256). set (a2 := a1 / 256). set (a3 := a2 / 256). set (a4 := a3 / 256).
  set (a5 := a4 / 256). set (a6 := a5 / 256). set (a7 := a6 / 256).
  assert (Ha7 : 0 <= a7 < 256).
  { unfold a7, a6, a5, a4, a3, a2, a1. split; [repeat apply Z.div_pos; lia|].
    rewrite !Z.div_div by lia. apply Z.div_lt_upper_bound; lia. }
  rewrite (Z.mod_small a7) by assumption.
  pose proof (split_256 v). fold a1 in H0. pose proof (split_256 a1). fold a2 in H1.
  pose proof (split_256 a2). fold a3 in H2. pose proof (split_256 a3). fold a4 in H3.
  pose proof (split_256 a4). fold a5 in H4. pose proof (split_256 a5). fold a6 in H5.
  pose proof (split_256 a6). fold a7 in H6. lia.
Qed.

Lemma ib_split mt ai : 0 <= mt < 8 -> 0 <= ai < 32 -> (32 * mt + ai) / 32 = mt /\ (32 * mt + ai) mod 32 = ai.
Proof.
  intros. split.
  - symmetry. apply Z.div_unique with ai; lia.
  - symmetry. apply Z.mod_unique with mt; lia.
Qed.

(** What an RFC reader sees in a head produced by the encoder. *)
Lemma cbor_head_read mt v r : 0 <= mt < 8 -> is_u32 v ->
  exists ai, read_head (cbor_head mt v ++ r) = Some (mt, ai, v, r) /\ (v < 24 -> ai = v).
Proof.
  intros Hm Hv. unfold is_u32 in Hv. unfold cbor_head. rewrite cbor_mt_val by assumption. cbv zeta.
  destruct (v <? 24) eqn:E1; [|destruct (v <=? 255) eqn:E2; [|destruct (v <=? 65535) eqn:E3]].
  - rewrite (u8_id v) by (unfold is_u8; lia). rewrite u8_id by (unfold is_u8; lia).
    cbn [app read_head]. destruct (ib_split mt v) as [-> ->]; [lia..|]. rewrite E1. eauto.
  - rewrite u8_id by (unfold is_u8; lia). cbn [app read_head]. destruct (ib_split mt 24) as [-> ->]; [lia..|].
    change (24 <? 24) with false. change (27 <? 24) with false. change (24 =? 24) with true. cbv iota zeta.
    rewrite zlen_cons. pose proof (zlen_nonneg r). replace (1 + zlen r <? 1) with false by lia.
    exists 24. split; [|lia]. repeat f_equal. change (take 1 (Z.land v 255 :: r)) with [Z.land v 255].
    rewrite be_1, land_255, Z.mod_small; lia.
  - rewrite u8_id by (unfold is_u8; lia). cbn [app read_head]. destruct (ib_split mt 25) as [-> ->]; [lia..|].
    change (25 <? 24) with false. change (27 <? 25) with false. change (25 =? 24) with false. change (25 =? 25) with true. cbv iota zeta.
    rewrite !zlen_cons. pose proof (zlen_nonneg r). replace (1 + (1 + zlen r) <? 2) with false by lia.
    exists 25. split; [|lia]. repeat f_equal.
    match goal with |- be (take 2 (?a :: ?b :: r)) = _ => change (take 2 (a :: b :: r)) with [a; b] end.
    rewrite land_shift, land_255 by lia. apply be_16. lia.
  - rewrite u8_id by (unfold is_u8; lia). cbn [app read_head]. destruct (ib_split mt 26) as [-> ->]; [lia..|].
    change (26 <? 24) with false. change (27 <? 26) with false. change (26 =? 24) with false.
    change (26 =? 25) with false. change (26 =? 26) with true. cbv iota zeta.
    rewrite !zlen_cons. pose proof (zlen_nonneg r). replace (1 + (1 + (1 + (1 + zlen r))) <? 4) with false by lia.
    exists 26. split; [|lia]. repeat f_equal.
    match goal with |- be (take 4 (?a :: ?b :: ?c :: ?d :: r)) = _ => change (take 4 (a :: b :: c :: d :: r)) with [a; b; c; d] end.
    rewrite !land_shift, land_255 by lia. now apply be_32.
Qed.
Lemma cbor_long_read mt v r : 0 <= mt < 8 -> is_u64 v ->
  read_head ((Z.lor (cbor_mt mt) 27 :: cbor_be64 v) ++ r) = Some (mt, 27, v, r).
Proof.
  intros Hm Hv. assert (E : Z.lor (cbor_mt mt) 27 = 32 * mt + 27).
  { pose proof (zrange_all (fun m => Z.lor (cbor_mt m) 27 =? 32 * m + 27) 8 ltac:(reflexivity) mt ltac:(lia)) as E.
    cbv beta in E. lia. }
  rewrite E. cbn [app read_head]. destruct (ib_split mt 27) as [-> ->]; [lia..|].
  change (27 <? 24) with false. change (27 <? 27) with false. change (27 =? 24) with false.
  change (27 =? 25) with false. change (27 =? 26) with false. cbv iota zeta.
  pose proof (zlen_be64 v). rewrite zlen_app. pose proof (zlen_nonneg r). replace (zlen (cbor_be64 v) + zlen r <? 8) with false by lia.
  rewrite take_app_exact, drop_app_exact by lia. now rewrite be_64.
Qed.

(** Shortest form: any head read as the same major type and argument is at least as long. *)
Lemma be_bound l : bytes l -> 0 <= be l < 256 ^ zlen l.
Proof.
  unfold be. assert (G : forall l a, bytes l -> 0 <= a -> 0 <= fold_left (fun a b => a * 256 + b) l a < (a + 1) * 256 ^ zlen l).
  { clear. induction l as [|x l IH]; intros a Hb Ha; cbn [fold_left].
    - change (256 ^ zlen (@nil Z)) with 1. lia.
    - inv Hb. unfold is_u8 in *. specialize (IH (a * 256 + x) H2 ltac:(lia)).
      rewrite zlen_cons, Z.pow_add_r by (pose proof (zlen_nonneg l); lia). change (256 ^ 1) with 256.
      assert (0 < 256 ^ zlen l) by (apply Z.pow_pos_nonneg; [lia|apply zlen_nonneg]). nia. }
  intros Hb. specialize (G l 0 Hb ltac:(lia)). lia.
Qed.
Lemma read_head_min e r mt ai v rest : bytes e -> read_head (e ++ r) = Some (mt, ai, v, rest) -> rest = r -> 
  (v < 24 -> 1 <= zlen e) /\ (24 <= v -> 2 <= zlen e) /\ (256 <= v -> 3 <= zlen e) /\ (65536 <= v -> 5 <= zlen e) /\ (4294967296 <= v -> 9 <= zlen e).
Proof.
  intros Hb H Hr. subst rest. 
  destruct e as [|ib t].
  { exfalso. cbn [app] in H. unfold read_head in H. destruct r as [|x r0]; [discriminate|]. cbv zeta in H.
    destruct (_ <? 24); [injection H as _ _ _ H; apply (f_equal zlen) in H; zl|].
    destruct (27 <? _); [discriminate|]. destruct (_ <? _); [discriminate|]. injection H as _ _ _ H. apply (f_equal zlen) in H.
    rewrite zlen_drop, zlen_cons in H. znn. lia. }
  inv Hb. cbn [app read_head] in H. cbv zeta in H. pose proof (Z.mod_pos_bound ib 32 ltac:(lia)).
  destruct (ib mod 32 <? 24) eqn:E1; [injection H as _ _ <- _; zl|].
  destruct (27 <? ib mod 32) eqn:E2; [discriminate|].
  set (n := if ib mod 32 =? 24 then 1 else if ib mod 32 =? 25 then 2 else if ib mod 32 =? 26 then 4 else 8) in *.
  destruct (zlen (t ++ r) <? n) eqn:E3; [discriminate|]. injection H as _ _ Hv Hd.
  assert (Hn : n = 1 \/ n = 2 \/ n = 4 \/ n = 8) by (unfold n; repeat destruct (_ =? _); auto).
  clearbody n. assert (Ht : zlen t = n).
  { apply (f_equal zlen) in Hd. rewrite zlen_drop, zlen_app in *. znn. lia. }
  rewrite take_app_exact in Hv by lia. pose proof (be_bound t H3) as HB. rewrite Ht, Hv in HB. rewrite zlen_cons, Ht.
  destruct Hn as [->|[->|[->| ->]]]; [change (256 ^ 1) with 256 in HB|change (256 ^ 2) with 65536 in HB|change (256 ^ 4) with 4294967296 in HB|]; lia.
Qed.
Lemma cbor_head_shortest mt v e r ai : is_u32 v -> bytes e -> 
  read_head (e ++ r) = Some (mt, ai, v, r) -> zlen (cbor_head mt v) <= zlen e.
Proof.
  intros Hv Hb H. destruct (read_head_min _ _ _ _ _ _ Hb H eq_refl) as (H1 & H2 & H3 & H4 & _).
  unfold cbor_head. cbv zeta. destruct (v <? 24) eqn:E1; [zl|]. destruct (v <=? 255) eqn:E2; [zl|].
  destruct (v <=? 65535) eqn:E3; zl.
Qed.

(** ** Items *)
Lemma sext_xor v k : 0 <= k -> - 2 ^ k <= v < 2 ^ k ->
  Z.land (Z.shiftr v k) 1 = (if v <? 0 then 1 else 0) /\ Z.lxor (Z.shiftr v k) v = if v <? 0 then -1 - v else v.
Proof.
  intros Hk Hv. assert (E : Z.shiftr v k = if v <? 0 then -1 else 0).
  { rewrite Z.shiftr_div_pow2 by lia. pose proof (Z.pow_pos_nonneg 2 k ltac:(lia) Hk).
    destruct (v <? 0) eqn:E.
    - symmetry. apply Z.div_unique with (v + 2 ^ k); lia.
    - apply Z.div_small; lia. }
  rewrite E. destruct (v <? 0) eqn:E1.
  - split; [reflexivity|]. rewrite Z.lxor_m1_l. unfold Z.lnot. lia.
  - split; [reflexivity|]. apply Z.lxor_0_l.
Qed.

Definition int_head (v : Z) : Z * Z := if v <? 0 then (1, -1 - v) else (0, v).
Lemma signed_chunk v : is_s32 v -> op_bytes (OpSigned v) = cbor_head (fst (int_head v)) (snd (int_head v)).
Proof.
  intros Hv. unfold is_s32 in Hv. unfold op_bytes. cbn [op_chunks concat]. rewrite app_nil_r.
  destruct (sext_xor v 31) as [-> ->]; [lia..|]. unfold int_head.
  destruct (v <? 0) eqn:E; cbn [fst snd]; (rewrite u32_id; [reflexivity|unfold is_u32; lia]).
Qed.
Lemma long_chunk v : is_s64 v -> op_bytes (OpLong v) =
  let (mt, n) := int_head v in if n <=? 4294967295 then cbor_head mt n else Z.lor (cbor_mt mt) 27 :: cbor_be64 n.
Proof.
  intros Hv. unfold is_s64 in Hv. unfold op_bytes. cbn [op_chunks concat]. cbv zeta. rewrite app_nil_r.
  destruct (sext_xor v 63) as [-> ->]; [lia..|]. unfold int_head.
  destruct (v <? 0) eqn:E.
  - destruct (-1 - v <=? 4294967295) eqn:E1; [rewrite u32_id by (unfold is_u32; lia); reflexivity|].
    unfold u64. rewrite Z.mod_small by lia. reflexivity.
  - destruct (v <=? 4294967295) eqn:E1; [rewrite u32_id by (unfold is_u32; lia); reflexivity|].
    unfold u64. rewrite Z.mod_small by lia. reflexivity.
Qed.

Lemma doc_ind' (P : doc -> Prop) :
  (forall v, P (DUnsigned v)) -> (forall v, P (DSigned v)) -> (forall v, P (DLong v)) ->
  (forall v, P (DDouble v)) -> P DNull -> (forall b, P (DBytes b)) -> (forall b, P (DString b)) ->
  (forall p, P (DBytesIn p)) -> (forall p, P (DStringIn p)) ->
  (forall l, Forall P l -> P (DArray l)) ->
  (forall l, Forall (fun kv => P (fst kv) /\ P (snd kv)) l -> P (DMap l)) -> forall d, P d.
Proof.
  intros H1 H2 H3 H4 H5 H6 H7 H8 H9 HA HM. fix IH 1. intros d. destruct d.
  - apply H1. - apply H2. - apply H3. - apply H4. - apply H5. - apply H6. - apply H7. - apply H8. - apply H9.
  - apply HA. induction l as [|x l IHl]; constructor; [apply IH|apply IHl].
  - apply HM. induction l as [|[x y] l IHl]; constructor; [split; apply IH|apply IHl].
Qed.

Lemma head_nonempty mt v : exists b t, cbor_head mt v = b :: t.
Proof. unfold cbor_head. cbv zeta. repeat (destruct (_ <? _) || destruct (_ <=? _)); eauto. Qed.
Lemma head_length mt v : (1 <= length (cbor_head mt v))%nat.
Proof. destruct (head_nonempty mt v) as (b & t & ->). cbn. lia. Qed.

Lemma read_string f mt b r : mt = 2 \/ mt = 3 -> is_u32 (zlen b) ->
  read_item (S f) (cbor_head mt (zlen b) ++ b ++ r) = Some (if mt =? 2 then IBytes b else IText b, r).
Proof.
  intros Hm Hl. cbn [read_item].
  destruct (cbor_head_read mt (zlen b) (b ++ r) ltac:(lia) Hl) as (ai & -> & _).
  pose proof (zlen_nonneg r). rewrite zlen_app. replace (zlen b + zlen r <? zlen b) with false by lia.
  rewrite take_app_exact, drop_app_exact by lia.
  destruct Hm as [-> | ->]; reflexivity.
Qed.
Lemma joins_bytes p : ops_bytes (map OpJoin p) = concat p.
Proof.
  unfold ops_bytes. rewrite map_map. f_equal. rewrite <- (map_id p) at 2. apply map_ext. intros a.
  unfold op_bytes. cbn. apply app_nil_r.
Qed.
Lemma flat_ops {A} (f : A -> list cbor_op) x r : ops_bytes (flat_map f (x :: r)) = ops_bytes (f x) ++ ops_bytes (flat_map f r).
Proof. cbn [flat_map]. apply ops_bytes_app. Qed.
Lemma op_bytes_1 d c : op_chunks c = [d] -> ops_bytes [c] = d.
Proof. intros H. rewrite ops_bytes_cons. change (ops_bytes []) with (@nil Z). unfold op_bytes. rewrite H. cbn. now rewrite !app_nil_r. Qed.

Definition reads (d : doc) : Prop := doc_ok d ->
  (1 <= length (ops_bytes (doc_ops d)))%nat /\
  forall fuel r, (2 * length (ops_bytes (doc_ops d)) <= fuel)%nat ->
    read_item fuel (ops_bytes (doc_ops d) ++ r) = Some (doc_value d, r).

Lemma read_many l : Forall reads l -> Forall doc_ok l -> forall fuel r,
  (2 * length (ops_bytes (flat_map doc_ops l)) + 1 <= fuel)%nat ->
  read_items fuel (zlen l) (ops_bytes (flat_map doc_ops l) ++ r) = Some (map doc_value l, r).
Proof.
  induction l as [|d l IH]; intros HR HO fuel r Hf.
  - destruct fuel as [|f]; [lia|]. reflexivity.
  - inv HR. inv HO. destruct (H1 H3) as [L R]. rewrite flat_ops in *. rewrite app_length in Hf.
    destruct fuel as [|f]; [lia|]. cbn [read_items]. rewrite zlen_cons. pose proof (zlen_nonneg l).
    replace (1 + zlen l <=? 0) with false by lia. rewrite <- app_assoc, R by lia.
    replace (1 + zlen l - 1) with (zlen l) by lia. rewrite IH by (assumption || lia). reflexivity.
Qed.

Definition flat2 (l : list (doc * doc)) : list doc := flat_map (fun kv => [fst kv; snd kv]) l.
Lemma flat2_ops l : flat_map (fun kv => doc_ops (fst kv) ++ doc_ops (snd kv)) l = flat_map doc_ops (flat2 l).
Proof. induction l as [|[k v] l IH]; [reflexivity|]. cbn [flat_map flat2 app fst snd]. fold (flat2 l). now rewrite IH, app_assoc. Qed.
Lemma flat2_len l : zlen (flat2 l) = 2 * zlen l.
Proof. induction l as [|[k v] l IH]; [reflexivity|]. cbn [flat2 flat_map app]. fold (flat2 l). rewrite !zlen_cons, IH. lia. Qed.
Lemma flat2_pair l : pair_up (map doc_value (flat2 l)) = map (fun kv => (doc_value (fst kv), doc_value (snd kv))) l.
Proof. induction l as [|[k v] l IH]; [reflexivity|]. cbn [flat2 flat_map app map pair_up fst snd]. fold (flat2 l). now rewrite IH. Qed.
Lemma flat2_Forall (P : doc -> Prop) l : Forall (fun kv => P (fst kv) /\ P (snd kv)) l -> Forall P (flat2 l).
Proof. induction 1 as [|[k v] l [? ?] ? IH]; [constructor|]. cbn [flat2 flat_map app]. fold (flat2 l). cbn in *. repeat constructor; assumption. Qed.

Lemma doc_reads d : reads d.
Proof.
  induction d using doc_ind'; intros Hok; cbn [doc_ok doc_ops doc_value] in *.
  - rewrite (op_bytes_1 (cbor_head 0 v)) by reflexivity. split; [apply head_length|].
    intros [|f] r Hf; [pose proof (head_length 0 v); lia|]. cbn [read_item].
    destruct (cbor_head_read 0 v r ltac:(lia) Hok) as (ai & -> & _). reflexivity.
  - rewrite ops_bytes_cons. change (ops_bytes []) with (@nil Z). rewrite app_nil_r, signed_chunk by assumption. split; [apply head_length|].
    intros [|f] r Hf; [pose proof (head_length (fst (int_head v)) (snd (int_head v))); lia|]. cbn [read_item].
    unfold is_s32 in Hok. unfold int_head in *. destruct (v <? 0) eqn:E; cbn [fst snd] in *.
    + destruct (cbor_head_read 1 (-1 - v) r ltac:(lia)) as (ai & -> & _); [unfold is_u32; lia|].
      change (1 =? 0) with false. change (1 =? 1) with true. cbv iota. repeat f_equal. lia.
    + destruct (cbor_head_read 0 v r ltac:(lia)) as (ai & -> & _); [unfold is_u32; lia|]. reflexivity.
  - rewrite ops_bytes_cons. change (ops_bytes []) with (@nil Z). rewrite app_nil_r, long_chunk by assumption.
    unfold is_s64 in Hok. unfold int_head. destruct (v <? 0) eqn:E; cbv beta iota.
    + destruct (-1 - v <=? 4294967295) eqn:E1.
      * split; [apply head_length|]. intros [|f] r Hf; [pose proof (head_length 1 (-1 - v)); lia|]. cbn [read_item].
        destruct (cbor_head_read 1 (-1 - v) r ltac:(lia)) as (ai & -> & _); [unfold is_u32; lia|].
        change (1 =? 0) with false. change (1 =? 1) with true. cbv iota. repeat f_equal. lia.
      * split; [cbn; lia|]. intros [|f] r Hf; [cbn in Hf; lia|]. cbn [read_item].
        rewrite cbor_long_read by (unfold is_u64; lia).
        change (1 =? 0) with false. change (1 =? 1) with true. cbv iota. repeat f_equal. lia.
    + destruct (v <=? 4294967295) eqn:E1.
      * split; [apply head_length|]. intros [|f] r Hf; [pose proof (head_length 0 v); lia|]. cbn [read_item].
        destruct (cbor_head_read 0 v r ltac:(lia)) as (ai & -> & _); [unfold is_u32; lia|]. reflexivity.
      * split; [cbn; lia|]. intros [|f] r Hf; [cbn in Hf; lia|]. cbn [read_item].
        rewrite cbor_long_read by (unfold is_u64; lia). reflexivity.
  - rewrite (op_bytes_1 (Z.lor (cbor_mt 7) 27 :: cbor_be64 v)) by reflexivity. split; [cbn; lia|].
    intros [|f] r Hf; [cbn in Hf; lia|]. cbn [read_item]. rewrite cbor_long_read by (assumption || lia). reflexivity.
  - change (ops_bytes [OpNull]) with [246]. split; [cbn; lia|]. intros [|f] r Hf; [cbn in Hf; lia|]. reflexivity.
  - rewrite ops_bytes_cons. change (ops_bytes []) with (@nil Z). rewrite app_nil_r. unfold op_bytes. cbn [op_chunks concat].
    rewrite app_nil_r, u32_id by assumption. rewrite app_length. pose proof (head_length 2 (zlen b)). split; [lia|].
    intros [|f] r Hf; [lia|]. rewrite <- app_assoc. rewrite read_string by auto. reflexivity.
  - rewrite ops_bytes_cons. change (ops_bytes []) with (@nil Z). rewrite app_nil_r. unfold op_bytes. cbn [op_chunks concat].
    rewrite app_nil_r, u32_id by assumption. rewrite app_length. pose proof (head_length 3 (zlen b)). split; [lia|].
    intros [|f] r Hf; [lia|]. rewrite <- app_assoc. rewrite read_string by auto. reflexivity.
  - rewrite ops_bytes_cons, joins_bytes.
    replace (op_bytes (OpBytesBegin (zlen (concat p)))) with (cbor_head 2 (zlen (concat p))) by (unfold op_bytes; cbn; now rewrite app_nil_r).
    rewrite app_length. pose proof (head_length 2 (zlen (concat p))). split; [lia|].
    intros [|f] r Hf; [lia|]. rewrite <- app_assoc. rewrite read_string by auto. reflexivity.
  - rewrite ops_bytes_cons, joins_bytes.
    replace (op_bytes (OpStringBegin (zlen (concat p)))) with (cbor_head 3 (zlen (concat p))) by (unfold op_bytes; cbn; now rewrite app_nil_r).
    rewrite app_length. pose proof (head_length 3 (zlen (concat p))). split; [lia|].
    intros [|f] r Hf; [lia|]. rewrite <- app_assoc. rewrite read_string by auto. reflexivity.
  - destruct Hok as [Hl Hok]. assert (HO : Forall doc_ok l).
    { clear - Hok. induction l as [|x l IH]; constructor; [apply Hok|apply IH, Hok]. }
    rewrite ops_bytes_cons. unfold op_bytes. cbn [op_chunks concat]. rewrite app_nil_r, app_length.
    pose proof (head_length 4 (zlen l)). split; [lia|].
    intros [|f] r Hf; [lia|]. rewrite <- app_assoc. cbn [read_item].
    destruct (cbor_head_read 4 (zlen l) (ops_bytes (flat_map doc_ops l) ++ r) ltac:(lia) Hl) as (ai & -> & _).
    change (4 =? 0) with false. change (4 =? 1) with false. change (4 =? 2) with false. change (4 =? 3) with false. change (4 =? 4) with true. cbv iota.
    rewrite read_many by (assumption || lia). reflexivity.
  - destruct Hok as [Hl Hok]. assert (HO : Forall (fun kv => doc_ok (fst kv) /\ doc_ok (snd kv)) l).
    { clear - Hok. induction l as [|x l IH]; constructor; [apply Hok|apply IH, Hok]. }
    rewrite flat2_ops. apply flat2_Forall in H, HO.
    rewrite ops_bytes_cons. unfold op_bytes. cbn [op_chunks concat]. rewrite app_nil_r, app_length.
    pose proof (head_length 5 (zlen l)). split; [lia|].
    intros [|f] r Hf; [lia|]. rewrite <- app_assoc. cbn [read_item].
    destruct (cbor_head_read 5 (zlen l) (ops_bytes (flat_map doc_ops (flat2 l)) ++ r) ltac:(lia) Hl) as (ai & -> & _).
    change (5 =? 0) with false. change (5 =? 1) with false. change (5 =? 2) with false. change (5 =? 3) with false.
    change (5 =? 4) with false. change (5 =? 5) with true. cbv iota.
    rewrite <- flat2_len, read_many by (assumption || lia). now rewrite flat2_pair.
Qed.

Lemma doc_cbor_read d r : doc_ok d -> cbor_read (ops_bytes (doc_ops d) ++ r) = Some (doc_value d, r).
Proof.
  intros H. destruct (doc_reads d H) as [_ R]. unfold cbor_read. apply R. rewrite app_length. lia.
Qed.

(** Serializing any document into enough space succeeds and an RFC reader recovers it. *)
Lemma cbor_document d L : doc_ok d -> is_u32 L -> calls_bound (doc_ops d) < 4294967296 ->
  exists e0 b e, cbor_seq cbor_size_only_init (doc_ops d) = (true, e0) /\
    cbor_seq (cbor_init L) (doc_ops d) = (b, e) /\ (b = true <-> cbor_deinit e0 <= L) /\
    cbor_deinit e = zlen (ce_output e) /\
    (b = true -> cbor_deinit e = cbor_deinit e0 /\
       forall rest, cbor_read (ce_output e ++ rest) = Some (doc_value d, rest)).
Proof.
  intros Hd HL Hs. pose proof (ops_bytes_len (doc_ops d)).
  rewrite (cbor_seq_size_only (doc_ops d) cbor_size_only_init) by (cbn [ce_size ce_size_only cbor_size_only_init]; lia).
  destruct (cbor_seq_ok (doc_ops d) (cbor_init L) (enc_wf_init _ HL)) as (b & e & o & E & W & Le & B & O & T & _); [cbn; lia|].
  eexists _, b, e. split; [reflexivity|]. split; [exact E|]. unfold cbor_deinit. cbn [ce_size cbor_size_only_init]. split; [rewrite B; cbn; lia|].
  split; [apply W|].
  intros Hb. rewrite (ew_size _ W), O, (T Hb). cbn [ce_output app cbor_init ce_writes map concat].
  split; [cbn; lia|]. intros rest. now apply doc_cbor_read.
Qed.

(** ** Shortest form *)
Lemma int_shortest o v alt rest : (o = OpUnsigned v /\ is_u32 v) \/ (o = OpSigned v /\ is_s32 v) \/ (o = OpLong v /\ is_s64 v) ->
  bytes alt -> bytes rest -> cbor_read (alt ++ rest) = Some (IInt v, rest) -> zlen (op_bytes o) <= zlen alt.
Proof.
  intros Ho Hb Hr H. unfold cbor_read in H. destruct (2 * length (alt ++ rest))%nat as [|f]; [discriminate|]. cbn [read_item] in H.
  destruct (read_head (alt ++ rest)) as [[[[mt ai] n] r]|] eqn:E; [|discriminate].
  assert (Hn : 0 <= n).
  { clear - E Hb Hr. assert (Hbb : bytes (alt ++ rest)) by now apply bytes_app.
    unfold read_head in E. destruct (alt ++ rest) as [|z l]; [discriminate|]. inv Hbb. cbv zeta in E.
    pose proof (Z.mod_pos_bound z 32 ltac:(lia)).
    destruct (_ <? 24); [injection E as _ _ <- _; lia|]. destruct (27 <? _); [discriminate|]. destruct (_ <? _); [discriminate|].
    injection E as _ _ <- _. apply be_bound. now apply bytes_take. }
  assert (Hv : snd (int_head v) = n /\ r = rest).
  { unfold int_head. destruct (mt =? 0); [injection H as <- <-; ifz; auto|].
    destruct (mt =? 1); [injection H as <- <-; ifz; cbn; split; [lia|reflexivity]|].
    destruct (mt =? 2); [destruct (_ <? _); discriminate|]. destruct (mt =? 3); [destruct (_ <? _); discriminate|].
    destruct (mt =? 4); [destruct (read_items f n r) as [[? ?]|]; discriminate|].
    destruct (mt =? 5); [destruct (read_items f (2 * n) r) as [[? ?]|]; discriminate|].
    destruct (mt =? 6); [destruct (read_item f r) as [[? ?]|]; discriminate|].
    destruct (_ <? _); [discriminate|]. destruct (_ =? _); discriminate. }
  destruct Hv as [Hv ->]. destruct (read_head_min _ _ _ _ _ _ Hb E eq_refl) as (H1 & H2 & H3 & H4 & H5).
  assert (HH : forall m x, is_u32 x -> x = n -> zlen (cbor_head m x) <= zlen alt).
  { intros m x Hx ->. unfold cbor_head. cbv zeta. destruct (n <? 24) eqn:E1; [zl|]. destruct (n <=? 255) eqn:E2; [zl|].
    destruct (n <=? 65535) eqn:E3; zl. }
  destruct Ho as [[-> Hok]|[[-> Hok]|[-> Hok]]].
  - unfold op_bytes. cbn [op_chunks concat]. rewrite app_nil_r. apply HH; [assumption|].
    unfold int_head in Hv. unfold is_u32 in Hok. ifz_in Hv. exact Hv.
  - rewrite signed_chunk by assumption. apply HH; [|assumption]. unfold is_s32 in Hok. unfold int_head, is_u32. destruct (v <? 0) eqn:Ev; cbn; lia.
  - rewrite long_chunk by assumption. unfold is_s64 in Hok. destruct (int_head v) as [m x] eqn:Ei. cbn [snd] in Hv. subst x.
    destruct (n <=? 4294967295) eqn:E1; [apply HH; [unfold is_u32; lia|reflexivity]|]. rewrite zlen_cons, zlen_be64. lia.
Qed.
Lemma cbor_do_output e o : enc_wf e -> ce_size e + zlen (op_bytes o) < 4294967296 -> forall e', cbor_do e o = (true, e') ->
  ce_output e' = ce_output e ++ op_bytes o.
Proof.
  intros W Hl e' E. rewrite cbor_do_adds in E.
  destruct (adds_ok _ e W Hl) as (b & e1 & x & E1 & _ & _ & _ & O & T & _). rewrite E in E1. injection E1 as <- <-.
  rewrite O, (T eq_refl). reflexivity.
Qed.
Lemma int_shortest_out o v L e alt rest :
  (o = OpUnsigned v /\ is_u32 v) \/ (o = OpSigned v /\ is_s32 v) \/ (o = OpLong v /\ is_s64 v) ->
  is_u32 L -> cbor_do (cbor_init L) o = (true, e) -> bytes alt -> bytes rest ->
  cbor_read (alt ++ rest) = Some (IInt v, rest) -> zlen (ce_output e) <= zlen alt.
Proof.
  intros Ho HL E Hb Hr H. rewrite (cbor_do_output _ o (enc_wf_init _ HL)) with (e' := e); [|cbn|exact E].
  - cbn. now apply int_shortest with v rest.
  - pose proof (op_bytes_len o). assert (op_data o = []) by (destruct Ho as [[-> _]|[[-> _]|[-> _]]]; reflexivity). rewrite H1, zlen_nil in H0. lia.
Qed.

(** The head in front of a string, array or map. *)
Definition op_head (o : cbor_op) : option (Z * Z) :=
  match o with
  | OpBytes b => Some (2, zlen b) | OpString s => Some (3, zlen s)
  | OpBytesBegin n => Some (2, n) | OpStringBegin n => Some (3, n)
  | OpArray n => Some (4, n) | OpDict n => Some (5, n)
  | _ => None
  end.
Lemma head_shortest_out o mt n L e : op_head o = Some (mt, n) -> is_u32 n -> is_u32 L -> zlen (op_data o) < 4294967287 ->
  cbor_do (cbor_init L) o = (true, e) ->
  exists h, ce_output e = h ++ op_data o /\
    (forall rest, exists ai, read_head (h ++ rest) = Some (mt, ai, n, rest)) /\
    (forall alt rest ai, bytes alt -> read_head (alt ++ rest) = Some (mt, ai, n, rest) -> zlen h <= zlen alt).
Proof.
  intros Ho Hn HL Hd E. pose proof (op_bytes_len o).
  rewrite (cbor_do_output _ o (enc_wf_init _ HL)) with (e' := e); [|cbn; lia|exact E]. cbn [cbor_init ce_output ce_writes map concat app].
  exists (cbor_head mt n). split; [|split].
  - destruct o; try discriminate; injection Ho as <- <-; unfold op_bytes; cbn [op_chunks concat op_data];
      rewrite ?u32_id by assumption; rewrite ?app_nil_r; reflexivity.
  - intros rest. assert (Hm : 0 <= mt < 8) by (destruct o; try discriminate; injection Ho as <- _; lia).
    destruct (cbor_head_read mt n rest Hm Hn) as (ai & -> & _). eauto.
  - intros alt rest ai Hb H0. eapply cbor_head_shortest; eassumption.
Qed.
