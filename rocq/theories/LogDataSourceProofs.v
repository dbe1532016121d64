From Verif Require Import Base CircularBuffer CircularBufferSpec CircularBufferProofs Log LogSpec LogLists LogProofs LogHistoryProofs
  Cbor CborSpec CborDoc CborProofs SerializerHelper SerializerHelperSpec SerializerHelperProofs SerializerDocs LogDataSource LogDataSourceSpec.

(** ** Reading a message of the ring: one or two pieces *)
Definition parts (cap pos : Z) (d : list Z) : list (list Z) :=
  if zlen d =? 0 then []
  else let k := cap - pos mod cap in if zlen d <=? k then [d] else [take k d; drop k d].
Fixpoint run_parts (f : list (Z * list Z) -> Z -> list Z -> bool) (tr : list (Z * list Z)) (dst : Z) (ps : list (list Z))
  : bool * list (Z * list Z) :=
  match ps with
  | [] => (true, tr)
  | p :: r => if f tr dst p then run_parts f (tr ++ [(dst, p)]) (dst + zlen p) r else (false, tr ++ [(dst, p)])
  end.

Lemma rwc_end fuel c off n f tr : cb_rwc_loop (S fuel) c off n 0 f tr = Some (true, tr).
Proof. reflexivity. Qed.
Lemma rwc_parts c off n f : cb_wf c -> 0 <= off -> 0 <= n -> off + n <= sz c ->
  cb_read_with_callback c off n f = Some (run_parts f [] 0 (parts (tot c) (rd c + off) (take n (drop off (content c))))).
Proof.
  intros W Ho Hn Hs. pose proof W as (H1 & H2 & H3 & H4 & H5). pose proof (content_len c W) as LC.
  unfold cb_read_with_callback. rewrite u32_id by (unfold is_u32; lia). replace (sz c <? off + n) with false by lia.
  set (d := take n (drop off (content c))). assert (Ld : zlen d = n) by (unfold d; zl).
  unfold parts. rewrite Ld. destruct (n =? 0) eqn:E0.
  { assert (N0 : n = 0) by lia. rewrite N0. apply rwc_end. }
  cbn [cb_rwc_loop]. rewrite E0. replace (n - n) with 0 by lia. rewrite Z.add_0_r, u32_id by (unfold is_u32; lia).
  assert (HM : (rd c + off) mod tot c = if rd c + off <? tot c then rd c + off else rd c + off - tot c).
  { rewrite <- (ring_idx (rd c) off) by lia. rewrite u32_id by (unfold is_u32; lia). reflexivity. }
  unfold cb_get_read_pointer at 1. replace (sz c <? off) with false by lia.
  pose proof (cb_ptr_ok c off W ltac:(unfold is_u32; lia)) as P. unfold cb_get_read_pointer in P. replace (sz c <? off) with false in P by lia.
  rewrite (u32_id (rd c + off)) in * by (unfold is_u32; lia).
  set (idx := (rd c + off) mod tot c) in *.
  destruct P as (_ & _ & _ & P4 & P5 & _ & P7). set (l := Z.min (tot c - idx) (sz c - off)) in *.
  destruct (n <=? tot c - idx) eqn:EK.
  - replace (Z.min n l) with n by (unfold l; lia). rewrite (P7 n) by (unfold l; lia). cbn [bind run_parts app]. fold d.
    destruct (f [] 0 d); [|reflexivity]. replace (n - n) with 0 by lia.
    destruct (Z.to_nat n) eqn:EN; [lia|]. apply rwc_end.
  - assert (El : l = tot c - idx) by (unfold l; lia). replace (Z.min n l) with l by (unfold l; lia).
    rewrite (P7 l) by (unfold l; lia). cbn [bind run_parts app].
    assert (T1 : take l (drop off (content c)) = take (tot c - idx) d).
    { unfold d. rewrite take_take. f_equal. lia. }
    rewrite T1. destruct (f [] 0 (take (tot c - idx) d)); [|reflexivity].
    destruct (Z.to_nat n) as [|fuel] eqn:EN; [lia|]. cbn [cb_rwc_loop]. replace (n - l =? 0) with false by lia.
    replace (n - (n - l)) with l by lia. rewrite u32_id by (unfold is_u32; lia).
    unfold cb_get_read_pointer at 1. replace (sz c <? off + l) with false by lia.
    pose proof (cb_ptr_ok c (off + l) W ltac:(unfold is_u32; lia)) as P. unfold cb_get_read_pointer in P. replace (sz c <? off + l) with false in P by lia.
    destruct P as (_ & _ & _ & Q4 & Q5 & _ & Q7).
    assert (I2 : u32 (rd c + (off + l)) mod tot c = 0).
    { rewrite u32_id by (unfold is_u32; lia). unfold idx in *. rewrite HM in *. destruct (rd c + off <? tot c) eqn:EF.
      - replace (rd c + (off + l)) with (tot c) by lia. apply Z.mod_same; lia.
      - exfalso. lia. }
    rewrite I2 in *. replace (Z.min (n - l) (Z.min (tot c - 0) (sz c - (off + l)))) with (n - l) by lia.
    rewrite (Q7 (n - l)) by lia. cbn [bind].
    assert (T2 : take (n - l) (drop (off + l) (content c)) = drop (tot c - idx) d).
    { unfold d. rewrite <- El. replace (take n (drop off (content c))) with (take (l + (n - l)) (drop off (content c))) by (f_equal; lia).
      rewrite take_plus by lia. rewrite drop_app_exact by (rewrite zlen_take, zlen_drop; clear -LC Hs El EK Ho Hn P4; lia). rewrite drop_drop by lia. f_equal. f_equal. lia. }
    rewrite T2. cbn [run_parts app]. rewrite Z.add_0_l. replace (zlen (take (tot c - idx) d)) with l by (zl).
    destruct (f _ l (drop (tot c - idx) d)); [|reflexivity]. replace (n - l - (n - l)) with 0 by lia.
    destruct fuel; [lia|]. apply rwc_end.
Qed.

(** ** The calls made for a log *)
Definition text_ops (level type : Z) (b : list Z) : list cbor_op :=
  OpUnsigned level :: if type =? 0 then [OpStringBegin (zlen b); OpJoin b] else [OpBytes b].
Definition blk (tse : bool) (level type : Z) (t : bool) (buf : list Z) : option (list cbor_op) :=
  if tse then
    if t then match buf with
              | b0 :: b1 :: b2 :: b3 :: rest => Some (OpUnsigned (b0 + 256 * b1 + 65536 * b2 + 16777216 * b3) :: text_ops level type rest)
              | _ => None
              end
    else Some (OpUnsigned 0 :: text_ops level type buf)
  else Some (text_ops level type buf).
Fixpoint parts_ops (tse : bool) (level type : Z) (t : bool) (ps : list (list Z)) : list cbor_op :=
  match ps with
  | [] => []
  | p :: r => match blk tse level type t p with Some o => o ++ parts_ops tse level type t r | None => [] end
  end.
Lemma text_run hdr e b : lds_text hdr e b = cbor_seq e (text_ops (hdr_level hdr) (hdr_type hdr) b).
Proof. unfold lds_text, text_ops. now rewrite run_all. Qed.
Lemma block_run tse hdr e buf : lds_block tse hdr e buf =
  match blk tse (hdr_level hdr) (hdr_type hdr) (hdr_ts hdr) buf with Some o => cbor_seq e o | None => (false, e) end.
Proof.
  unfold lds_block, blk. destruct tse; [|apply text_run]. destruct (hdr_ts hdr).
  - destruct buf as [|b0 [|b1 [|b2 [|b3 r]]]]; try reflexivity. cbn [cbor_seq cbor_do]. destruct (cbor_encode_unsigned e _) as [[|] e1]; [apply text_run|reflexivity].
  - cbn [cbor_seq cbor_do]. destruct (cbor_encode_unsigned e 0) as [[|] e1]; [apply text_run|reflexivity].
Qed.

Definition big (e : cbor_enc) : Prop := enc_any e /\ (ce_size_only e = true \/ ce_len e = 4294967295).
Lemma seq_big ops e : big e -> ce_size e + zlen (ops_bytes ops) < 4294967296 ->
  exists e', cbor_seq e ops = (true, e') /\ big e' /\ ce_size e' = ce_size e + zlen (ops_bytes ops).
Proof.
  intros (A & L) H. destruct A as [[S P]|W].
  - rewrite cbor_seq_size_only by assumption. eexists. split; [reflexivity|]. cbn [ce_size]. split; [|reflexivity].
    pose proof (zlen_nonneg (ops_bytes ops)). split; [left; cbn; split; [reflexivity|lia]|left; reflexivity].
  - destruct (cbor_seq_ok ops e W H) as (b & e' & o & E & W' & L' & B & O & T & _).
    assert (b = true). { apply B. destruct L as [L|L]; [rewrite (ew_so _ W) in L; discriminate|]. lia. } subst b.
    exists e'. split; [exact E|]. split; [|rewrite (ew_size _ W'), O, zlen_app, <- (ew_size _ W), (T eq_refl); reflexivity].
    split; [now right|]. destruct L as [L|L]; [rewrite (ew_so _ W) in L; discriminate|]. right. congruence.
Qed.

Lemma blocks_snoc tse hdr e tr dst p : lds_blocks tse hdr e (tr ++ [(dst, p)]) = snd (lds_block tse hdr (lds_blocks tse hdr e tr) p).
Proof. unfold lds_blocks. rewrite fold_left_app. reflexivity. Qed.
Lemma copy_parts tse hdr e ps : let po := parts_ops tse (hdr_level hdr) (hdr_type hdr) (hdr_ts hdr) in
  forall tr dst, big (lds_blocks tse hdr e tr) -> ce_size (lds_blocks tse hdr e tr) + zlen (ops_bytes (po ps)) < 4294967296 ->
  exists ok tr' e', run_parts (fun made _ buf => fst (lds_block tse hdr (lds_blocks tse hdr e made) buf)) tr dst ps = (ok, tr') /\
    lds_blocks tse hdr e tr' = e' /\ cbor_seq (lds_blocks tse hdr e tr) (po ps) = (true, e').
Proof.
  intros po. induction ps as [|p ps IH]; intros tr dst B H; cbn [run_parts]; [eexists _, _, _; split; [reflexivity|split; reflexivity]|].
  unfold po in *. cbn [parts_ops] in *. rewrite block_run. destruct (blk _ _ _ _ p) as [o|] eqn:EB.
  - rewrite ops_bytes_app, zlen_app in H. pose proof (zlen_nonneg (ops_bytes (parts_ops tse (hdr_level hdr) (hdr_type hdr) (hdr_ts hdr) ps))).
    destruct (seq_big o _ B ltac:(lia)) as (e1 & E1 & B1 & S1). rewrite E1. cbn [fst].
    assert (EN : lds_blocks tse hdr e (tr ++ [(dst, p)]) = e1) by (rewrite blocks_snoc, block_run, EB, E1; reflexivity).
    destruct (IH (tr ++ [(dst, p)]) (dst + zlen p)) as (ok & tr' & e' & ER & EL & ES); [now rewrite EN|rewrite EN; lia|].
    exists ok, tr', e'. split; [exact ER|]. split; [exact EL|]. rewrite seq_app, E1, <- EN. exact ES.
  - cbn [fst]. eexists _, _, _. split; [reflexivity|]. rewrite blocks_snoc, block_run, EB. split; reflexivity.
Qed.

(** The calls for a log stored at [pos]. *)
Definition h_ts (e : hlog) : bool := match l_ts e with Some _ => true | None => false end.
Definition h_payload (e : hlog) : list Z := (match l_ts e with Some t => le32 t | None => [] end) ++ l_text e.
Definition entry_ops (tse : bool) (cap pos : Z) (e : hlog) : list cbor_op :=
  parts_ops tse (l_level e) (l_type e) (h_ts e) (parts cap (pos + 2) (h_payload e)).
Fixpoint up_ops (tse : bool) (cap pos : Z) (l : list hlog) : list cbor_op :=
  match l with [] => [] | e :: r => entry_ops tse cap pos e ++ up_ops tse cap (pos + hroom e) r end.
Definition hl (e : slog) : hlog := mk_hlog (g_level e) (g_type e) (g_ts e) (g_text e).
Fixpoint sops (tse : bool) (cap pos n : Z) (l : list slog) : list cbor_op :=
  match l with
  | [] => []
  | e :: r => if g_sent e then sops tse cap (pos + room e) n r
              else entry_ops tse cap pos (hl e) ++ (if n =? 1 then [] else sops tse cap (pos + room e) (n - 1) r)
  end.

Lemma copy_ok M tse cap c pre e post enc : cb_is c cap (pre ++ e :: post) -> fine M tse e -> big enc ->
  ce_size enc + zlen (ops_bytes (entry_ops tse cap (rd c + rooms pre) (hl e))) < 4294967296 ->
  exists ok enc', lds_copy_msg tse c (rooms pre) (hdr_e e) (zlen (payload e)) enc = Some (ok, enc') /\
    cbor_seq enc (entry_ops tse cap (rd c + rooms pre) (hl e)) = (true, enc').
Proof.
  intros H F B HS. destruct (cb_is_sz _ _ _ H) as (SZ & Hc & Hr). pose proof H as (W & T & C).
  rewrite rooms_app in *. cbn [rooms] in *. pose proof (rooms_nonneg pre). pose proof (rooms_nonneg post). pose proof (room_pos e).
  pose proof (payload_len e) as PL. unfold lds_copy_msg. rewrite u32_in by lia.
  rewrite rwc_parts by (try assumption; lia).
  assert (ED : take (zlen (payload e)) (drop (rooms pre + 2) (content c)) = payload e).
  { rewrite C, lenc_app, lenc_cons. unfold ebytes.
    replace (lenc pre ++ (hdr_e e :: zlen (payload e) :: payload e) ++ lenc post) with ((lenc pre ++ [hdr_e e; zlen (payload e)]) ++ (payload e ++ lenc post)) by (rewrite <- app_assoc; reflexivity).
    rewrite drop_app_exact by (rewrite zlen_app, lenc_len; reflexivity). now apply take_app_exact. }
  rewrite ED, T. pose proof (fine_hdr _ _ _ F) as HF. hdrs HF. fold (hdr_e e) in *. apply eqb_prop in HF7.
  assert (EL : hdr_level (hdr_e e) = g_level e) by lia. assert (ET : hdr_type (hdr_e e) = g_type e) by lia.
  unfold entry_ops in *. change (h_payload (hl e)) with (payload e) in *. change (h_ts (hl e)) with (has_ts e) in *. cbn [hl l_level l_type] in *.
  rewrite <- EL, <- ET, <- HF7 in *. rewrite <- Z.add_assoc in *.
  destruct (copy_parts tse (hdr_e e) enc (parts cap (rd c + (rooms pre + 2)) (payload e)) [] 0 B HS) as (ok & tr & e' & ER & EB & ES).
  rewrite ER. cbn [bind fst snd]. exists ok, e'. rewrite EB. split; [reflexivity|exact ES].
Qed.

(** ** Going through the logs *)
Lemma enc_loop M tse cap stop num c : num < 4294967296 -> forall rest pre e err cnt fuel,
  cb_is c cap (pre ++ rest) -> Forall (fine M tse) rest -> (length rest < fuel)%nat -> big e -> 0 <= cnt < num ->
  ce_size e + zlen (ops_bytes (sops tse cap (rd c + rooms pre) (num - cnt) rest)) < 4294967296 ->
  exists done left e' err' cnt' off', log_iterate fuel (lds_encode_cb tse num stop) c (e, err, cnt) (rooms pre) = Some (c, (e', err', cnt'), off') /\
    sops tse cap (rd c + rooms pre) (num - cnt) rest = done ++ left /\ cbor_seq e done = (true, e') /\
    (left = [] \/ lds_stopped stop e' = true).
Proof.
  intros HN. induction rest as [|x rest IH]; intros pre e err cnt fuel H F Hf B Hc HS; (destruct fuel as [|fuel]; [cbn in Hf; lia|]); cbn [log_iterate].
  - rewrite app_nil_r in H. rewrite (read_end _ _ _ H). cbn [bind sops]. exists [], [], e, err, cnt, (rooms pre). split; [reflexivity|]. split; [reflexivity|]. split; [reflexivity|now left].
  - rewrite (read_hdr _ _ _ _ _ H). cbn [bind]. unfold lds_encode_cb at 1.
    destruct (lds_stopped stop e) eqn:ES.
    { cbn [bind]. exists [], (sops tse cap (rd c + rooms pre) (num - cnt) (x :: rest)), e, err, cnt, (u32 (rooms pre + (2 + zlen (payload x)))).
      split; [reflexivity|]. split; [reflexivity|]. split; [reflexivity|now right]. }
    pose proof (Forall_inv F) as Fx. pose proof (fine_hdr _ _ _ Fx) as HF. hdrs HF. fold (hdr_e x) in *. apply eqb_prop in HF6. rewrite HF6.
    destruct (cb_is_sz _ _ _ H) as (SZ & Hcc & Hr). rewrite rooms_app in Hr. cbn [rooms] in Hr.
    pose proof (rooms_nonneg pre). pose proof (rooms_nonneg rest). pose proof (room_pos x).
    assert (P : cb_is c cap ((pre ++ [x]) ++ rest)) by (rewrite <- app_assoc; exact H).
    assert (RP : rooms (pre ++ [x]) = rooms pre + room x) by (rewrite rooms_app; cbn [rooms]; lia).
    assert (OFF : u32 (rooms pre + (2 + zlen (payload x))) = rooms (pre ++ [x])) by (rewrite payload_len, u32_in by lia; lia).
    cbn [sops] in *. destruct (g_sent x).
    + cbn [bind]. rewrite OFF.
      destruct (IH (pre ++ [x]) e err cnt fuel P (Forall_inv_tail F) ltac:(cbn [length] in Hf; lia) B Hc) as (dn & lf & e' & err' & cnt' & off' & EI & EO & EQ & EX).
      { rewrite RP, Z.add_assoc. exact HS. }
      rewrite RP, Z.add_assoc in EO. exists dn, lf, e', err', cnt', off'. auto.
    + rewrite ops_bytes_app, zlen_app in HS.
      set (tl := if num - cnt =? 1 then [] else _) in *. pose proof (zlen_nonneg (ops_bytes tl)).
      destruct (copy_ok M tse cap c pre x rest e H Fx B ltac:(lia)) as (ok & e1 & EC & E1). rewrite EC. cbn [bind fst snd].
      destruct (seq_big (entry_ops tse cap (rd c + rooms pre) (hl x)) e B ltac:(lia)) as (e2 & E2 & B1 & S1). rewrite E1 in E2. injection E2 as <-.
      rewrite (u32_in (cnt + 1)) by lia. rewrite OFF.
      destruct (cnt + 1 =? num) eqn:EN; cbn [negb].
      * assert (TL : tl = []) by (unfold tl; now replace (num - cnt =? 1) with true by lia). rewrite TL, app_nil_r.
        exists (entry_ops tse cap (rd c + rooms pre) (hl x)), [], e1, (err || negb ok), (cnt + 1), (rooms (pre ++ [x])).
        rewrite app_nil_r. split; [reflexivity|]. split; [reflexivity|]. split; [exact E1|now left].
      * assert (TL : tl = sops tse cap (rd c + rooms pre + room x) (num - (cnt + 1)) rest) by (unfold tl; replace (num - cnt =? 1) with false by lia; f_equal; lia).
        rewrite TL in *.
        destruct (IH (pre ++ [x]) e1 (err || negb ok) (cnt + 1) fuel P (Forall_inv_tail F) ltac:(cbn [length] in Hf; lia) B1 ltac:(lia)) as (dn & lf & e' & err' & cnt' & off' & EI & EO & EQ & EX).
        { rewrite RP, Z.add_assoc. lia. }
        rewrite RP, Z.add_assoc in EO.
        exists (entry_ops tse cap (rd c + rooms pre) (hl x) ++ dn), lf, e', err', cnt', off'. split; [exact EI|]. split; [rewrite EO, app_assoc; reflexivity|].
        split; [|exact EX]. rewrite seq_app, E1. exact EQ.
Qed.

(** ** The writes, copied to the destination *)
Definition cnt_of (off L : Z) (P : list Z) : Z := Z.max 0 (Z.min (zlen P - off) L).
Definition cp_of (off : Z) (buf P : list Z) : list Z :=
  let n := cnt_of off (zlen buf) P in take n (drop off P) ++ drop n buf.
Lemma cp_len off buf P : 0 <= off -> zlen (cp_of off buf P) = zlen buf.
Proof.
  intros H. unfold cp_of, cnt_of. pose proof (zlen_nonneg buf). pose proof (zlen_nonneg P).
  rewrite zlen_app, zlen_take, !zlen_drop. lia.
Qed.
Lemma write_ok off buf P d : 0 <= off -> off + zlen buf < 4294967296 -> zlen P + zlen d < 4294967296 -> d <> [] ->
  lds_write off (cp_of off buf P, cnt_of off (zlen buf) P) (zlen P, d) = Some (cp_of off buf (P ++ d), cnt_of off (zlen buf) (P ++ d)).
Proof.
  intros Ho Hb Hd Hne. pose proof (zlen_nonneg buf). pose proof (zlen_nonneg P).
  assert (0 < zlen d). { pose proof (zlen_nonneg d). destruct (Z.eq_dec (zlen d) 0) as [E|E]; [|lia]. apply zlen_0_nil in E. contradiction. }
  unfold lds_write. rewrite cp_len by lia. rewrite !u32_id by (unfold is_u32; lia).
  assert (SAME : cnt_of off (zlen buf) (P ++ d) = cnt_of off (zlen buf) P -> (off + cnt_of off (zlen buf) P <= zlen P \/ cnt_of off (zlen buf) P = 0) ->
     Some (cp_of off buf P, cnt_of off (zlen buf) P) = Some (cp_of off buf (P ++ d), cnt_of off (zlen buf) (P ++ d))).
  { intros E1 E2. rewrite E1. f_equal. f_equal. unfold cp_of. rewrite E1. f_equal. destruct E2 as [E2|E2].
    - rewrite drop_app_le by (unfold cnt_of in E2; lia). rewrite take_app_le; [reflexivity|]. rewrite zlen_drop. unfold cnt_of in E2 |- *. lia.
    - rewrite E2, !take_0. reflexivity. }
  destruct (off + zlen buf <? zlen P) eqn:E1; [apply SAME; unfold cnt_of; rewrite ?zlen_app; lia|].
  destruct (Z.min (zlen P + zlen d) (off + zlen buf) <=? Z.max (zlen P) off) eqn:E2; [apply SAME; unfold cnt_of; rewrite ?zlen_app; lia|].
  clear SAME. set (start := Z.max (zlen P) off) in *. set (stop := Z.min (zlen P + zlen d) (off + zlen buf)) in *.
  rewrite read_at_some by lia. cbn [bind]. set (part := take (stop - start) (drop (start - zlen P) d)).
  assert (LP : zlen part = stop - start) by (unfold part; rewrite zlen_take, zlen_drop; lia).
  assert (N0 : cnt_of off (zlen buf) P = start - off) by (unfold cnt_of; lia).
  assert (N1 : cnt_of off (zlen buf) (P ++ d) = stop - off) by (unfold cnt_of; rewrite zlen_app; lia).
  unfold cp_of at 1. rewrite N0. rewrite splice_app_pre; [|rewrite zlen_take, zlen_drop; lia|rewrite zlen_drop; lia]. cbn [bind].
  rewrite N1. rewrite u32_id by (unfold is_u32; lia). f_equal. f_equal; [|lia]. unfold cp_of. rewrite N1, app_assoc. f_equal.
  - unfold part. destruct (Z.le_gt_cases off (zlen P)) as [HP|HP].
    + assert (ES : start = zlen P) by lia. rewrite ES. rewrite Z.sub_diag, drop_0. rewrite drop_app_le by lia.
      rewrite (take_all _ (drop off P)) by (rewrite zlen_drop; lia).
      replace (stop - off) with ((zlen P - off) + (stop - zlen P)) by lia. rewrite take_plus by lia.
      rewrite take_app_exact by (rewrite zlen_drop; lia). rewrite drop_app_exact by (rewrite zlen_drop; lia). reflexivity.
    + assert (ES : start = off) by lia. rewrite ES. rewrite Z.sub_diag, take_0. cbn [app]. rewrite drop_app_ge by lia. reflexivity.
  - rewrite drop_drop by lia. f_equal. lia.
Qed.
Lemma writes_ok off buf ws : forall P, 0 <= off -> off + zlen buf < 4294967296 -> contiguous (zlen P) ws ->
  zlen (P ++ concat (map snd ws)) < 4294967296 ->
  lds_writes off (cp_of off buf P, cnt_of off (zlen buf) P) ws =
    Some (cp_of off buf (P ++ concat (map snd ws)), cnt_of off (zlen buf) (P ++ concat (map snd ws))).
Proof.
  induction ws as [|[o d] ws IH]; intros P Ho Hb HC HL; cbn [lds_writes map concat snd contiguous] in *; [now rewrite app_nil_r|].
  destruct HC as (-> & Hd & HC). rewrite app_assoc in *. rewrite zlen_app in HL. pose proof (zlen_nonneg (concat (map snd ws))).
  pose proof HL as HL2. rewrite zlen_app in HL2.
  rewrite write_ok by (try assumption; lia). cbn [bind]. apply IH; [assumption|assumption|rewrite zlen_app; exact HC|rewrite zlen_app; lia].
Qed.
Lemma contiguous_bound ws : forall off o d, contiguous off ws -> In (o, d) ws -> off <= o <= off + zlen (concat (map snd ws)).
Proof.
  induction ws as [|[o' d'] ws IH]; intros off o d HC HI; [destruct HI|]. cbn [contiguous map concat snd] in *. destruct HC as (-> & _ & HC).
  rewrite zlen_app. pose proof (zlen_nonneg d'). pose proof (zlen_nonneg (concat (map snd ws))). destruct HI as [HI|HI]; [injection HI as <- <-; lia|].
  specialize (IH _ _ _ HC HI). lia.
Qed.

(** ** Where the logs are *)
Lemma consume_pos c n : cb_wf c -> is_u32 n -> let c' := snd (cb_consume c n) in
  cb_wf c' /\ tot c' = tot c /\ (rd c' + sz c') mod tot c = (rd c + sz c) mod tot c.
Proof.
  intros W Hn. pose proof (cb_consume_ok c n W Hn) as CE. cbv zeta in *. destruct (cb_consume c n) as [b c'] eqn:E. cbn [snd]. destruct CE as (W' & T' & _).
  split; [exact W'|]. split; [exact T'|]. pose proof W as (H1 & H2 & H3 & H4 & H5). unfold is_u32 in Hn. unfold cb_consume in E.
  destruct (sz c <? n) eqn:EN; injection E as _ <-; [reflexivity|]. cbn [rd sz].
  rewrite u32_id by (unfold is_u32; lia). rewrite Zplus_mod_idemp_l. f_equal. lia.
Qed.
Lemma write_rd c k d b c' : cb_write_at_offset c k d = Some (b, c') -> rd c' = rd c.
Proof.
  unfold cb_write_at_offset. intros H. destruct (sz c <? k); [now inv H|]. destruct (_ <? _) in H; [now inv H|]. binv H. binv H. now inv H.
Qed.
Lemma free_loop_pos fuel : forall s needed tr b s', cb_wf (lg_cb s) -> log_free_loop fuel s needed tr = Some (b, s') ->
  cb_wf (lg_cb s') /\ tot (lg_cb s') = tot (lg_cb s) /\
  (rd (lg_cb s') + sz (lg_cb s')) mod tot (lg_cb s) = (rd (lg_cb s) + sz (lg_cb s)) mod tot (lg_cb s).
Proof.
  induction fuel as [|fuel IH]; intros s needed tr b s' W H; cbn [log_free_loop] in H.
  - destruct (tr =? 0); [|discriminate]. inv H. auto.
  - destruct (tr =? 0); [inv H; auto|]. binv H. destruct (match v with Some [h; l] => (h, l) | _ => (0, 0) end) as [hdr len].
    set (s1 := if negb _ then _ else _) in H. assert (EC : lg_cb s1 = lg_cb s) by (unfold s1; destruct (negb _); reflexivity).
    destruct (consume_pos (lg_cb s) (u32 (len + 2)) W (u32_range _)) as (W1 & T1 & P1). rewrite EC in H.
    destruct (s32 (needed - u32 (len + 2)) <=? 0).
    + inv H. cbn [lset_cb lg_cb]. auto.
    + apply IH in H; [|exact W1]. cbn [lset_cb lg_cb] in H. rewrite T1 in H. destruct H as (A & B & C). split; [exact A|]. split; [exact B|]. now rewrite C.
Qed.
Lemma try_free_pos s n b s' : cb_wf (lg_cb s) -> log_try_free_space s n = Some (b, s') ->
  (rd (lg_cb s') + sz (lg_cb s')) mod tot (lg_cb s) = (rd (lg_cb s) + sz (lg_cb s)) mod tot (lg_cb s).
Proof.
  intros W H. unfold log_try_free_space in H. destruct (_ <=? 0); [now inv H|]. destruct (_ <? _); [now inv H|]. destruct (lg_trig s); [now inv H|].
  now apply free_loop_pos in H.
Qed.
Lemma iterate_rd {A} (f : cbuf -> A -> Z -> Z -> Z -> option (bool * cbuf * A)) :
  (forall c a off h l b c' a', f c a off h l = Some (b, c', a') -> rd c' = rd c) ->
  forall fuel c a off c' a' off', log_iterate fuel f c a off = Some (c', a', off') -> rd c' = rd c.
Proof.
  intros Hf. induction fuel as [|fuel IH]; intros c a off c' a' off' H; cbn [log_iterate] in H; [discriminate|].
  binv H. destruct v as [[|h [|l [|? ?]]]|]; try (now inv H). binv H. destruct v as [[go c1] a1]. apply Hf in E0.
  destruct go; [apply IH in H; congruence|]. inv H. exact E0.
Qed.
Lemma save_rd M s level type ts text b s' : log_save M s level type ts text = Some (b, s') ->
  (level < lg_min s /\ s' = s) \/ exists ok s1, log_try_free_space s (2 + u8 (Z.min (zlen text) (u32 (M - (match ts with Some _ => 4 | None => 0 end))) + (match ts with Some _ => 4 | None => 0 end))) = Some (ok, s1) /\
    rd (lg_cb s') = rd (lg_cb s1).
Proof.
  unfold log_save. intros H. destruct (level <? lg_min s) eqn:EL; [inv H; left; split; [lia|reflexivity]|]. right. binv H. destruct v as [ok s1]. exists ok, s1. split; [exact E|].
  destruct ok; [|inv H; reflexivity]. binv H. destruct v as [b1 c1]. apply write_rd in E0. cbn [snd lset_recorded lg_cb] in *. binv H.
  destruct v as [b2 c2]. assert (R2 : rd c2 = rd c1). { destruct ts; [now apply write_rd in E1|now inv E1]. } cbn [snd] in H. binv H.
  destruct v as [b3 c3]. apply write_rd in E2. inv H. cbn [lset_cb lg_cb snd]. congruence.
Qed.

Definition pos_inv (cap : Z) (s : lg) (h : hist) : Prop := (rd (lg_cb s) + sz (lg_cb s)) mod cap = hrooms (h_saved h) mod cap.
Lemma sim_sz M tse cap s v h : lsim M tse cap s v -> hsim cap h v -> sz (lg_cb s) = hrooms (fit cap (h_saved h)).
Proof. intros K Q. destruct (cb_is_sz _ _ _ (k_cb _ _ _ _ _ K)) as (S & _). rewrite S, (q_logs _ _ _ Q). apply flag_rooms. Qed.
Lemma pos_same M tse cap s v h s' v' h' : lsim M tse cap s v -> hsim cap h v -> lsim M tse cap s' v' -> hsim cap h' v' ->
  rd (lg_cb s') = rd (lg_cb s) -> h_saved h' = h_saved h -> pos_inv cap s h -> pos_inv cap s' h'.
Proof. intros K Q K' Q' R S P. unfold pos_inv in *. rewrite (sim_sz _ _ _ _ _ _ K' Q'), R, S, <- P, (sim_sz _ _ _ _ _ _ K Q). reflexivity. Qed.

Lemma read_cb_rd M tse c a off h l b c' a' : log_read_cb M tse c a off h l = Some (b, c', a') -> rd c' = rd c.
Proof.
  unfold log_read_cb. intros H. binv H. destruct v as [ok c1]. unfold log_update_entry in E. apply write_rd in E. destruct ok; cbn [negb] in H; [|inv H; exact E].
  binv H. destruct v as [m|]; [|inv H; exact E].
  repeat match type of H with
         | context [if ?x then _ else _] => destruct x; try discriminate
         | context [match ?x with _ => _ end] => destruct x; try discriminate
         end; try (inv H; exact E).
Qed.
Lemma log_read_rd M tse s r s' : log_read M tse s = Some (r, s') -> rd (lg_cb s') = rd (lg_cb s).
Proof.
  unfold log_read. intros H.
  assert (I : forall s0, (do x <- log_iterate (log_iter_fuel (lg_cb s0)) (log_read_cb M tse) (lg_cb s0) None (lg_roff s0);
      let '(c, r, off) := x in Some (r, lset_roff (lset_cb s0 c) off)) = Some (r, s') -> rd (lg_cb s') = rd (lg_cb s0)).
  { intros s0 X. binv X. destruct v as [[c r0] off]. inv X. cbn [lset_roff lset_cb lg_cb]. eapply iterate_rd; [|exact E]. intros *. apply read_cb_rd. }
  destruct (negb _); [|now apply I]. destruct (0 <? _); [now inv H|]. apply I in H. exact H.
Qed.
Lemma mark_rd s s' : log_mark_sent s = Some s' -> rd (lg_cb s') = rd (lg_cb s).
Proof.
  unfold log_mark_sent. intros H. binv H. destruct v as [[c a] off]. inv H. cbn [lset_trig lset_cb lg_cb]. eapply iterate_rd; [|exact E].
  intros c0 a0 o h l b c' a'. unfold log_mark_cb. destruct (hdr_sent h); [now inversion 1|]. intros X. binv X. destruct v as [ok c1]. unfold log_update_entry in E0.
  apply write_rd in E0. inv X. exact E0.
Qed.

Lemma step_pos M tse cap s v h o r h' : lcap cap -> 4 <= M <= 255 -> lsim M tse cap s v -> hsim cap h v -> pos_inv cap s h -> log_op_ok tse o ->
  hist_step M cap h o = Some (r, h') ->
  exists s' v', log_step M tse s o = Some (r, s') /\ lsim M tse cap s' v' /\ hsim cap h' v' /\ pos_inv cap s' h' /\
    v_time v' = match o with LTrigger x => match h_up h with Some _ => v_time v | None => if unsent (v_logs v) =? 0 then v_time v else x end
                | LMarkSent => None | _ => v_time v end.
Proof.
  intros Hcap HM K Q P HO HS. destruct (hist_step_ok _ _ _ _ _ _ _ Hcap Q HS) as (v' & EV & Q').
  destruct (log_step_ok _ _ _ _ _ _ _ _ Hcap HM K HO EV) as (s' & ES & K'). exists s', v'. split; [exact ES|]. split; [exact K'|]. split; [exact Q'|]. split.
  - destruct o as [level type ts text| |time| | |l| |]; cbn [log_step hist_step] in *.
    + binv ES. destruct v0 as [b s0]. inv ES. cbn [slg_step] in EV.
      set (e := mk_hlog level type ts (take (M - ts_room ts) text)) in *.
      destruct (k_cb _ _ _ _ _ K) as (W & T & _).
      destruct (save_rd _ _ _ _ _ _ _ _ E) as [(LV & ->)|(ok & s1 & EF & R1)].
      { unfold hist_save in HS. change (l_level e) with level in HS. replace (level <? h_min h) with true in HS by (rewrite <- (q_min _ _ _ Q), <- (k_min _ _ _ _ _ K); lia).
        injection HS as _ <-. exact P. }
      pose proof HO as (HL & HT & HB & HZ & HTS).
      assert (HR : 0 <= ts_room ts <= 4) by (unfold ts_room; destruct ts; lia). pose proof (zlen_nonneg text).
      assert (RE : hroom e = 2 + ts_room ts + Z.min (zlen text) (M - ts_room ts)) by (unfold hroom, e; cbn [l_ts l_text]; rewrite zlen_take; lia).
      fold (ts_room ts) in EF. rewrite u32_in in EF by lia.
      replace (2 + u8 (Z.min (zlen text) (M - ts_room ts) + ts_room ts)) with (hroom e) in EF by (unfold u8; change (2^8) with 256; rewrite Z.mod_small; lia).
      pose proof (try_free_pos _ _ _ _ W EF) as PF. rewrite T in PF.
      destruct (try_free_ok M tse cap (hroom e) s v Hcap ltac:(lia) K) as (s2 & E2 & K2 & R2). rewrite EF in E2. injection E2 as EOK <-.
      destruct (cb_is_sz _ _ _ (k_cb _ _ _ _ _ K')) as (S' & _). destruct (cb_is_sz _ _ _ (k_cb _ _ _ _ _ K2)) as (S1 & _).
      unfold pos_inv in *. rewrite R1, S'. unfold hist_save in HS. unfold slg_save in EV. cbn [g_level] in EV. change (l_level e) with level in HS.
      rewrite (q_min _ _ _ Q) in EV. change (room (mk_slog level type ts (take (M - ts_room ts) text) false false)) with (hroom e) in EV.
      destruct (level <? h_min h) eqn:EM.
      { unfold log_save in E. replace (level <? lg_min s) with true in E by (rewrite (k_min _ _ _ _ _ K), (q_min _ _ _ Q); lia). inv E.
        injection HS as <-. inv EV. destruct (cb_is_sz _ _ _ (k_cb _ _ _ _ _ K)) as (S & _). rewrite <- R1, <- S. exact P. }
      rewrite (q_trig _ _ _ Q) in *.
      assert (BE : (cap <? hroom e) || match h_up h with Some _ => cap <? hrooms (fit cap (h_saved h)) + hroom e | None => false end =
         (cap <? hroom e) || (match h_up h with Some _ => true | None => false end && (cap <? rooms (v_logs v) + hroom e))).
      { rewrite (q_logs _ _ _ Q), flag_rooms. destruct (h_up h); reflexivity. }
      rewrite BE in HS. clear BE.
      destruct ((cap <? hroom e) || (match h_up h with Some _ => true | None => false end && (cap <? rooms (v_logs v) + hroom e))).
      * injection HS as _ <-. inv EV. cbn [v_logs h_saved]. rewrite <- P, <- PF, S1. reflexivity.
      * injection HS as _ <-. unfold evicted in *. destruct (evict cap (hroom e) (v_logs v)) as [gone kept]. inv EV. cbn [v_logs h_saved] in *.
        rewrite rooms_app, hrooms_app. cbn [rooms]. change (room (mk_slog level type ts (take (M - ts_room ts) text) false false)) with (hroom e).
        replace (hrooms [e]) with (hroom e) by (unfold hrooms; cbn [fold_right]; lia).
        replace (rd (lg_cb s1) + (rooms kept + (hroom e + 0))) with (rd (lg_cb s1) + sz (lg_cb s1) + hroom e) by (rewrite S1; ring).
        rewrite <- Zplus_mod_idemp_l, PF, P, Zplus_mod_idemp_l. reflexivity.
    + binv ES. destruct v0 as [x s0]. inv ES. eapply pos_same; [exact K|exact Q|exact K'|exact Q'|eapply log_read_rd; exact E| |exact P].
      repeat match type of HS with
         | context [if ?x then _ else _] => destruct x; try discriminate
         | context [match ?x with Some _ => _ | None => _ end] => destruct x; try discriminate
         end; injection HS as _ <-; reflexivity.
    + binv ES. inv ES. eapply pos_same; [exact K|exact Q|exact K'|exact Q'| | |exact P].
      * unfold log_trigger in E. destruct (lg_trig s); [now inv E|]. binv E. destruct (_ =? 0); now inv E.
      * injection HS as <-. destruct (h_up h); [reflexivity|]. destruct (_ <? _); reflexivity.
    + binv ES. inv ES. eapply pos_same; [exact K|exact Q|exact K'|exact Q'|now apply mark_rd| |exact P].
      destruct (h_up h); [|discriminate]. injection HS as <-. reflexivity.
    + binv ES. inv ES. inv HS. exact P.
    + inv ES. inv HS. exact P.
    + inv ES. inv HS. exact P.
    + inv ES. inv HS. exact P.
  - rewrite <- (k_time _ _ _ _ _ K'). destruct o as [level type ts text| |time| | |l| |]; cbn [slg_step] in EV; rewrite ?(k_time _ _ _ _ _ K').
    + unfold slg_save in EV. destruct (_ <? _); [now inv EV|]. destruct (_ || _); [now inv EV|]. destruct (evict _ _ _). now inv EV.
    + repeat match type of EV with
         | context [if ?x then _ else _] => destruct x; try discriminate
         | context [match ?x with Some _ => _ | None => _ end] => destruct x as [[? ?]|]; try discriminate
         end; now inv EV.
    + rewrite (q_trig _ _ _ Q) in EV. destruct (h_up h); cbn [orb] in EV; [now inv EV|]. destruct (unsent (v_logs v) =? 0); now inv EV.
    + destruct (v_trig v); [|discriminate]. now inv EV.
    + now inv EV.
    + now inv EV.
    + now inv EV.
    + now inv EV.
Qed.

Lemma full_run M tse cap ops : lcap cap -> 4 <= M <= 255 -> forall s v h t rs h', lsim M tse cap s v -> hsim cap h v -> pos_inv cap s h ->
  (h_up h <> None -> lg_time s = t) -> Forall (log_op_ok tse) ops -> hist_run M cap h ops = Some (rs, h') ->
  exists s' v', log_run M tse s ops = Some (rs, s') /\ lsim M tse cap s' v' /\ hsim cap h' v' /\ pos_inv cap s' h' /\
    (h_up h' <> None -> lg_time s' = upload_time M cap h t ops).
Proof.
  intros Hcap HM. induction ops as [|o ops IH]; intros s v h t rs h' K Q P HT F H; cbn [hist_run log_run upload_time] in *.
  - injection H as <- <-. exists s, v. auto.
  - binv H. destruct v0 as [r h1]. binv H. destruct v0 as [rs1 h2]. inv H. rewrite E.
    destruct (step_pos _ _ _ _ _ _ _ _ _ Hcap HM K Q P (Forall_inv F) E) as (s1 & v1 & E1 & K1 & Q1 & P1 & T1). rewrite E1. cbn [bind].
    destruct (IH s1 v1 h1 (match o, h_up h with LTrigger x, None => x | _, _ => t end) rs1 h' K1 Q1 P1) as (s2 & v2 & E2 & K2 & Q2 & P2 & T2); try assumption.
    + intros HU. rewrite (k_time _ _ _ _ _ K1), T1. rewrite (k_time _ _ _ _ _ K) in HT.
      destruct o as [level type ts text| |time| | |l| |]; cbn [hist_step] in E; try apply HT.
      * unfold hist_save in E. destruct (_ <? _) in E; [inv E; exact HU|]. destruct (_ || _) in E; inv E; exact HU.
      * repeat match type of E with
         | context [if ?x then _ else _] => destruct x; try discriminate
         | context [match ?x with Some _ => _ | None => _ end] => destruct x; try discriminate
         end; inv E; exact HU.
      * inv E. destruct (h_up h) eqn:EU; [apply HT; discriminate|].
        rewrite (q_logs _ _ _ Q), unsent_flag. destruct (first_range cap (h_saved h)) as (FR & FL). rewrite FL.
        destruct (Z.max (first cap (h_saved h)) (h_sent h) <? zlen (h_saved h)) eqn:EX; [|rewrite EU in HU; contradiction].
        now replace (_ =? 0) with false by lia.
      * destruct (h_up h); [|discriminate]. inv E. contradiction.
      * inv E. exact HU.
      * inv E. exact HU.
      * inv E. exact HU.
      * inv E. exact HU.
    + exact (Forall_inv_tail F).
    + rewrite E2. cbn [bind]. exists s2, v2. auto.
Qed.

(** ** From the flags to the history *)
Lemma parts_mod cap p q d : p mod cap = q mod cap -> parts cap p d = parts cap q d.
Proof. intros E. unfold parts. now rewrite E. Qed.
Lemma entry_mod tse cap p q e : p mod cap = q mod cap -> entry_ops tse cap p e = entry_ops tse cap q e.
Proof. intros E. unfold entry_ops. f_equal. apply parts_mod. rewrite <- Zplus_mod_idemp_l, E, Zplus_mod_idemp_l. reflexivity. Qed.
Lemma sops_mod tse cap l : forall p q n, p mod cap = q mod cap -> sops tse cap p n l = sops tse cap q n l.
Proof.
  induction l as [|e l IH]; intros p q n E; cbn [sops]; [reflexivity|].
  assert (E' : (p + room e) mod cap = (q + room e) mod cap) by (rewrite <- Zplus_mod_idemp_l, E, Zplus_mod_idemp_l; reflexivity).
  rewrite (IH _ _ n E'), (IH _ _ (n - 1) E'), (entry_mod _ _ _ _ _ E). reflexivity.
Qed.
Lemma sops_flag tse cap next sent l : forall i pos n, 1 <= n -> let k := Z.max 0 (sent - i) in
  sops tse cap pos n (flag next sent i l) = up_ops tse cap (pos + hrooms (take k l)) (take n (drop k l)).
Proof.
  induction l as [|e l IH]; intros i pos n Hn k; cbn [flag sops].
  - rewrite drop_nil, !take_nil. reflexivity.
  - change (g_sent (sl next sent i e)) with (i <? sent). change (room (sl next sent i e)) with (hroom e).
    destruct (i <? sent) eqn:E.
    + rewrite IH by assumption. cbv zeta. assert (K1 : k = 1 + Z.max 0 (sent - (i + 1))) by lia. set (k1 := Z.max 0 (sent - (i + 1))) in *. rewrite K1.
      assert (0 <= k1) by lia. rewrite take_plus by lia. replace (drop (1 + k1) (e :: l)) with (drop k1 l) by (rewrite (Z.add_comm 1 k1), <- drop_drop by lia; reflexivity).
      change (take 1 (e :: l)) with [e]. change (drop 1 (e :: l)) with l. rewrite hrooms_app. replace (hrooms [e]) with (hroom e) by (unfold hrooms; cbn [fold_right]; lia).
      now rewrite Z.add_assoc.
    + assert (K0 : k = 0) by lia. rewrite K0, take_0, drop_0. change (hrooms []) with 0. rewrite Z.add_0_r.
      assert (TN : take n (e :: l) = e :: take (n - 1) l).
      { replace n with (1 + (n - 1)) at 1 by lia. rewrite take_plus by lia. reflexivity. }
      rewrite TN. cbn [up_ops]. f_equal. destruct (n =? 1) eqn:EN.
      * replace (n - 1) with 0 by lia. rewrite take_0. reflexivity.
      * rewrite IH by lia. cbv zeta. replace (Z.max 0 (sent - (i + 1))) with 0 by lia. rewrite take_0, drop_0. change (hrooms []) with 0. now rewrite Z.add_0_r.
Qed.

(** ** Sizes *)
Lemma text_len level type b : zlen (ops_bytes (text_ops level type b)) <= 10 + zlen b.
Proof.
  unfold text_ops. rewrite ops_bytes_cons, zlen_app, u_len. pose proof (cbor_head_len 0 level).
  destruct (type =? 0).
  - rewrite !ops_bytes_cons, !zlen_app. change (ops_bytes []) with (@nil Z). change (zlen (@nil Z)) with 0.
    unfold op_bytes. cbn [op_chunks concat]. rewrite !app_nil_r. pose proof (cbor_head_len 3 (zlen b)). lia.
  - rewrite !ops_bytes_cons, !zlen_app. change (ops_bytes []) with (@nil Z). change (zlen (@nil Z)) with 0.
    unfold op_bytes. cbn [op_chunks concat]. rewrite ?app_nil_r, ?zlen_app. pose proof (cbor_head_len 2 (u32 (zlen b))). lia.
Qed.
Lemma blk_len tse level type t b o : blk tse level type t b = Some o -> zlen (ops_bytes o) <= 15 + zlen b.
Proof.
  unfold blk. intros H. destruct tse; [|inv H; pose proof (text_len level type b); lia]. destruct t.
  - destruct b as [|b0 [|b1 [|b2 [|b3 r]]]]; try discriminate. inv H. rewrite ops_bytes_cons, zlen_app, u_len, !zlen_cons.
    pose proof (cbor_head_len 0 (b0 + 256 * b1 + 65536 * b2 + 16777216 * b3)). pose proof (text_len level type r). lia.
  - inv H. rewrite ops_bytes_cons, zlen_app, u_len. pose proof (cbor_head_len 0 0). pose proof (text_len level type b). lia.
Qed.
Lemma parts_ops_len tse level type t ps : zlen (ops_bytes (parts_ops tse level type t ps)) <= 15 * zlen ps + zlen (concat ps).
Proof.
  induction ps as [|p ps IH]; cbn [parts_ops concat]; [vm_compute; discriminate|]. rewrite zlen_cons, zlen_app. pose proof (zlen_nonneg p). pose proof (zlen_nonneg ps). pose proof (zlen_nonneg (concat ps)).
  destruct (blk tse level type t p) as [o|] eqn:E; [|change (zlen (ops_bytes [])) with 0; lia]. apply blk_len in E. rewrite ops_bytes_app, zlen_app. lia.
Qed.
Lemma payload_hlen e : zlen (h_payload e) = hroom e - 2.
Proof. unfold h_payload, hroom, ts_room. destruct (l_ts e); rewrite zlen_app; [change (zlen (le32 z)) with 4|change (zlen (@nil Z)) with 0]; lia. Qed.
Lemma entry_len tse cap pos e : 0 < cap -> zlen (ops_bytes (entry_ops tse cap pos e)) <= 8 * hroom e.
Proof.
  intros Hc. unfold entry_ops. pose proof (parts_ops_len tse (l_level e) (l_type e) (h_ts e) (parts cap (pos + 2) (h_payload e))) as H.
  pose proof (payload_hlen e). pose proof (hroom_pos e). unfold parts in *. destruct (zlen (h_payload e) =? 0) eqn:E0.
  - cbn [parts_ops]. change (zlen (ops_bytes [])) with 0. lia.
  - pose proof (Z.mod_pos_bound (pos + 2) cap Hc). destruct (zlen (h_payload e) <=? cap - (pos + 2) mod cap) eqn:E1.
    + change (zlen [h_payload e]) with 1 in H. cbn [concat] in H. rewrite app_nil_r in H. lia.
    + change (zlen [take (cap - (pos + 2) mod cap) (h_payload e); drop (cap - (pos + 2) mod cap) (h_payload e)]) with 2 in H.
      cbn [concat] in H. rewrite app_nil_r, take_drop in H. lia.
Qed.
Lemma up_len tse cap l : 0 < cap -> forall pos, zlen (ops_bytes (up_ops tse cap pos l)) <= 8 * hrooms l.
Proof.
  intros Hc. induction l as [|e l IH]; intros pos; cbn [up_ops]; [vm_compute; discriminate|]. rewrite ops_bytes_app, zlen_app.
  pose proof (entry_len tse cap pos e Hc). specialize (IH (pos + hroom e)). unfold hrooms in *. cbn [fold_right]. lia.
Qed.
Lemma hrooms_take_drop k n l : hrooms (take n (drop k l)) <= hrooms l.
Proof.
  pose proof (hrooms_nonneg (take k l)). pose proof (hrooms_nonneg (drop n (drop k l))).
  rewrite <- (take_drop k l) at 2. rewrite <- (take_drop n (drop k l)) at 2. rewrite !hrooms_app. lia.
Qed.

(** ** The whole message *)
Definition msg_ops (env : senv) (tse : bool) (cap : Z) (time : option Z) (before : Z) (l : list hlog) : list cbor_op :=
  (meta_ops env (if tse then 6 else 4) time ++ [OpUnsigned 4; OpArray ((if tse then 3 else 2) * zlen l)]) ++ up_ops tse cap before l.
Definition before_of (cap : Z) (h : hist) : Z := hrooms (take (Z.max (first cap (h_saved h)) (h_sent h)) (h_saved h)).

Lemma upload_facts M tse cap s v h n : lcap cap -> lsim M tse cap s v -> hsim cap h v -> pos_inv cap s h -> h_up h = Some n ->
  zlen (uploading cap h) = v_num v /\ 1 <= v_num v < 4294967296 /\ hrooms (uploading cap h) <= cap /\
  sops tse cap (rd (lg_cb s)) (v_num v) (v_logs v) = up_ops tse cap (before_of cap h) (uploading cap h).
Proof.
  intros Hcap K Q P EU. unfold lcap in Hcap. pose proof (q_num _ _ _ Q) as QN. pose proof (q_trig _ _ _ Q) as QT. rewrite EU in QN, QT.
  pose proof (k_num1 _ _ _ _ _ K QT) as N1. destruct QN as (_ & QN & QL). destruct (first_range cap (h_saved h)) as (FR & FL).
  destruct (fit_suffix cap (h_saved h)) as (pre & EP & LP). pose proof (q_le _ _ _ Q) as (_ & HS & _).
  set (f := first cap (h_saved h)) in *. set (a := Z.max f (h_sent h)) in *. set (k := Z.max 0 (h_sent h - f)).
  assert (EA : a = f + k) by lia.
  assert (ED : drop a (h_saved h) = drop k (fit cap (h_saved h))).
  { rewrite EP at 1. rewrite drop_app_ge by lia. f_equal. lia. }
  assert (ET : hrooms (take a (h_saved h)) = hrooms pre + hrooms (take k (fit cap (h_saved h)))).
  { rewrite EP at 1. rewrite take_app_ge by lia. rewrite hrooms_app. do 3 f_equal. lia. }
  assert (EUP : uploading cap h = take (v_num v) (drop k (fit cap (h_saved h)))).
  { unfold uploading. rewrite EU. fold f. fold a. cbv zeta. rewrite ED. f_equal. lia. }
  split; [unfold uploading; rewrite EU; fold f; fold a; cbv zeta; rewrite zlen_take, zlen_drop; lia|]. split; [exact N1|]. split.
  - rewrite EUP. pose proof (hrooms_take_drop k (v_num v) (fit cap (h_saved h))). pose proof (fit_fits cap (h_saved h) ltac:(lia)). lia.
  - rewrite (q_logs _ _ _ Q). rewrite (sops_mod _ _ _ _ (hrooms pre)).
    + fold f. rewrite sops_flag by lia. cbv zeta. fold k. unfold before_of. fold f. fold a. rewrite ET, EUP. reflexivity.
    + unfold pos_inv in P. rewrite (sim_sz _ _ _ _ _ _ K Q) in P. rewrite EP in P at 2. rewrite hrooms_app in P.
      replace (rd (lg_cb s)) with (rd (lg_cb s) + hrooms (fit cap (h_saved h)) - hrooms (fit cap (h_saved h))) by lia.
      rewrite <- Zminus_mod_idemp_l, P, Zminus_mod_idemp_l. f_equal. lia.
Qed.

Lemma encode_ok M env tse cap s v h n stop e0 : lcap cap -> cap <= 268435456 -> senv_ok env -> lsim M tse cap s v -> hsim cap h v -> pos_inv cap s h ->
  h_up h = Some n -> big e0 -> ce_size e0 = 0 ->
  zlen (ops_bytes (msg_ops env tse cap (lg_time s) (before_of cap h) (uploading cap h))) < 4294967296 /\
  exists dn lf e' err, lds_encode env tse s stop e0 = Some (err, e') /\
    msg_ops env tse cap (lg_time s) (before_of cap h) (uploading cap h) = dn ++ lf /\ cbor_seq e0 dn = (true, e') /\ (lf = [] \/ lds_stopped stop e' = true).
Proof.
  intros Hcap HC HE K Q P EU B S0. destruct (upload_facts _ _ _ _ _ _ _ Hcap K Q P EU) as (LU & N1 & HU & SO).
  pose proof (k_cb _ _ _ _ _ K) as CB. pose proof (k_num _ _ _ _ _ K) as KN. unfold lcap in Hcap.
  pose proof (up_len tse cap (uploading cap h) ltac:(lia) (before_of cap h)) as UL. rewrite <- SO in *.
  assert (NL : v_num v <= cap). { destruct (cb_is_sz _ _ _ CB) as (_ & _ & RR). pose proof (rooms_zlen (v_logs v)). rewrite <- LU. clear - HU. 
    revert HU. generalize (uploading cap h). intros l H. assert (zlen l <= hrooms l). { clear H. induction l; [vm_compute; discriminate|]. rewrite zlen_cons. unfold hrooms in *. cbn [fold_right]. pose proof (hroom_pos a). lia. } lia. }
  unfold msg_ops. rewrite LU. set (ty := if tse then 6 else 4). set (k := if tse then 3 else 2).
  assert (Hk : 2 <= k <= 3) by (unfold k; destruct tse; lia).
  pose proof (meta_len env ty (lg_time s) HE) as ML.
  assert (HL : zlen (ops_bytes (meta_ops env ty (lg_time s) ++ [OpUnsigned 4; OpArray (k * v_num v)])) <= 263010).
  { rewrite ops_bytes_app, zlen_app. change [OpUnsigned 4; OpArray (k * v_num v)] with ([OpUnsigned 4] ++ [OpArray (k * v_num v)]). rewrite ops_bytes_app, zlen_app.
    change (zlen (ops_bytes [OpUnsigned 4])) with 1. unfold ops_bytes at 2. cbn [map concat]. rewrite app_nil_r. unfold op_bytes. cbn [op_chunks concat]. rewrite app_nil_r.
    pose proof (cbor_head_len 4 (k * v_num v)). lia. }
  set (hd := meta_ops env ty (lg_time s) ++ [OpUnsigned 4; OpArray (k * v_num v)]) in *.
  split; [rewrite ops_bytes_app, zlen_app, <- SO; lia|].
  unfold lds_encode. fold ty. fold k. rewrite KN. rewrite (u32_in (k * v_num v)) by (clear -N1 NL HC; unfold k; destruct tse; lia).
  assert (RH : eprog_run e0 (e_and (e_metadata_with_time env ty (lg_time s)) (e_all [OpUnsigned 4; OpArray (k * v_num v)])) = cbor_seq e0 hd).
  { apply (runs_and _ _ (meta_ops env ty (lg_time s)) _ (runs_meta _ _ _) (runs_all _)); [apply B|]. fold hd. lia. }
  rewrite RH. destruct (seq_big hd e0 B ltac:(lia)) as (e1 & E1 & B1 & S1). rewrite E1. cbn [bind].
  destruct (enc_loop M tse cap stop (v_num v) (lg_cb s) ltac:(lia) (v_logs v) [] e1 false 0 (log_iter_fuel (lg_cb s))) as (dn & lf & e' & err & cnt & off & EI & EO & EQ & EX);
    [exact CB|apply K|eapply iter_fuel_ok; exact CB|exact B1|lia| |].
  { cbn [rooms]. rewrite Z.add_0_r, Z.sub_0_r. lia. }
  cbn [rooms] in EI, EO. rewrite Z.add_0_r, Z.sub_0_r in EO. rewrite EI. cbn [bind].
  exists (hd ++ dn), lf, e', err. split; [reflexivity|]. split; [rewrite <- SO, EO, app_assoc; reflexivity|]. split; [|exact EX]. rewrite seq_app, E1. exact EQ.
Qed.

(** ** The data source *)
Lemma has_ok M env tse cap s v h n : lcap cap -> cap <= 268435456 -> senv_ok env -> lsim M tse cap s v -> hsim cap h v -> pos_inv cap s h ->
  h_up h = Some n ->
  lds_has env tse s = Some (Some (zlen (ops_bytes (msg_ops env tse cap (lg_time s) (before_of cap h) (uploading cap h))))).
Proof.
  intros Hcap HC HE K Q P EU. unfold lds_has. rewrite (k_trig _ _ _ _ _ K), (q_trig _ _ _ Q), EU.
  destruct (encode_ok M env tse cap s v h n None cbor_size_only_init Hcap HC HE K Q P EU) as (SZ & dn & lf & e' & err & EE & EM & ES & EX).
  { split; [left; split; [reflexivity|cbn; lia]|left; reflexivity]. } { reflexivity. }
  rewrite EE. cbn [bind snd]. destruct EX as [->|EX]; [|discriminate]. rewrite app_nil_r in EM. rewrite <- EM in ES.
  rewrite cbor_seq_size_only in ES by (try reflexivity; cbn [cbor_size_only_init ce_size]; lia). inv ES. reflexivity.
Qed.
Lemma read_ok M env tse cap s v h n off buf : lcap cap -> cap <= 268435456 -> senv_ok env -> lsim M tse cap s v -> hsim cap h v -> pos_inv cap s h ->
  h_up h = Some n -> 0 <= off -> off + zlen buf < 4294967296 ->
  let msg := ops_bytes (msg_ops env tse cap (lg_time s) (before_of cap h) (uploading cap h)) in
  exists out, lds_read env tse s off buf = Some ((off + zlen buf <=? zlen msg) || (zlen buf =? 0), out) /\
    (off + zlen buf <= zlen msg -> out = take (zlen buf) (drop off msg)).
Proof.
  intros Hcap HC HE K Q P EU Ho Hb msg. unfold lds_read. rewrite u32_id by (unfold is_u32; pose proof (zlen_nonneg buf); lia).
  assert (WI : enc_wf (cbor_init 4294967295)) by (apply enc_wf_init; unfold is_u32; lia).
  destruct (encode_ok M env tse cap s v h n (Some (off + zlen buf)) (cbor_init 4294967295) Hcap HC HE K Q P EU) as (SZ & dn & lf & e' & err & EE & EM & ES & EX).
  { split; [now right|now right]. } { reflexivity. }
  rewrite EE. cbn [bind snd]. fold msg in SZ. assert (MB : msg = ops_bytes dn ++ ops_bytes lf) by (unfold msg; now rewrite EM, ops_bytes_app).
  pose proof SZ as SZ2. rewrite MB, zlen_app in SZ2. pose proof (zlen_nonneg (ops_bytes lf)). pose proof (zlen_nonneg (ops_bytes dn)). pose proof (zlen_nonneg buf).
  destruct (cbor_seq_ok dn (cbor_init 4294967295) WI) as (b & e2 & o & E2 & W2 & _ & _ & O2 & T2 & _). { change (ce_size (cbor_init 4294967295)) with 0. lia. }
  rewrite ES in E2. inv E2. specialize (T2 eq_refl). subst o. change (ce_output (cbor_init 4294967295)) with (@nil Z) in O2. cbn [app] in O2.
  pose proof (writes_ok off buf (ce_writes e2) [] Ho Hb (ew_cont _ W2)) as WW. cbn [app] in WW. change (concat (map snd (ce_writes e2))) with (ce_output e2) in WW.
  rewrite O2 in WW. specialize (WW ltac:(lia)).
  assert (I0 : (cp_of off buf [], cnt_of off (zlen buf) []) = (buf, 0)).
  { unfold cp_of. assert (C0 : cnt_of off (zlen buf) [] = 0) by (unfold cnt_of; change (zlen (@nil Z)) with 0; lia). rewrite C0, take_0, drop_0. reflexivity. }
  rewrite I0 in WW. rewrite WW. cbn [bind fst snd]. eexists. split; [|].
  { f_equal. f_equal. 
    destruct EX as [->|EX].
    - change (ops_bytes []) with (@nil Z) in MB. rewrite app_nil_r in MB. rewrite <- MB. unfold cnt_of. pose proof (zlen_nonneg msg). 
      clear -Ho H1 H2. destruct (_ <=? _) eqn:E; lia.
    - cbn [lds_stopped] in EX. apply existsb_exists in EX. destruct EX as ([wo wd] & IN & LT). cbn [fst] in LT.
      pose proof (contiguous_bound _ _ _ _ (ew_cont _ W2) IN) as CBD. change (concat (map snd (ce_writes e2))) with (ce_output e2) in CBD. rewrite O2 in CBD.
      rewrite MB, zlen_app. unfold cnt_of. clear -Ho H H0 H1 CBD LT. destruct (_ <=? _) eqn:E; lia. }
  intros Hle. unfold cp_of.
  assert (CN : cnt_of off (zlen buf) (ops_bytes dn) = zlen buf /\ off + zlen buf <= zlen (ops_bytes dn)).
  { destruct EX as [->|EX].
    - change (ops_bytes []) with (@nil Z) in MB. rewrite app_nil_r in MB. rewrite <- MB. unfold cnt_of. split; [clear -Hle Ho H1; lia|exact Hle].
    - cbn [lds_stopped] in EX. apply existsb_exists in EX. destruct EX as ([wo wd] & IN & LT). cbn [fst] in LT.
      pose proof (contiguous_bound _ _ _ _ (ew_cont _ W2) IN) as CBD. change (concat (map snd (ce_writes e2))) with (ce_output e2) in CBD. rewrite O2 in CBD.
      unfold cnt_of. clear -Ho H1 CBD LT. lia. }
  destruct CN as (CN & CL). rewrite CN. rewrite (drop_all _ buf) by lia. rewrite app_nil_r. rewrite MB.
  rewrite drop_app_le by lia. rewrite take_app_le by (rewrite zlen_drop; lia). reflexivity.
Qed.

(** ** Whole logs are documents *)
Definition log_docs (tse : bool) (e : hlog) : list doc :=
  (if tse then [DUnsigned (match l_ts e with Some t => t | None => 0 end)] else [])
  ++ [DUnsigned (l_level e); if l_type e =? 0 then DStringIn [l_text e] else DBytes (l_text e)].
Definition hfine (tse : bool) (e : hlog) : Prop :=
  0 <= l_level e < 8 /\ 0 <= l_type e < 2 /\ zlen (l_text e) <= 255 /\ match l_ts e with Some t => is_u32 t /\ tse = true | None => True end.
Lemma entry_whole tse cap pos e : hfine tse e -> whole cap pos e -> entry_ops tse cap pos e = flat_map doc_ops (log_docs tse e).
Proof.
  intros (_ & _ & _ & HT) (W1 & W2). unfold entry_ops, parts. rewrite payload_hlen. replace (hroom e - 2 =? 0) with false by lia.
  replace (hroom e - 2 <=? cap - (pos + 2) mod cap) with true by lia. cbn [parts_ops].
  assert (TX : text_ops (l_level e) (l_type e) (l_text e) = flat_map doc_ops [DUnsigned (l_level e); if l_type e =? 0 then DStringIn [l_text e] else DBytes (l_text e)]).
  { unfold text_ops. destruct (l_type e =? 0); cbn [flat_map doc_ops concat map app]; rewrite ?app_nil_r; reflexivity. }
  unfold blk, log_docs, h_ts, h_payload. destruct (l_ts e) as [t|].
  - destruct HT as (HT & ->). pose proof (le32_value t HT) as LV. destruct (le32 t) as [|b0 [|b1 [|b2 [|b3 [|? ?]]]]] eqn:EL; try (unfold le32 in EL; discriminate).
    cbn [app]. rewrite app_nil_r. rewrite TX, LV. reflexivity.
  - cbn [app]. destruct tse; rewrite app_nil_r, TX; reflexivity.
Qed.
Lemma up_whole tse cap l : forall pos, Forall (hfine tse) l -> all_whole cap pos l -> up_ops tse cap pos l = flat_map doc_ops (flat_map (log_docs tse) l).
Proof.
  induction l as [|e l IH]; intros pos F W; cbn [up_ops flat_map]; [reflexivity|]. destruct W as (W1 & W2).
  rewrite (entry_whole tse cap pos e (Forall_inv F) W1), (IH _ (Forall_inv_tail F) W2), flat_map_app. reflexivity.
Qed.
Lemma docs_len tse l : zlen (flat_map (log_docs tse) l) = (if tse then 3 else 2) * zlen l.
Proof.
  induction l as [|e l IH]; [destruct tse; reflexivity|]. cbn [flat_map]. rewrite zlen_app, IH, zlen_cons.
  assert (zlen (log_docs tse e) = if tse then 3 else 2) by (destruct tse; reflexivity). destruct tse; lia.
Qed.
Lemma docs_value tse l : map doc_value (flat_map (log_docs tse) l) = flat_map (log_items tse) l.
Proof.
  induction l as [|e l IH]; [reflexivity|]. cbn [flat_map]. rewrite map_app, IH. f_equal. unfold log_docs, log_items.
  destruct tse, (l_type e =? 0); cbn [app map doc_value concat]; rewrite ?app_nil_r; reflexivity.
Qed.
Lemma array_ok l : is_u32 (zlen l) -> Forall doc_ok l -> doc_ok (DArray l).
Proof. intros H F. cbn [doc_ok]. split; [exact H|]. clear H. induction F; [exact I|split; assumption]. Qed.
Lemma docs_ok tse l : Forall (hfine tse) l -> Forall doc_ok (flat_map (log_docs tse) l).
Proof.
  induction 1 as [|e l (H1 & H2 & H3 & H4) F IH]; [constructor|]. cbn [flat_map]. apply Forall_app. split; [|exact IH].
  pose proof (zlen_nonneg (l_text e)). unfold log_docs. apply Forall_app. split.
  - destruct tse; [|constructor]. constructor; [|constructor]. cbn [doc_ok]. destruct (l_ts e); [apply H4|unfold is_u32; lia].
  - constructor; [cbn [doc_ok]; unfold is_u32; lia|]. constructor; [|constructor]. destruct (l_type e =? 0); cbn [doc_ok concat]; rewrite ?app_nil_r; unfold is_u32; lia.
Qed.
Lemma msg_read env tse cap time before l : senv_ok env -> 0 < cap <= 268435456 -> Forall (hfine tse) l -> hrooms l <= cap -> all_whole cap before l ->
  cbor_read (ops_bytes (msg_ops env tse cap time before l)) = Some (logs_item env tse time l, []).
Proof.
  intros HE Hc F HR W. pose proof (zlen_nonneg l).
  assert (ZL : zlen l <= hrooms l). { clear. induction l; [vm_compute; discriminate|]. rewrite zlen_cons. unfold hrooms in *. cbn [fold_right]. pose proof (hroom_pos a). lia. }
  assert (EO : msg_ops env tse cap time before l = doc_ops (event_doc env (if tse then 6 else 4) time (DArray (flat_map (log_docs tse) l)))).
  { unfold msg_ops. rewrite event_doc_ops. cbn [doc_ops]. rewrite docs_len, (up_whole _ _ _ _ F W), <- app_assoc. reflexivity. }
  rewrite EO. rewrite <- (app_nil_r (ops_bytes _)). rewrite doc_cbor_read.
  - rewrite event_doc_value. cbn [doc_value]. rewrite docs_value. reflexivity.
  - apply event_doc_ok; [exact HE|destruct tse; unfold is_u32; lia|]. apply array_ok; [rewrite docs_len; unfold is_u32; destruct tse; lia|now apply docs_ok].
Qed.

(** ** Nothing moves while an upload is in progress *)
Lemma fit_room cap e l : hrooms (fit cap l) + hroom e <= cap -> fit cap (l ++ [e]) = fit cap l ++ [e].
Proof.
  intros H. pose proof (hrooms_nonneg (fit cap l)). rewrite fit_snoc by lia. f_equal.
  destruct (fit cap l) as [|x r]; [reflexivity|]. cbn [hevict]. replace (_ <=? cap) with true by lia. reflexivity.
Qed.

Definition in_log (h : hist) : Prop := h_sent h <= zlen (h_saved h) /\ match h_up h with Some n => n <= zlen (h_saved h) | None => True end.
Lemma save_still cap h n e b h' : h_up h = Some n -> in_log h -> hist_save cap h e = (b, h') ->
  h_up h' = Some n /\ in_log h' /\ uploading cap h' = uploading cap h /\ before_of cap h' = before_of cap h.
Proof.
  intros U (S1 & S2) H. unfold hist_save in H. rewrite U in *. destruct (_ <? h_min h) in H; [inv H; unfold in_log; rewrite U; auto|].
  destruct (_ || _) eqn:EX in H; inv H; cbn [h_up h_saved h_sent].
  - unfold in_log, uploading, before_of. cbn [h_up h_saved h_sent]. rewrite U. auto.
  - apply orb_false_iff in EX. destruct EX as (E1 & E2). unfold in_log, uploading, before_of. cbn [h_up h_saved h_sent]. rewrite U.
    assert (FF : first cap (h_saved h ++ [e]) = first cap (h_saved h)).
    { unfold first. rewrite fit_room by lia. rewrite !zlen_app. lia. }
    rewrite FF. destruct (first_range cap (h_saved h)) as (FR & _). cbv zeta.
    set (a := Z.max (first cap (h_saved h)) (h_sent h)). assert (a <= zlen (h_saved h)) by lia. assert (0 <= a) by lia.
    split; [reflexivity|]. split; [rewrite zlen_app; change (zlen [e]) with 1; lia|]. split.
    + rewrite drop_app_le by lia. destruct (Z.le_gt_cases 0 (n - a)); [|unfold take; replace (Z.to_nat (n - a)) with 0%nat by lia; reflexivity].
      apply take_app_le. rewrite zlen_drop. lia.
    + rewrite take_app_le by lia. reflexivity.
Qed.
Lemma step_still M cap h n o r h' : h_up h = Some n -> o <> LMarkSent -> in_log h -> hist_step M cap h o = Some (r, h') ->
  h_up h' = Some n /\ in_log h' /\ uploading cap h' = uploading cap h /\ before_of cap h' = before_of cap h.
Proof.
  intros U NO I H. destruct o as [level type ts text| |time| | |l| |]; cbn [hist_step] in H; try congruence.
  - destruct (hist_save _ _ _) as [b h1] eqn:E. inv H. eapply save_still; eassumption.
  - unfold in_log, uploading, before_of in *. repeat match type of H with
      | context [if ?x then _ else _] => destruct x; try discriminate
      | context [match nth_error ?a ?b with _ => _ end] => destruct (nth_error a b)
      end; inv H; cbn [h_up h_saved h_sent]; rewrite ?U in *; auto.
  - rewrite U in H. inv H. auto.
  - inv H. auto.
  - inv H. unfold in_log, uploading, before_of in *. cbn [h_up h_saved h_sent]. rewrite U in *. auto.
  - inv H. auto.
  - inv H. auto.
Qed.
Lemma run_still M cap ops : forall h n t rs h', h_up h = Some n -> ~ In LMarkSent ops -> in_log h -> hist_run M cap h ops = Some (rs, h') ->
  h_up h' = Some n /\ uploading cap h' = uploading cap h /\ before_of cap h' = before_of cap h /\ upload_time M cap h t ops = t.
Proof.
  induction ops as [|o ops IH]; intros h n t rs h' U NI I H; cbn [hist_run upload_time] in *; [inv H; auto|].
  binv H. destruct v as [r h1]. binv H. destruct v as [rs1 h2]. inv H. rewrite E.
  destruct (step_still _ _ _ _ _ _ _ U (fun X => NI (or_introl X)) I E) as (U1 & I1 & P1 & B1).
  destruct (IH h1 n t _ _ U1 (fun X => NI (or_intror X)) I1 E0) as (U2 & P2 & B2 & T2).
  rewrite P2, P1, B2, B1. rewrite U. destruct o; auto.
Qed.
Lemma time_app M cap a : forall b h t rs h', hist_run M cap h a = Some (rs, h') -> upload_time M cap h t (a ++ b) = upload_time M cap h' (upload_time M cap h t a) b.
Proof.
  induction a as [|o a IH]; intros b h t rs h' H; cbn [hist_run upload_time app] in *; [inv H; reflexivity|].
  binv H. destruct v as [r h1]. binv H. destruct v as [rs1 h2]. inv H. rewrite E. eapply IH. eassumption.
Qed.

(** ** The logs of an upload are within range *)
Lemma flag_fine M tse next sent l : M <= 255 -> forall i, Forall (fine M tse) (flag next sent i l) -> Forall (hfine tse) l.
Proof.
  intros HM. induction l as [|e l IH]; intros i F; [constructor|]. cbn [flag] in F. constructor; [|eapply IH; exact (Forall_inv_tail F)].
  destruct (Forall_inv F) as (F1 & F2 & F3 & F4 & F5 & F6). cbn [sl g_level g_type g_text g_ts] in *. unfold hfine. split; [exact F1|]. split; [exact F2|].
  split; [|exact F6]. unfold payload in F4. cbn [sl g_ts g_text] in F4. rewrite zlen_app in F4. pose proof (zlen_nonneg (match l_ts e with Some t => le32 t | None => [] end)). lia.
Qed.
Lemma Forall_drop {A} (P : A -> Prop) n l : Forall P l -> Forall P (drop n l).
Proof. unfold drop. intros H. revert l H. induction (Z.to_nat n); intros l H; [exact H|]. destruct H; [constructor|]. cbn [skipn]. auto. Qed.
Lemma Forall_take {A} (P : A -> Prop) n l : Forall P l -> Forall P (take n l).
Proof. unfold take. intros H. revert l H. induction (Z.to_nat n); intros l H; [constructor|]. destruct H; [constructor|]. cbn [firstn]. constructor; auto. Qed.
Lemma uploading_fine M tse cap s v h : M <= 255 -> lsim M tse cap s v -> hsim cap h v -> Forall (hfine tse) (uploading cap h).
Proof.
  intros HM K Q. pose proof (k_fine _ _ _ _ _ K) as F. rewrite (q_logs _ _ _ Q) in F. apply (flag_fine M) in F; [|exact HM].
  unfold uploading. destruct (h_up h) as [n|]; [|constructor]. cbv zeta. apply Forall_take.
  destruct (fit_suffix cap (h_saved h)) as (pre & EP & LP). destruct (first_range cap (h_saved h)) as (FR & _). rewrite EP at 2. rewrite drop_app_ge by lia. now apply Forall_drop.
Qed.

(** ** From boot *)
Theorem upload_message M env tse storage min ops rs h n : 0 < zlen storage <= 268435456 -> 4 <= M <= 255 -> senv_ok env -> Forall (log_op_ok tse) ops ->
  hist_run M (zlen storage) (hist_init min) ops = Some (rs, h) -> h_up h = Some n ->
  exists msg,
    (upload_whole (zlen storage) h -> cbor_read msg = Some (logs_item env tse (upload_time M (zlen storage) (hist_init min) None ops) (uploading (zlen storage) h), [])) /\
    forall more rs' h', Forall (log_op_ok tse) more -> ~ In LMarkSent more -> hist_run M (zlen storage) h more = Some (rs', h') ->
    exists s s', log_boot storage (zlen storage) min = Some (Some s) /\ log_run M tse s (ops ++ more) = Some (rs ++ rs', s') /\
      lds_has env tse s' = Some (Some (zlen msg)) /\
      forall off buf, 0 <= off -> off + zlen buf < 4294967296 ->
        exists out, lds_read env tse s' off buf = Some ((off + zlen buf <=? zlen msg) || (zlen buf =? 0), out) /\
          (off + zlen buf <= zlen msg -> out = take (zlen buf) (drop off msg)).
Proof.
  intros HC HM HE HO H U. set (cap := zlen storage) in *. assert (LC : lcap cap) by (unfold lcap; lia).
  destruct (log_boot_ok M tse storage min LC) as (s & EB & K0). fold cap in EB, K0.
  pose proof (hist_init_ok cap min) as Q0.
  assert (P0 : pos_inv cap s (hist_init min)).
  { unfold pos_inv. rewrite (sim_sz _ _ _ _ _ _ K0 Q0). change (hrooms (fit cap (h_saved (hist_init min)))) with 0. change (hrooms (h_saved (hist_init min))) with 0.
    unfold log_boot in EB. binv EB. destruct v as [c|]; [|discriminate]. injection EB as <-. cbn [lg_cb]. unfold cb_init in E.
    repeat match type of E with context [if ?x then _ else _] => destruct x; try discriminate end. binv E. inv E. reflexivity. }
  destruct (full_run M tse cap ops LC HM s _ _ None rs h K0 Q0 P0 ltac:(intros X; now elim X) HO H) as (s1 & v1 & E1 & K1 & Q1 & P1 & T1).
  specialize (T1 ltac:(rewrite U; discriminate)).
  exists (ops_bytes (msg_ops env tse cap (lg_time s1) (before_of cap h) (uploading cap h))). split.
  - intros W. rewrite <- T1. destruct (upload_facts _ _ _ _ _ _ _ LC K1 Q1 P1 U) as (_ & _ & HU & _). apply msg_read; [exact HE|lia| |exact HU|exact W].
    eapply uploading_fine; [|eassumption..]. lia.
  - intros more rs' h' HO' NM H'.
    assert (IL : in_log h).
    { pose proof (q_le _ _ _ Q1) as (_ & HS & _). pose proof (q_num _ _ _ Q1) as QN. unfold in_log. rewrite U in *. lia. }
    destruct (run_still M cap more h n (lg_time s1) rs' h' U NM IL H') as (U2 & UP2 & B2 & T2).
    pose proof (hist_run_app _ _ _ _ _ _ _ _ _ H H') as HA.
    destruct (full_run M tse cap (ops ++ more) LC HM s _ _ None _ h' K0 Q0 P0 ltac:(intros X; now elim X) ltac:(apply Forall_app; auto) HA) as (s2 & v2 & E2 & K2 & Q2 & P2 & T3).
    specialize (T3 ltac:(rewrite U2; discriminate)). rewrite (time_app _ _ _ _ _ _ _ _ H), <- T1, T2 in T3.
    exists s, s2. split; [exact EB|]. split; [exact E2|]. rewrite <- T3, <- B2, <- UP2. split.
    + eapply has_ok; try eassumption; lia.
    + intros off buf Ho Hb. eapply read_ok; try eassumption; lia.
Qed.
Lemma no_upload M env tse storage min ops rs h : 0 < zlen storage < 2147483648 -> 4 <= M <= 255 -> Forall (log_op_ok tse) ops ->
  hist_run M (zlen storage) (hist_init min) ops = Some (rs, h) -> h_up h = None ->
  exists s s', log_boot storage (zlen storage) min = Some (Some s) /\ log_run M tse s ops = Some (rs, s') /\ lds_has env tse s' = Some None.
Proof.
  intros HC HM HO H U. assert (LC : lcap (zlen storage)) by (unfold lcap; lia).
  destruct (log_boot_ok M tse storage min LC) as (s & EB & K).
  destruct (hist_run_ok M _ ops LC _ _ _ _ (hist_init_ok _ min) H) as (v & EV & KV).
  destruct (log_run_ok M tse _ ops LC HM _ _ _ _ K HO EV) as (s' & ER & KS).
  exists s, s'. split; [exact EB|]. split; [exact ER|]. unfold lds_has. rewrite (k_trig _ _ _ _ _ KS), (q_trig _ _ _ KV), U. reflexivity.
Qed.
