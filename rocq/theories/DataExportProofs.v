From Coq Require Import String.
From Verif Require Import Base Varint VarintProofs Crc16 Crc16Spec Crc16Proofs Base64 Base64Spec Base64Proofs ChunkTransport ChunkSpec ChunkProofs ChunkDrain
  Packetizer PacketizerSpec PacketizerProofs DataExport DataExportSpec.

(* ------------------------------------------------------------ one line *)
Definition plain64 (c : Z) : Prop := c <> 0 /\ c <> 58.
Lemma b64_val_plain c v : b64_val c = Some v -> plain64 c.
Proof.
  unfold b64_val, plain64. intros H. split; intros ->; vm_compute in H; discriminate.
Qed.
Lemma b64_decode_plain n : forall l d, (List.length l <= n)%nat -> b64_decode l = Some d -> Forall plain64 l.
Proof.
  induction n as [|n IH]; intros l d L H; (destruct l as [|a [|b [|c [|e r]]]]; [constructor|discriminate H|discriminate H|discriminate H|]); cbn [List.length] in L; [lia|].
  cbn [b64_decode] in H.
  destruct (b64_val a) as [va|] eqn:Ea; [|discriminate].
  destruct (b64_val b) as [vb|] eqn:Eb; [|discriminate].
  apply b64_val_plain in Ea. apply b64_val_plain in Eb. constructor; [exact Ea|]. constructor; [exact Eb|].
  destruct (b64_val c) as [vc|] eqn:Ec.
  - apply b64_val_plain in Ec. constructor; [exact Ec|].
    destruct (b64_val e) as [ve|] eqn:Ee.
    + apply b64_val_plain in Ee. constructor; [exact Ee|]. destruct (b64_decode r) eqn:Er; [|discriminate].
      eapply IH; [|exact Er]. lia.
    + destruct (e =? 61) eqn:E1; cbn [andb] in H; [|discriminate]. destruct (vc mod 4 =? 0); [|discriminate].
      destruct r; [|discriminate]. constructor; [unfold plain64; lia|constructor].
  - destruct (c =? 61) eqn:E1; cbn [andb] in H; [|discriminate]. destruct (e =? 61) eqn:E2; cbn [andb] in H; [|discriminate].
    destruct (vb mod 16 =? 0); [|discriminate]. destruct r; [|discriminate].
    constructor; [unfold plain64; lia|]. constructor; [unfold plain64; lia|constructor].
Qed.

Lemma cut_app c l r : Forall (fun x => x <> c) l -> cut c (l ++ c :: r) = Some (l, r).
Proof.
  induction 1 as [|x l Hx _ IH]; cbn [app cut].
  - now rewrite Z.eqb_refl.
  - replace (x =? c) with false by lia. now rewrite IH.
Qed.

Lemma line_carries enc chunk rest : b64_decode enc = Some chunk ->
  carries (str "MC:" ++ enc ++ str ":" ++ 0 :: rest) chunk.
Proof.
  intros D. pose proof (b64_decode_plain _ _ _ (le_n _) D) as P.
  exists (str "MC:" ++ enc ++ str ":"). split.
  - unfold c_string. replace (str "MC:" ++ enc ++ str ":" ++ 0 :: rest) with ((str "MC:" ++ enc ++ str ":") ++ 0 :: rest)
      by (rewrite <- !app_assoc; reflexivity).
    rewrite cut_app; [reflexivity|]. repeat (apply Forall_app; split).
    + repeat constructor; vm_compute; discriminate.
    + eapply Forall_impl; [|exact P]. intros a [A _]. exact A.
    + repeat constructor; vm_compute; discriminate.
  - change (str "MC:") with [77; 67; 58]. change (str ":") with [58]. cbn [app read_line].
    rewrite cut_app; [exact D|]. eapply Forall_impl; [|exact P]. intros a [_ A]. exact A.
Qed.

Lemma export_chunk_ok max junk chunk : bytes chunk -> zlen chunk <= max -> b64_enc_len max <= INT_MAX ->
  zlen junk = export_buf_len max ->
  exists enc, export_chunk max junk chunk =
      Some (str "MC:" ++ enc ++ str ":" ++ 0 :: drop (zlen enc + 5) junk) /\
    b64_decode enc = Some chunk /\ zlen enc = b64_enc_len (zlen chunk) /\ zlen enc + 5 <= zlen junk.
Proof.
  intros Hb Hl Hm Hj. unfold export_buf_len in Hj. pose proof (zlen_nonneg chunk) as N.
  assert (Le : 0 <= b64_enc_len (zlen chunk) <= b64_enc_len max).
  { unfold b64_enc_len. pose proof (Z.div_le_mono (zlen chunk + 2) (max + 2) 3 ltac:(lia) ltac:(lia)).
    pose proof (Z.div_pos (zlen chunk + 2) 3 ltac:(lia) ltac:(lia)). lia. }
  unfold export_chunk. replace (max <? zlen chunk) with false by lia.
  change (str "MC:") with [77; 67; 58]. change (str ":") with [58].
  destruct junk as [|j0 [|j1 [|j2 junk]]]; try (repeat (rewrite zlen_cons in Hj); change (zlen (@nil Z)) with 0 in Hj; lia).
  assert (S0 : splice (j0 :: j1 :: j2 :: junk) 0 [77; 67; 58] = Some (77 :: 67 :: 58 :: junk)).
  { change (j0 :: j1 :: j2 :: junk) with ([] ++ (j0 :: j1 :: j2 :: junk)).
    rewrite splice_app_pre; [|reflexivity|rewrite !zlen_cons; change (zlen (@nil Z)) with 0; pose proof (zlen_nonneg junk); lia]. reflexivity. }
  rewrite S0. cbn [bind]. change (drop 3 (77 :: 67 :: 58 :: junk)) with junk. change (take 3 (77 :: 67 :: 58 :: junk)) with [77; 67; 58].
  rewrite !zlen_cons in Hj.
  rewrite base64_encode_is_b64 by (auto; lia). cbn [bind].
  exists (b64 chunk). rewrite b64_len.
  set (m := b64_enc_len (zlen chunk)) in *. set (t := drop m junk).
  assert (Lt : 2 <= zlen t) by (unfold t; rewrite zlen_drop; lia).
  destruct t as [|t0 [|t1 t']] eqn:Et; try (repeat (rewrite zlen_cons in Lt); change (zlen (@nil Z)) with 0 in Lt; lia).
  rewrite app_assoc.
  rewrite splice_app_pre; [|rewrite zlen_app, b64_len; reflexivity|rewrite !zlen_cons; change (zlen (@nil Z)) with 0; pose proof (zlen_nonneg t'); lia].
  cbn [bind].
  replace (drop (zlen [58]) (t0 :: t1 :: t')) with (t1 :: t') by reflexivity.
  replace (([77; 67; 58] ++ b64 chunk) ++ [58] ++ t1 :: t') with ((([77; 67; 58] ++ b64 chunk) ++ [58]) ++ t1 :: t') by (rewrite <- !app_assoc; reflexivity).
  rewrite put_app_pre by (rewrite !zlen_app, b64_len; reflexivity).
  split; [|split; [now apply b64_roundtrip|split; [reflexivity|rewrite !zlen_cons; lia]]].
  f_equal. rewrite <- !app_assoc. cbn [app]. do 3 f_equal.
  replace (drop (m + 5) (j0 :: j1 :: j2 :: junk)) with t'; [reflexivity|].
  assert (D : drop 2 (drop m junk) = t') by (unfold t in Et; rewrite Et; reflexivity). rewrite <- D.
  change (j0 :: j1 :: j2 :: junk) with ([j0; j1; j2] ++ junk). rewrite drop_app_ge by (change (zlen [j0; j1; j2]) with 3; lia).
  change (zlen [j0; j1; j2]) with 3. rewrite drop_drop by lia. f_equal. lia.
Qed.

Lemma export_line_correct max junk chunk : bytes chunk -> zlen chunk <= max -> b64_enc_len max <= INT_MAX ->
  zlen junk = export_buf_len max ->
  exists buf, export_chunk max junk chunk = Some buf /\ zlen buf = zlen junk /\ carries buf chunk.
Proof.
  intros A B C D. destruct (export_chunk_ok max junk chunk A B C D) as (enc & E1 & E2 & E3 & E4).
  eexists. split; [exact E1|]. split; [|now apply line_carries].
  change (str "MC:") with [77; 67; 58]. change (str ":") with [58].
  rewrite !zlen_app. change (zlen [77; 67; 58]) with 3. change (zlen [58]) with 1. rewrite zlen_cons, zlen_drop. pose proof (zlen_nonneg enc). lia.
Qed.

(** Too long a chunk trips the assertion: the array is never written past its end. *)
Lemma export_too_long max junk chunk : max < zlen chunk -> export_chunk max junk chunk = None.
Proof. intros H. unfold export_chunk. now replace (max <? zlen chunk) with true by lia. Qed.

(* ------------------------------------------------------------ chunks are bytes *)
Lemma ct_out_bytes msg c buf o : bytes msg -> zlen msg < 4294967293 -> cwf msg c -> 9 <= zlen buf < 4294967296 ->
  ct_next (read_at msg) c buf (zlen buf) = Some o -> bytes (take (co_len o) (co_buf o)).
Proof.
  intros Hb Hs W Hn E.
  destruct (ct_next_ok msg Hb Hs c buf (zlen buf) W) as (more & k & vi & crc & out & Ev & Ec & Eo & _ & _ & _ & _ & _ & _ & En); [lia|lia|lia|].
  rewrite En in E. injection E as <-. cbn [co_len co_buf]. rewrite take_app_exact by reflexivity. rewrite Eo.
  assert (Bv : bytes vi).
  { destruct (varint_u32_some (if ct_offset c =? 0 then zlen msg else ct_offset c)) as (e & Ee & Be & _).
    - destruct W as [_ W _]. pose proof (zlen_nonneg msg). unfold is_u32. destruct (ct_offset c =? 0); lia.
    - rewrite Ev in Ee. now injection Ee as ->. }
  assert (Hh : forall x y, is_u8 (ct_hdr x y)) by (intros [] []; vm_compute; split; congruence).
  apply bytes_app. split; [|apply bytes_app; split].
  - unfold out_head. destruct (ct_offset c =? 0).
    + constructor; [apply Hh|]. destruct (more && negb (ct_multi c)); [exact Bv|constructor].
    + destruct (ct_multi c); [constructor|]. constructor; [apply Hh|exact Bv].
  - now apply bytes_take, bytes_drop.
  - destruct more; [constructor|]. unfold crc_le.
    assert (forall x, is_u8 (Z.land x 255)) by (intros x; change 255 with (Z.ones 8); rewrite Z.land_ones by lia; pose proof (Z.mod_pos_bound x (2 ^ 8) ltac:(lia)); unfold is_u8; lia).
    constructor; [auto|]. constructor; [auto|constructor].
Qed.

Lemma next_bytes cfg w st ss buf status out st' w' cs : sim cfg w st ss -> 9 <= zlen buf < 4294967296 ->
  pk_get_next cfg w st buf = Some (status, out, st', w', cs) -> bytes out.
Proof.
  intros [S1 S2 S3 S4] Hn E. unfold pk_get_next in E. destruct (pk_cur st) as [pm|] eqn:Ec.
  2: { injection E as <- <- <- <- <-. constructor. }
  destruct (s_fl ss) as [f|]; [|contradiction].
  destruct f as [s m multi outs]. destruct S4 as [F1 F2 F3 [r F4] F5 F6 F7 F8 _]. cbn in *.
  rewrite F1, F2, (src_msg_body _ _ _ _ _ F4) in E. cbn [bind] in E.
  assert (Hmo : msg_ok cfg s m) by (pose proof (S3 s) as O; rewrite F4 in O; now inv O).
  destruct Hmo as [Hb Hsz].
  rewrite (ct_next_ext _ (read_at (wire cfg s m))) in E.
  2: { destruct F7 as [T _ _]. rewrite T. zl. }
  2: { intros k Hk. rewrite <- F1. apply reader_is_wire; [congruence|destruct F7; lia|exact Hk]. }
  destruct (ct_next (read_at (wire cfg s m)) (pm_ctx pm) buf (zlen buf)) as [o|] eqn:En; [|discriminate E]. cbn [bind] in E.
  pose proof (ct_out_bytes _ _ _ _ Hb Hsz F7 Hn En) as Bo.
  destruct (co_len o =? 0); [injection E as <- <- <- <- <-; exact Bo|].
  destruct (negb (co_more o)); injection E as <- <- <- <- <-; exact Bo.
Qed.

(* ------------------------------------------------------------ the loop *)
Definition single (ss : sstate) : Prop := match s_fl ss with Some f => f_multi f = false | None => True end.

(** One call: a non-empty chunk of bytes, or nothing at all. *)
Lemma chunk_step cfg w st ss b : sim cfg w st ss -> single ss -> 9 <= zlen b < 4294967296 ->
  exists ok out st' w' cs ss', pk_get_chunk cfg w st b = Some (ok, out, st', w', cs) /\ sim cfg w' st' ss' /\ single ss' /\
    (ok = true /\ out <> [] /\ bytes out /\ zlen out <= zlen b \/
     ok = false /\ out = [] /\ st' = st /\ w' = w /\ forall b', pk_get_chunk cfg w st b' = Some (false, [], st, w, cs)).
Proof.
  intros S A Hb. unfold pk_get_chunk.
  destruct (begin_ok cfg w st ss false S) as (ss1 & B). destruct (pk_begin cfg w st false) as [[[[ok l] p] st1] cs1] eqn:Eb.
  destruct B as [B1 S1].
  assert (A1 : single ss1) by (unfold single in *; inv B1; cbn [s_fl f_multi] in *; auto).
  destruct ok; cbn [negb].
  - destruct (next_ok cfg w st1 ss1 b S1) as (status & out & st2 & w2 & cs2 & ss2 & En & Nx & S2); [lia|]. rewrite En. cbn [bind].
    pose proof (next_bytes _ _ _ _ _ _ _ _ _ _ S1 Hb En) as Bo.
    exists (match status with EndOfChunk => true | _ => false end), out, st2, w2, (cs1 ++ cs2), ss2. split; [reflexivity|]. split; [exact S2|].
    inv Nx.
    + exfalso. inv B1.
    + lia.
    + unfold single in *. cbn [s_fl f_multi] in *. subst multi. split; [reflexivity|]. left.
      split; [reflexivity|]. split; [intros ->; change (zlen (@nil Z)) with 0 in *; lia|]. split; [exact Bo|lia].
    + split; [exact I|]. left. split; [reflexivity|]. split; [intros ->; change (zlen (@nil Z)) with 0 in *; lia|]. split; [exact Bo|lia].
  - exists false, [], st1, w, cs1, ss1. split; [reflexivity|]. split; [exact S1|]. split; [exact A1|]. right.
    assert (st1 = st) as ->; [|split; [reflexivity|]; split; [reflexivity|]; split; [reflexivity|]; split; [reflexivity|];
      intros b'; reflexivity].
    unfold pk_begin, pk_load in Eb. destruct (pk_cur st) as [pm|] eqn:Ec.
    + cbn in Eb. rewrite Ec in Eb. discriminate.
    + destruct (pk_find cfg w (pk_mask st) src_table) as [[[[s rle] tot]|] cs]; cbn [pk_cur pm_ctx] in Eb; [discriminate|].
      rewrite Ec in Eb. now injection Eb as _ _ <- _.
Qed.


Lemma run_idle cfg w st cs bufs rs st' w' : (forall b, pk_get_chunk cfg w st b = Some (false, [], st, w, cs)) ->
  pk_run cfg w st (map PChunk bufs) = Some (rs, st', w') -> chunks_of rs = [] /\ st' = st /\ w' = w.
Proof.
  intros H. revert rs. induction bufs as [|b bufs IH]; intros rs E; cbn [map pk_run] in E.
  - now injection E as <- <- <-.
  - cbn [pk_step] in E. rewrite H in E. cbn [bind] in E. destruct (pk_run cfg w st (map PChunk bufs)) as [[[rs1 st1] w1]|] eqn:E1; [|discriminate E].
    cbn [bind] in E. injection E as <- <- <-. apply (IH _ eq_refl).
Qed.


Lemma nothing_false cfg w st ss b : sim cfg w st ss -> nothing_to_send w (pk_mask st) ->
  exists cs, pk_get_chunk cfg w st b = Some (false, [], st, w, cs).
Proof.
  intros S N. unfold pk_get_chunk, pk_begin. destruct (pk_cur st) as [pm|] eqn:Ec.
  - exfalso. destruct S as [_ _ _ S4]. rewrite Ec in S4. destruct (s_fl ss) as [f|]; [|contradiction].
    destruct S4 as [_ _ En [r Q] _ _ _ _ _]. destruct (N (f_src f)); congruence.
  - unfold pk_load. pose proof (pk_find_ok cfg w (pk_mask st)) as F. destruct (pk_find cfg w (pk_mask st) src_table) as [x cs]. destruct F as [_ F2].
    destruct x as [[[s rle] total]|].
    + exfalso. destruct F2 as [(A & B & _) _]. destruct (N s); congruence.
    + rewrite Ec. cbn [negb]. eauto.
Qed.

(** The loop prints the chunks a long enough run of calls hands out. *)
Lemma dump_run max cfg stacks last : 9 <= max < 4294967296 -> b64_enc_len max <= INT_MAX ->
  Forall (fun p => zlen (fst p) = max /\ zlen (snd p) = export_buf_len max) stacks ->
  forall w st ss rs st' w', sim cfg w st ss -> single ss ->
  pk_run cfg w st (map PChunk (map fst stacks)) = Some (rs, st', w') ->
  nothing_to_send w' (pk_mask st') ->
  exists lines, dump max cfg w st (stacks ++ [last]) = Some (lines, st', w') /\ Forall2 carries lines (chunks_of rs).
Proof.
  intros M1 M2 F. induction F as [|[b junk] stacks [Fb Fj] F IH]; intros w st ss rs st' w' S A R N.
  - cbn [map pk_run] in R. injection R as <- <- <-. destruct last as [b junk]. cbn [app dump]. unfold try_send.
    destruct (nothing_false cfg w st ss b S N) as (cs & ->). cbn [bind negb]. exists []. split; [reflexivity|]. constructor.
  - cbn [fst snd] in Fb, Fj. cbn [map fst pk_run pk_step] in R.
    destruct (chunk_step cfg w st ss b S A) as (ok & out & st1 & w1 & cs & ss1 & E & S1 & A1 & D); [lia|].
    rewrite E in R. cbn [bind] in R.
    destruct (pk_run cfg w1 st1 (map PChunk (map fst stacks))) as [[[rs1 st2] w2]|] eqn:R1; [|discriminate R].
    cbn [bind] in R. injection R as <- <- <-.
    cbn [app dump]. unfold try_send. rewrite E. cbn [bind].
    destruct D as [(-> & Ne & Bo & Lo)|(-> & -> & -> & -> & Idle)]; cbn [negb].
    + destruct (export_line_correct max junk out Bo ltac:(lia) M2 Fj) as (buf & X1 & X2 & X3). rewrite X1. cbn [bind].
      assert (Ec : chunks_of ((ResChunk true out, cs) :: rs1) = out :: chunks_of rs1) by (destruct out; [congruence|reflexivity]).
      rewrite Ec.
      destruct (IH _ _ _ _ _ _ S1 A1 R1 N) as (lines & Y1 & Y2). rewrite Y1. cbn [bind].
      exists (buf :: lines). split; [reflexivity|]. constructor; assumption.
    + destruct (run_idle _ _ _ _ _ _ _ _ Idle R1) as (Z1 & -> & ->).
      exists []. split; [reflexivity|]. change (chunks_of ((ResChunk false [], cs) :: rs1)) with (chunks_of rs1). rewrite Z1. constructor.
Qed.

Lemma run_mask cfg bufs : forall w st ss rs st' w', sim cfg w st ss -> single ss ->
  Forall (fun b => 9 <= zlen b < 4294967296) bufs ->
  pk_run cfg w st (map PChunk bufs) = Some (rs, st', w') -> pk_mask st' = pk_mask st.
Proof.
  induction bufs as [|b bufs IH]; intros w st ss rs st' w' S A F R; cbn [map pk_run] in R; [now injection R as <- <- <-|].
  inv F. cbn [pk_step] in R.
  destruct (chunk_step cfg w st ss b S A) as (ok & out & st1 & w1 & cs & ss1 & E & S1 & A1 & D); [assumption|].
  assert (M : pk_mask st1 = pk_mask st).
  { clear - E. unfold pk_get_chunk in E. destruct (pk_begin cfg w st false) as [[[[okb l] p] st2] csb] eqn:Eb.
    assert (pk_mask st2 = pk_mask st) as <-.
    { unfold pk_begin, pk_load in Eb. destruct (pk_cur st) as [pm|] eqn:Ec.
      - cbn in Eb. rewrite Ec in Eb. now injection Eb as _ _ _ <- _.
      - destruct (pk_find cfg w (pk_mask st) src_table) as [[[[s rle] tot]|] cs0]; cbn [pk_cur] in Eb; [now injection Eb as _ _ _ <- _|].
        rewrite Ec in Eb. now injection Eb as _ _ _ <- _. }
    destruct okb; cbn [negb] in E; [|now injection E as _ _ <- _ _].
    destruct (pk_get_next cfg w st2 b) as [[[[[status o] st3] w3] cs3]|] eqn:En; [|discriminate E]. cbn [bind] in E. injection E as _ _ <- _ _.
    unfold pk_get_next in En. destruct (pk_cur st2); [|now injection En as _ _ <- _ _].
    destruct (src_msg cfg w _ _); [|discriminate]. cbn [bind] in En.
    destruct (ct_next _ _ b (zlen b)) as [x|]; [|discriminate]. cbn [bind] in En.
    destruct (co_len x =? 0); [now injection En as _ _ <- _ _|].
    destruct (negb (co_more x)); now injection En as _ _ <- _ _. }
  rewrite E in R. cbn [bind] in R.
  destruct (pk_run cfg w1 st1 (map PChunk bufs)) as [[[rs1 st2] w2]|] eqn:R1; [|discriminate R].
  cbn [bind] in R. injection R as <- <- <-. rewrite <- M. eapply IH; eassumption.
Qed.

Lemma dump_everything max cfg w mask stacks : 9 <= max -> b64_enc_len max <= INT_MAX ->
  queues_ok cfg w -> is_u32 mask ->
  Forall (fun p => zlen (fst p) = max /\ zlen (snd p) = export_buf_len max) stacks ->
  work (backlog cfg mask w) < zlen stacks ->
  exists lines chunks groups st w',
    dump max cfg w (pk_set_active_sources pk_init mask) stacks = Some (lines, st, w') /\
    Forall2 carries lines chunks /\ chunks = concat groups /\
    Forall2 (fun g p => exists crc, receive g = Some (p, crc) /\ is_crc 0 p crc) groups (backlog cfg mask w) /\
    (forall s, q_of w' s = if enabled mask s then [] else q_of w s).
Proof.
  intros M1 M2 Hq Hm F W.
  assert (M3 : max < 4294967296).
  { unfold b64_enc_len, INT_MAX in M2. pose proof (Z.div_mod (max + 2) 3 ltac:(lia)). pose proof (Z.mod_pos_bound (max + 2) 3 ltac:(lia)). lia. }
  unfold pk_set_active_sources. rewrite u32_id by exact Hm. cbn [pk_cur pk_abort pk_reset].
  assert (Wn : 0 <= work (backlog cfg mask w)).
  { generalize (backlog cfg mask w). induction l as [|p l IHl]; cbn; [lia|]. fold (work l) in *. pose proof (zlen_nonneg p). cbn in *. lia. }
  destruct (exists_last (l := stacks)) as (front & last & ->).
  { intros ->. change (zlen (@nil (list Z * list Z))) with 0 in W. lia. }
  apply Forall_app in F as [F _]. rewrite zlen_app, zlen_cons in W. change (zlen (@nil (list Z * list Z))) with 0 in W.
  assert (Fb : Forall (fun b => 9 <= zlen b < 4294967296) (map fst front)).
  { apply Forall_map. eapply Forall_impl; [|exact F]. intros a [A _]. rewrite A. lia. }
  assert (S0 : sim cfg w (mk_pk None mask) (mk_ss w mask None)) by (constructor; cbn; auto).
  destruct (drain_all cfg (map fst front) w (mk_pk None mask) (mk_ss w mask None) S0 I Fb) as (rs & st & w' & groups & sent & rest & R1 & R2 & R3 & R4 & R5 & R6).
  cbn [pk_mask] in *. destruct R6 as [-> N]; [unfold done_bytes; cbn [pk_cur]; rewrite zlen_map; lia|].
  pose proof (run_mask _ _ _ _ _ _ _ _ S0 I Fb R1) as Em. cbn [pk_mask] in Em.
  destruct (dump_run max cfg front last ltac:(lia) M2 F _ _ _ _ _ _ S0 I R1) as (lines & D1 & D2); [now rewrite Em|].
  exists lines, (chunks_of rs), groups, st, w'. split; [exact D1|]. split; [exact D2|].
  split; [rewrite app_nil_r in R2; exact R2|].
  rewrite (backlog_none _ _ _ N), app_nil_r in R4. split; [now rewrite R4|].
  intros s. destruct (enabled mask s) eqn:E; [|now apply R5]. destruct (N s); [congruence|assumption].
Qed.

(** Begun in multi-call mode, the loop stops at once and a piece of the message is gone. *)
Lemma dump_mid_multi : ~ (forall max cfg w ops rs st w1 stacks lines st' w',
  9 <= max -> b64_enc_len max <= INT_MAX -> queues_ok cfg w -> Forall (op_ok cfg) ops ->
  pk_run cfg w pk_init ops = Some (rs, st, w1) ->
  Forall (fun p => zlen (fst p) = max /\ zlen (snd p) = export_buf_len max) stacks ->
  dump max cfg w1 st stacks = Some (lines, st', w') ->
  nothing_to_send w' (pk_mask st')).
Proof.
  intros H.
  set (cfg := mk_cfg [] None). set (w := mk_q [] [fill 20 1] [] []).
  set (ops := [PBegin true]).
  destruct (pk_run cfg w pk_init ops) as [[[rs st] w']|] eqn:E; [|vm_compute in E; discriminate].
  destruct (dump 9 cfg w' st [(fill 9 0, fill 17 0)]) as [[[lines st2] w2]|] eqn:D.
  2: { vm_compute in E. injection E as <- <- <-. vm_compute in D. discriminate. }
  assert (Q : queues_ok cfg w).
  { intros s. destruct s; cbn [q_of w q_core q_event q_log q_cdr]; [constructor| |constructor|constructor]. constructor; [|constructor].
    split; [|vm_compute; reflexivity]. change (bytes (2 :: fill 20 1)). constructor; [split; lia|]. apply bytes_fill. split; lia. }
  assert (F : Forall (fun p => zlen (fst p) = 9 /\ zlen (snd p) = export_buf_len 9) [(fill 9 0, fill 17 0)]).
  { constructor; [split; reflexivity|constructor]. }
  assert (O : Forall (op_ok cfg) ops) by (constructor; [exact I|constructor]).
  pose proof (H 9 cfg w ops rs st w' _ _ _ _ ltac:(lia) ltac:(vm_compute; discriminate) Q O E F D) as N.
  vm_compute in E. injection E as <- <- <-. vm_compute in D. injection D as <- <- <-.
  destruct (N SEvent) as [X|X]; vm_compute in X; discriminate.
Qed.

Lemma extract_mixed ls log : mixed ls log -> extract log = extract ls.
Proof.
  induction 1 as [|s ls log _ IH|s ls log E _ IH]; cbn [extract]; [reflexivity|now rewrite IH|now rewrite E].
Qed.
Lemma extract_lines ls chunks : Forall2 (fun s c => read_line s = Some c) ls chunks -> extract ls = chunks.
Proof. induction 1 as [|s c ls cs E _ IH]; cbn [extract]; [reflexivity|]. now rewrite E, IH. Qed.

Lemma extracted lines ls log chunks : Forall2 carries lines chunks ->
  Forall2 (fun b s => c_string b = Some s) lines ls -> mixed ls log -> extract log = chunks.
Proof.
  intros C L M. rewrite (extract_mixed _ _ M). apply extract_lines. clear M log. revert ls L.
  induction C as [|b c bs cs (s & E1 & E2) _ IH]; intros ls L; inv L; [constructor|].
  constructor; [congruence|]. now apply IH.
Qed.
