From Verif Require Import Base Rle RleSpec RleProofs DataSourceRle DataSourceRleSpec.

(** What is still to come from byte [k] on. *)
Definition future (m : list Z) (k : Z) (c : rle_ctx) : option (list Z) :=
  do x <- bytes_run (core c) (drop k m); do f <- rle_finalize (core (snd x)); rle_emit_all m (fst x ++ [write_info f]).
Definition enc_of (m : list Z) : list Z :=
  match m with [] => [] | _ => match future m 0 rle_init with Some s => s | None => [] end end.

Lemma finalize_core c : rle_finalize (core c) = rle_finalize c.
Proof. now destruct c. Qed.

Lemma emit_all_app m a : forall b, rle_emit_all m (a ++ b) =
  do x <- rle_emit_all m a; do y <- rle_emit_all m b; Some (x ++ y).
Proof.
  induction a as [|w a IH]; intros b; cbn [app rle_emit_all bind].
  - now destruct (rle_emit_all m b).
  - destruct (rle_emit m w); [|reflexivity]. cbn [bind]. rewrite IH.
    destruct (rle_emit_all m a); [|reflexivity]. cbn [bind]. destruct (rle_emit_all m b); [|reflexivity]. cbn [bind]. now rewrite app_assoc.
Qed.

Lemma drop_take {A} a b (l : list A) : 0 <= a -> drop a (take b l) = take (b - a) (drop a l).
Proof. intros. unfold drop, take. rewrite skipn_firstn_comm. f_equal. lia. Qed.

(** A write that can be emitted from [m]. *)
Definition w_in (m : list Z) (w : rle_write) : Prop :=
  1 <= w_len w /\ 0 <= w_start w /\ w_start w + w_len w <= zlen m /\ 1 <= zlen (w_header w) <= 5.
Definition emitted (m : list Z) (w : rle_write) : list Z := w_header w ++ take (w_len w) (drop (w_start w) m).
Lemma emit_in m w : w_in m w -> rle_emit m w = Some (emitted m w) /\ zlen (emitted m w) = zlen (w_header w) + w_len w.
Proof.
  intros (A & B & C & D). unfold rle_emit, emitted. rewrite read_at_some by lia. split; [reflexivity|].
  rewrite zlen_app, zlen_take, zlen_drop; zl.
Qed.

(** ** One call of the encoder *)
Lemma encode_step m k c ws segs pend n : inv (take k m) ws segs pend c -> zlen m < 2147483648 ->
  0 <= k -> 0 < n -> k + n <= zlen m ->
  exists j c' segs' pend', rle_encode c (take n (drop k m)) = Some (j, c') /\ 0 < j <= n /\
    inv (take (k + j) m) (ws ++ out_of c') segs' pend' c' /\
    future m k c = (do a <- rle_emit_all m (out_of c'); do b <- future m (k + j) c'; Some (a ++ b)) /\
    (forall w, out_of c' = [w] -> w_in m w).
Proof.
  intros I Hm Hk Hn Hkn. set (p := take n (drop k m)).
  assert (Lp : zlen p = n) by (subst p; rewrite zlen_take, zlen_drop; zl).
  assert (Hne : p <> []) by (intros E; rewrite E in Lp; change (zlen (@nil Z)) with 0 in Lp; lia).
  unfold rle_encode. replace (zlen p =? 0) with false by lia. fold (core c).
  assert (Hl : zlen (take k m) + zlen p < 2147483648) by (rewrite zlen_take; zl).
  destruct (loop_ok p (core c) _ ws segs pend (inv_core _ _ _ _ _ I) eq_refl Hne Hl) as (c1 & j & El & Hj & Hc & Hr).
  rewrite El. cbn [bind].
  assert (Lk : zlen (take k m) = k) by (rewrite zlen_take; zl).
  replace (u32 (curr_offset c1 - curr_offset c)) with j by (rewrite Hc, (iv_cur _ _ _ _ _ I), u32_id; unfold is_u32; lia).
  destruct (bytes_run_ok (take j p) _ ws segs pend c I) as (ws1 & c1' & segs1 & pend1 & Eb & I1).
  { rewrite zlen_take; zl. }
  assert (Hcc : ws1 = out_of c1 /\ core c1' = core c1).
  { rewrite bytes_run_core_eq, Eb in Hr. cbn [option_map fst snd] in Hr. split; congruence. }
  destruct Hcc as [-> Hcc]. apply (inv_core_eq _ _ _ _ _ _ Hcc) in I1.
  assert (Ep : take k m ++ take j p = take (k + j) m).
  { subst p. rewrite take_take, Z.min_l by lia. rewrite take_plus by lia. reflexivity. }
  rewrite Ep in I1. exists j, c1, segs1, pend1. split; [reflexivity|]. split; [lia|]. split; [exact I1|]. split.
  - unfold future.
    assert (Ed : drop k m = take j p ++ drop (k + j) m).
    { subst p. rewrite take_take, Z.min_l by lia. replace (k + j) with (j + k) by lia. rewrite <- drop_drop by lia. now rewrite take_drop. }
    rewrite Ed, bytes_run_app.
    assert (Eb' : option_map (fun x => (fst x, core (snd x))) (bytes_run (core c) (take j p)) = Some (out_of c1, core c1')).
    { rewrite bytes_run_core_eq, Eb. reflexivity. }
    destruct (bytes_run (core c) (take j p)) as [[w2 c2]|] eqn:Eb2; [|discriminate]. cbn [option_map fst snd] in Eb'.
    assert (Ec2 : core c2 = core c1') by congruence. assert (w2 = out_of c1) as -> by congruence.
    cbn [bind fst snd].
    assert (Er : option_map (fun x => (fst x, core (snd x))) (bytes_run c2 (drop (k + j) m))
               = option_map (fun x => (fst x, core (snd x))) (bytes_run (core c1) (drop (k + j) m))).
    { rewrite <- bytes_run_core_eq, Ec2, Hcc. reflexivity. }
    destruct (bytes_run c2 (drop (k + j) m)) as [[w3 c3]|], (bytes_run (core c1) (drop (k + j) m)) as [[w4 c4]|]; cbn [option_map fst snd] in Er; try discriminate.
    + assert (Ec3 : core c3 = core c4) by congruence. assert (w3 = w4) as -> by congruence. cbn [bind fst snd]. rewrite Ec3. destruct (rle_finalize (core c4)); cbn [bind].
      * rewrite <- app_assoc, emit_all_app. reflexivity.
      * destruct (rle_emit_all m (out_of c1)); reflexivity.
    + cbn [bind]. destruct (rle_emit_all m (out_of c1)); reflexivity.
  - intros w Ew. pose proof (iv_in _ _ _ _ _ I1) as F. rewrite Ew in F. apply Forall_app in F as [_ F]. apply Forall_inv in F.
    pose proof (iv_p _ _ _ _ _ I1) as P. apply (f_equal zlen) in P. rewrite zlen_app, zlen_take in P by zl. unfold w_in. zl.
Qed.

Lemma future_end m c ws segs pend : inv m ws segs pend c -> zlen m < 2147483648 -> m <> [] ->
  exists c', rle_finalize c = Some c' /\ w_available (write_info c') = true /\ w_in m (write_info c') /\
    future m (zlen m) c = Some (emitted m (write_info c')).
Proof.
  intros I Hm Hne. destruct (finalize_ok _ _ _ _ _ I Hm) as (c' & s & Ef & _ & _ & _ & A & B & C & D). specialize (D Hne).
  exists c'. split; [exact Ef|].
  assert (Wi : w_in m (write_info c')) by (unfold w_in; lia).
  split; [unfold rle_finalize, rle_change in Ef; destruct (rstate c); apply bind_inv in Ef as (h & _ & Ef); injection Ef as <-; reflexivity|].
  split; [exact Wi|].
  unfold future. rewrite drop_all by lia. cbn [bytes_run bind fst snd app].
  change (core (core c)) with (core c). rewrite finalize_core, Ef. cbn [bind rle_emit_all].
  destruct (emit_in _ _ Wi) as [-> _]. cbn [bind]. now rewrite app_nil_r.
Qed.

Lemma enc_future m : m <> [] -> zlen m < 2147483648 ->
  exists s, future m 0 rle_init = Some s /\ rle_decode s = Some m /\ enc_of m = s /\ zlen s < 4294967296 /\
   forall ws c c', option_map (fun x => (fst x, core (snd x))) (bytes_run rle_init m) = Some (ws, core c) -> rle_finalize c = Some c' ->
     total_rle_size c' = zlen s.
Proof.
  intros Hne Hm. destruct (rle_run_ok [m]) as (ws & c & s & Er & Ee & Ed & Et); [cbn [concat]; now rewrite app_nil_r|].
  cbn [concat] in *. rewrite app_nil_r in *.
  unfold rle_run in Er. 
  destruct (feed_all_ok [m] rle_init [] [] [] [] inv_init) as (ws1 & c1 & s1 & d1 & E1 & I1 & R1); [cbn [concat]; rewrite app_nil_r; exact Hm|].
  cbn [concat app] in *. rewrite app_nil_r in *. rewrite E1 in Er. cbn [bind fst snd] in Er.
  apply bind_inv in Er as (c2 & Ef & Er). injection Er as <- <-.
  assert (F : future m 0 rle_init = Some s).
  { unfold future. change (drop 0 m) with m. change (core rle_init) with rle_init.
    destruct (bytes_run rle_init m) as [[w0 c0]|]; [|discriminate]. cbn [option_map fst snd bind] in *.
    assert (R2 : core c0 = core c1) by congruence. assert (w0 = ws1) as -> by congruence.
    rewrite R2, finalize_core, Ef. cbn [bind]. exact Ee. }
  exists s. split; [exact F|]. split; [exact Ed|]. split; [unfold enc_of; destruct m; [congruence|]; now rewrite F|]. split.
  { rewrite <- Et. unfold rle_finalize, rle_change in Ef. apply bind_inv in Ef as (h & _ & Ef).
    destruct (rstate c1); injection Ef as <-; cbn [total_rle_size]; unfold u32; apply Z.mod_pos_bound; lia. }
  intros ws2 c3 c4 R Ef2. rewrite R in R1. assert (R2 : core c3 = core c1) by congruence.
  assert (c4 = c2) as -> by (rewrite <- finalize_core, R2, finalize_core in Ef2; congruence). exact Et.
Qed.

(** ** Sizing pass *)
Lemma size_loop m : zlen m < 2147483648 -> forall fuel d k ws segs pend,
  ds_size d = zlen m -> 0 <= k < zlen m -> zlen m - k < Z.of_nat fuel ->
  inv (take k m) ws segs pend (ds_ctx d) ->
  option_map (fun x => (fst x, core (snd x))) (bytes_run rle_init (take k m)) = Some (ws, core (ds_ctx d)) ->
  exists ws' c c', ds_size_loop fuel m d k = Some (set_st (set_ctx d c') DsFinding) /\
    option_map (fun x => (fst x, core (snd x))) (bytes_run rle_init m) = Some (ws', core c) /\ rle_finalize c = Some c'.
Proof.
  intros Hm. induction fuel as [|fuel IH]; intros d k ws segs pend Es Hk Hf I R; [lia|].
  cbn [ds_size_loop]. rewrite Es. replace (k =? zlen m) with false by lia.
  rewrite u32_id by (unfold is_u32; lia). set (n := Z.min (zlen m - k) 128).
  rewrite read_at_some by lia. cbn [bind]. set (p := take n (drop k m)).
  assert (Lp : zlen p = n) by (subst p; rewrite zlen_take, zlen_drop; zl).
  assert (Lk : zlen (take k m) = k) by (rewrite zlen_take; zl).
  unfold ds_size_piece.
  destruct (feed_ok (length p) p (ds_ctx d) _ ws segs pend I) as (ws1 & c1 & E1 & R1); [lia|lia|].
  rewrite E1. cbn [bind snd].
  destruct (bytes_run_ok p _ ws segs pend _ I) as (ws1' & c1' & segs1 & pend1 & Eb & I1); [lia|].
  rewrite Eb in R1. cbn [option_map fst snd] in R1.
  assert (Hcc : core c1' = core c1) by congruence. assert (ws1' = ws1) as -> by congruence.
  apply (inv_core_eq _ _ _ _ _ _ Hcc) in I1.
  assert (Ep : take k m ++ p = take (k + n) m) by (subst p; rewrite take_plus by lia; reflexivity).
  rewrite Ep in I1.
  assert (R2 : option_map (fun x => (fst x, core (snd x))) (bytes_run rle_init (take (k + n) m)) = Some (ws ++ ws1, core c1)).
  { rewrite <- Ep, bytes_run_app. destruct (bytes_run rle_init (take k m)) as [[w0 c0]|]; [|discriminate]. cbn [option_map fst snd bind] in *.
    assert (E0 : core c0 = core (ds_ctx d)) by congruence. assert (w0 = ws) as -> by congruence.
    assert (X : option_map (fun x => (fst x, core (snd x))) (bytes_run c0 p) = Some (ws1, core c1)).
    { rewrite <- bytes_run_core_eq, E0, bytes_run_core_eq, Eb. cbn [option_map fst snd]. congruence. }
    destruct (bytes_run c0 p) as [[w3 c3]|]; [|discriminate]. cbn [option_map fst snd bind] in *. congruence. }
  pose proof (iv_cur _ _ _ _ _ I1) as Ecur. rewrite zlen_take in Ecur by lia. replace (Z.min (Z.max 0 (k + n)) (zlen m)) with (k + n) in Ecur by lia. rewrite Ecur, Es.
  rewrite (u32_id (k + n)) by (unfold is_u32; lia).
  destruct (k + n =? zlen m) eqn:Eend.
  - cbn [negb].
    assert (k + n = zlen m) by lia. rewrite H, take_all in I1, R2 by lia.
    destruct (finalize_ok _ _ _ _ _ I1 Hm) as (c' & s & Ef & _). rewrite Ef. cbn [bind].
    exists (ws ++ ws1), c1, c'. split; [|auto].
    destruct fuel; cbn [ds_size_loop]; cbn [set_st set_ctx ds_size]; rewrite Es, H, Z.eqb_refl; reflexivity.
  - cbn [negb bind].
    destruct (IH (set_ctx d c1) (k + n) (ws ++ ws1) segs1 pend1) as (ws' & c & c' & E & R' & F); [exact Es|lia|lia|exact I1|exact R2|].
    exists ws', c, c'. split; [exact E|auto].
Qed.

(** ** The reading state *)
Definition pending (m : list Z) (d : ds) : list Z :=
  if w_available (write_info (ds_ctx d)) then drop (ds_woff d) (emitted m (write_info (ds_ctx d))) else [].
(** What fills a buffer. *)
Record wstate (m : list Z) (d : ds) : Prop := {
  wsi_av : w_available (write_info (ds_ctx d)) = true ->
         w_in m (write_info (ds_ctx d)) /\ 0 <= ds_woff d < zlen (emitted m (write_info (ds_ctx d))) /\ ds_st d = DsWriting;
  wsi_na : w_available (write_info (ds_ctx d)) = false -> ds_woff d = 0 /\ ds_st d = DsFinding;
  wsi_en : 0 <= ds_enc d }.

Lemma fill_ok m d n : zlen m < 2147483648 -> wstate m d -> 0 <= n < 4294967296 -> ds_enc d + Z.min n (zlen (pending m d)) < 4294967296 ->
  exists d', ds_fill m d n = Some (take n (pending m d), n - Z.min n (zlen (pending m d)), d') /\
    wstate m d' /\ pending m d' = drop n (pending m d) /\ core (ds_ctx d') = core (ds_ctx d) /\
    ds_size d' = ds_size d /\ ds_total d' = ds_total d /\ ds_done d' = ds_done d /\ ds_active d' = ds_active d /\
    ds_enc d' = ds_enc d + Z.min n (zlen (pending m d)).
Proof.
  intros Hm [W1 W2 W3] Hn He. unfold ds_fill, ds_build, pending in *.
  destruct (w_available (write_info (ds_ctx d))) eqn:Ea; cbn [negb].
  2: { cbn [bind]. exists d. rewrite take_nil, Ea. change (zlen (@nil Z)) with 0 in *. rewrite u32_id by (unfold is_u32; lia).
       replace (Z.min n 0) with 0 by lia. split; [reflexivity|]. split; [constructor; [congruence|intros _; exact (W2 eq_refl)|exact W3]|].
       rewrite drop_nil. repeat (split; [reflexivity|]). lia. }
  destruct (W1 eq_refl) as (Wi & Wo & Ws). clear W1 W2. destruct (emit_in _ _ Wi) as [_ Le]. pose proof Wi as (Wl & Wst & Wend & Wh).
  set (w := write_info (ds_ctx d)) in *. set (e := emitted m w) in *.
  assert (Lp : zlen (drop (ds_woff d) e) = zlen e - ds_woff d) by (rewrite zlen_drop; lia).
  rewrite Lp in *.
  (* the body, once the header bytes are out *)
  assert (B : forall woff hn h d0, d0 = mk_ds (ds_active d) (ds_size d) (ds_total d) (ds_ctx d) (ds_st d) woff (ds_done d) (ds_enc d) ->
     zlen (w_header w) <= woff < zlen e -> 0 <= hn <= n -> woff = ds_woff d + hn -> h = take hn (drop (ds_woff d) e) ->
     exists d', (do b <- read_at m (ds_backing_offset d0) (Z.min (n - hn) (u32 (u32 (zlen (w_header w) + w_len w) - woff)));
        let n0 := Z.min (n - hn) (u32 (u32 (zlen (w_header w) + w_len w) - woff)) in
        let woff' := u32 (woff + n0) in
        let enc := u32 (ds_enc d0 + u32 (hn + n0)) in
        if woff' =? u32 (zlen (w_header w) + w_len w)
        then let c := ds_ctx d0 in let c0 := mk_rle (total_rle_size c) rle_no_write (last_byte c) (seq_start c) (rstate c) (seq_count c) (num_repeats c) (curr_offset c) in
             Some (h ++ b, mk_ds (ds_active d0) (ds_size d0) (ds_total d0) c0 DsFinding 0 (ds_done d0) enc)
        else Some (h ++ b, mk_ds (ds_active d0) (ds_size d0) (ds_total d0) (ds_ctx d0) (ds_st d0) woff' (ds_done d0) enc))
       = Some (take n (drop (ds_woff d) e), d') /\
       wstate m d' /\ pending m d' = drop n (drop (ds_woff d) e) /\ core (ds_ctx d') = core (ds_ctx d) /\
       ds_size d' = ds_size d /\ ds_total d' = ds_total d /\ ds_done d' = ds_done d /\ ds_active d' = ds_active d /\
       ds_enc d' = ds_enc d + Z.min n (zlen e - ds_woff d)).
  { intros woff hn h d0 -> Hw Hhn Ew ->. rewrite (u32_id (zlen (w_header w) + w_len w)) by (unfold is_u32; lia).
    rewrite (u32_id (_ - woff)) by (unfold is_u32; lia). rewrite <- Le. set (k := Z.min (n - hn) (zlen e - woff)).
    unfold ds_backing_offset. cbn [ds_st ds_woff ds_ctx]. rewrite Ws. fold w. replace (woff <? zlen (w_header w)) with false by lia.
    rewrite (u32_id (woff - _)) by (unfold is_u32; lia). rewrite u32_id by (unfold is_u32; lia).
    rewrite read_at_some by lia. cbn [bind]. cbv zeta. cbn [ds_enc ds_ctx ds_active ds_size ds_total ds_done ds_st].
    rewrite (u32_id (hn + k)) by (unfold is_u32; lia). rewrite (u32_id (woff + k)) by (unfold is_u32; lia).
    assert (Hmin : hn + k = Z.min n (zlen e - ds_woff d)) by lia.
    rewrite (u32_id (ds_enc d + _)) by (unfold is_u32; lia).
    assert (Ed : drop woff e = drop (woff - zlen (w_header w)) (take (w_len w) (drop (w_start w) m))).
    { subst e. unfold emitted. rewrite drop_app_ge by lia. reflexivity. }
    assert (Out : take hn (drop (ds_woff d) e) ++ take k (drop (w_start w + (woff - zlen (w_header w))) m) = take n (drop (ds_woff d) e)).
    { replace (take n (drop (ds_woff d) e)) with (take (hn + k) (drop (ds_woff d) e)).
      - rewrite take_plus by lia. f_equal. rewrite drop_drop by lia. replace (hn + ds_woff d) with woff by lia. rewrite Ed.
        rewrite <- (Z.add_comm (woff - zlen (w_header w))), <- drop_drop by lia.
        rewrite drop_take by lia. rewrite take_take. f_equal. lia.
      - rewrite Hmin. destruct (Z.min_spec n (zlen e - ds_woff d)) as [[? ->]|[? ->]]; [reflexivity|]. rewrite !take_all by lia. reflexivity. }
    rewrite Out. destruct (woff + k =? zlen e) eqn:Efin.
    - eexists. split; [reflexivity|]. split; [constructor; cbn; [discriminate|auto|lia]|]. cbn [ds_ctx write_info w_available pending ds_size ds_total ds_done ds_active ds_enc].
      split; [unfold pending; cbn; rewrite drop_all; [reflexivity|lia]|]. repeat (split; [reflexivity|]). lia.
    - eexists. split; [reflexivity|]. split; [constructor; cbn [ds_ctx ds_woff ds_st ds_enc]; fold w; [intros _; fold e; split; [exact Wi|split; [lia|first [exact Ws|reflexivity]]]|congruence|lia]|].
      split; [unfold pending; cbn [ds_ctx ds_woff]; fold w; rewrite Ea; fold e; rewrite drop_drop by lia; f_equal; lia|].
      cbn [ds_ctx ds_size ds_total ds_done ds_active ds_enc]. repeat (split; [reflexivity|]). lia. }
  assert (Lt : zlen (take n (drop (ds_woff d) e)) = Z.min n (zlen e - ds_woff d)) by (rewrite zlen_take; lia).
  destruct (ds_woff d <? zlen (w_header w)) eqn:Eh; cbn [andb].
  - rewrite (u32_id (zlen (w_header w) - ds_woff d)) by (unfold is_u32; lia). set (hn := Z.min n (zlen (w_header w) - ds_woff d)).
    rewrite read_at_some by lia. cbn [bind]. rewrite (u32_id (n - hn)) by (unfold is_u32; lia). rewrite (u32_id (ds_woff d + hn)) by (unfold is_u32; lia).
    assert (Eo : take hn (drop (ds_woff d) (w_header w)) = take hn (drop (ds_woff d) e)).
    { subst e. unfold emitted. rewrite drop_app_le by lia. rewrite take_app_le by (rewrite zlen_drop; lia). reflexivity. }
    rewrite Eo. destruct (n - hn =? 0) eqn:E0.
    + cbn [bind]. assert (Hhn : hn = n) by lia. rewrite !Hhn, Lt. replace (Z.min n (zlen e - ds_woff d)) with n by lia.
      rewrite (u32_id (n - n)) by (unfold is_u32; lia). rewrite (u32_id (ds_enc d + n)) by (unfold is_u32; lia).
      eexists. split; [reflexivity|]. split; [constructor; cbn [ds_ctx ds_woff ds_st ds_enc]; fold w; [intros _; fold e; split; [exact Wi|split; [lia|first [exact Ws|reflexivity]]]|congruence|lia]|].
      split; [unfold pending; cbn [ds_ctx ds_woff]; fold w; rewrite Ea; fold e; rewrite drop_drop by lia; f_equal; lia|].
      cbn [ds_ctx ds_size ds_total ds_done ds_active ds_enc]. repeat (split; [reflexivity|]). lia.
    + destruct (B (ds_woff d + hn) hn _ _ eq_refl ltac:(lia) ltac:(lia) ltac:(lia) eq_refl) as (d' & Eb & Hd).
      cbv zeta in Eb. cbv zeta. rewrite Eb. cbn [bind]. rewrite Lt. rewrite u32_id by (unfold is_u32; lia). exists d'. split; [reflexivity|exact Hd].
  - cbn [bind]. rewrite (u32_id (n - 0)), (u32_id (ds_woff d + 0)) by (unfold is_u32; lia).
    destruct (B (ds_woff d + 0) 0 [] _ eq_refl ltac:(lia) ltac:(lia) ltac:(lia) eq_refl) as (d' & Eb & Hd).
    cbv zeta in Eb. cbv zeta. rewrite Eb. cbn [bind]. rewrite Lt. rewrite u32_id by (unfold is_u32; lia). exists d'. split; [reflexivity|exact Hd].
Qed.

(** ** Reading *)
Definition live (m : list Z) (d : ds) (fut : list Z) : Prop :=
  (exists ws segs pend, 0 <= ds_done d <= zlen m /\ inv (take (ds_done d) m) ws segs pend (ds_ctx d) /\
     future m (ds_done d) (ds_ctx d) = Some fut) \/ (ds_done d = zlen m /\ fut = []).
Record rd (m : list Z) (d : ds) (pos : Z) : Prop := {
  rd_w : wstate m d; rd_act : ds_active d = true; rd_size : ds_size d = zlen m;
  rd_total : ds_total d = zlen (enc_of m); rd_enc : ds_enc d = pos; rd_pos : 0 <= pos <= zlen (enc_of m);
  rd_fut : exists fut, live m d fut /\ drop pos (enc_of m) = pending m d ++ fut }.

Lemma future_core m k c c' : core c = core c' -> future m k c = future m k c'.
Proof. intros E. unfold future. now rewrite E. Qed.

Lemma pending_nil m d : wstate m d -> pending m d = [] -> w_available (write_info (ds_ctx d)) = false.
Proof.
  intros [W1 _ _] P. unfold pending in P. destruct (w_available (write_info (ds_ctx d))); [|reflexivity].
  destruct (W1 eq_refl) as (_ & X & _). apply (f_equal zlen) in P. rewrite zlen_drop in P by lia. change (zlen (@nil Z)) with 0 in P. lia.
Qed.

(** After a fill. *)
Lemma fill_rd m d pos n : m <> [] -> zlen m < 2147483648 -> rd m d pos -> 0 <= n < 4294967296 ->
  exists d', ds_fill m d n = Some (take n (pending m d), n - Z.min n (zlen (pending m d)), d') /\
    rd m d' (pos + Z.min n (zlen (pending m d))) /\ pending m d' = drop n (pending m d) /\
    (forall fut, live m d fut -> live m d' fut) /\ ds_done d' = ds_done d.
Proof.
  intros Hne Hm [W A S T E P (fut & L & F)] Hn.
  destruct (enc_future m Hne Hm) as (s & _ & _ & Es & Hs & _).
  assert (Lf : zlen (enc_of m) - pos = zlen (pending m d) + zlen fut).
  { rewrite <- zlen_app, <- F, zlen_drop; lia. }
  pose proof (zlen_nonneg fut). pose proof (zlen_nonneg (pending m d)).
  destruct (fill_ok m d n Hm W Hn) as (d' & Ef & W' & P' & C & S' & T' & D' & A' & E'); [rewrite E, Es in *; lia|].
  assert (LL : forall fut, live m d fut -> live m d' fut).
  { intros f [(ws & sg & pe & B & I & Fu)|[B X]]; [left|right; split; [congruence|exact X]].
    exists ws, sg, pe. rewrite D'. split; [exact B|]. split; [eapply inv_core_eq; [|exact I]; congruence|].
    rewrite (future_core m _ (ds_ctx d') (ds_ctx d)) by congruence. exact Fu. }
  exists d'. split; [exact Ef|]. split; [|auto].
  constructor; [exact W'|congruence|congruence|congruence|lia|lia|].
  exists fut. split; [auto|]. rewrite P'. rewrite (Z.add_comm pos), <- drop_drop by lia. rewrite F.
  destruct (Z.min_spec n (zlen (pending m d))) as [[X ->]|[X ->]].
  - now rewrite drop_app_le by lia.
  - rewrite drop_app_exact by lia. now rewrite (drop_all n) by lia.
Qed.

Lemma read_loop m : m <> [] -> zlen m < 2147483648 -> forall fuel d pos n ws segs pend fut,
  rd m d pos -> pending m d = [] -> 0 < n -> pos + n <= zlen (enc_of m) ->
  0 <= ds_done d <= zlen m -> zlen m - ds_done d < Z.of_nat fuel ->
  inv (take (ds_done d) m) ws segs pend (ds_ctx d) -> future m (ds_done d) (ds_ctx d) = Some fut ->
  drop pos (enc_of m) = fut ->
  exists d', ds_read_loop fuel m d n = Some (take n fut, d') /\ rd m d' (pos + n).
Proof.
  intros Hne Hm. destruct (enc_future m Hne Hm) as (s & _ & _ & Es & Hs & _). rewrite <- Es in Hs.
  induction fuel as [|fuel IH]; intros d pos n ws segs pend fut R Pn Hn Hp Hd Hf I Fu Ed; [lia|].
  pose proof R as [W A S T E P _].
  pose proof (pending_nil _ _ W Pn) as Na. destruct (wsi_na _ _ W Na) as [Wo Ws].
  assert (Lf : zlen fut = zlen (enc_of m) - pos) by (rewrite <- Ed, zlen_drop; lia).
  cbn [ds_read_loop]. rewrite S. destruct (ds_done d =? zlen m) eqn:Edone.
  - (* flush the last sequence *)
    assert (Dm : ds_done d = zlen m) by lia. rewrite Dm in *. rewrite take_all in I by lia.
    destruct (future_end m _ _ _ _ I Hm Hne) as (c' & Ef & Av & Wi & Fe). rewrite Fu in Fe. injection Fe as ->.
    unfold ds_prepare. change (rle_encode (ds_ctx d) []) with (Some (0, ds_ctx d)). cbn [bind]. change (zlen (@nil Z) =? 0) with true.
    rewrite Ef. cbn [bind]. rewrite Av. rewrite Dm, (u32_id (zlen m + 0)) by (unfold is_u32; lia).
    set (d1 := set_st _ DsWriting).
    assert (R1 : rd m d1 pos).
    { constructor; try assumption.
      - constructor; cbn; [|congruence|lia]. intros _. split; [exact Wi|]. split; [|reflexivity]. rewrite Wo.
        destruct (emit_in _ _ Wi) as [_ Le]. destruct Wi as (? & ? & ? & ?). lia.
      - exists []. split; [right; cbn; split; [lia|reflexivity]|]. rewrite app_nil_r. unfold pending. cbn. rewrite Av, Wo. exact Ed. }
    assert (P1 : pending m d1 = emitted m (write_info c')) by (unfold pending; cbn; rewrite Av, Wo; reflexivity).
    destruct (fill_rd m d1 pos n Hne Hm R1) as (d2 & Ef2 & R2 & _); [lia|]. rewrite Ef2. cbn [bind]. rewrite P1 in *.
    exists d2. split; [reflexivity|]. replace (Z.min n (zlen (emitted m (write_info c')))) with n in R2 by lia. exact R2.
  - rewrite (u32_id (zlen m - ds_done d)) by (unfold is_u32; lia). set (k := Z.min (zlen m - ds_done d) 128).
    unfold ds_backing_offset. rewrite Ws. rewrite read_at_some by lia. cbn [bind].
    destruct (encode_step m (ds_done d) (ds_ctx d) ws segs pend k I Hm) as (j & c' & segs' & pend' & Ee & Hj & I' & Ff & Wn); [lia|lia|lia|].
    unfold ds_prepare. rewrite Ee. cbn [bind].
    replace (zlen (take k (drop (ds_done d) m)) =? 0) with false by (rewrite zlen_take, zlen_drop by lia; lia). cbn [bind].
    rewrite (u32_id (ds_done d + j)) by (unfold is_u32; lia). rewrite Fu in Ff. symmetry in Ff.
    apply bind_inv in Ff as (ea & Ea & Ff). apply bind_inv in Ff as (fu' & Fu' & Ff). injection Ff as Ff.
    set (d1 := if w_available (write_info c') then _ else _).
    assert (Hd1 : ds_ctx d1 = c' /\ ds_done d1 = ds_done d + j /\ ds_active d1 = ds_active d /\ ds_size d1 = ds_size d /\ ds_total d1 = ds_total d /\ ds_enc d1 = ds_enc d /\ ds_woff d1 = 0
         /\ ds_st d1 = (if w_available (write_info c') then DsWriting else DsFinding)).
    { subst d1. destruct (w_available (write_info c')); cbn; auto 10. }
    clearbody d1. destruct Hd1 as (D1 & D2 & D3 & D4 & D5 & D6 & D7 & D8).
    assert (W1 : wstate m d1).
    { constructor; [| |lia]; rewrite D1, D7; intros Av; rewrite Av in D8; [|split; [reflexivity|exact D8]].
      assert (Wi : w_in m (write_info c')) by (apply Wn; unfold out_of; now rewrite Av).
      split; [exact Wi|]. split; [|exact D8]. destruct (emit_in _ _ Wi) as [_ Le]. destruct Wi as (? & ? & ? & ?). lia. }
    assert (P1 : pending m d1 = ea).
    { unfold pending. rewrite D1, D7. unfold out_of in Ea, Wn. destruct (w_available (write_info c')).
      - destruct (emit_in _ _ (Wn _ eq_refl)) as [X _]. cbn [rle_emit_all] in Ea. rewrite X in Ea. cbn [bind] in Ea. rewrite app_nil_r in Ea. injection Ea as <-. reflexivity.
      - cbn in Ea. now injection Ea as <-. }
    assert (L1 : live m d1 fu').
    { left. exists (ws ++ out_of c'), segs', pend'. rewrite D1, D2. split; [lia|]. auto. }
    assert (R1 : rd m d1 pos).
    { constructor; [exact W1|congruence|congruence|congruence|congruence|exact P|]. exists fu'. split; [exact L1|]. rewrite P1, Ff. exact Ed. }
    destruct (fill_rd m d1 pos n Hne Hm R1) as (d2 & Ef2 & R2 & P2 & L2 & Dd); [lia|]. rewrite Ef2. cbn [bind]. rewrite P1 in *.
    destruct (n - Z.min n (zlen ea) =? 0) eqn:E0.
    + exists d2. replace (Z.min n (zlen ea)) with n in R2 by lia. split; [|exact R2]. rewrite <- Ff. rewrite take_app_le by lia. reflexivity.
    + assert (Hlt : zlen ea < n) by lia. replace (Z.min n (zlen ea)) with (zlen ea) in * by lia. rewrite drop_all in P2 by lia.
      apply L2 in L1. destruct L1 as [(ws2 & sg2 & pe2 & B2 & I2 & F2)|[X ->]].
      * destruct (IH d2 (pos + zlen ea) (n - zlen ea) ws2 sg2 pe2 fu') as (d3 & E3 & R3); try assumption; try lia.
        { rewrite (Z.add_comm pos), <- drop_drop by (pose proof (zlen_nonneg ea); lia). rewrite Ed, <- Ff. now rewrite drop_app_exact. }
        rewrite E3. cbn [bind]. exists d3. split; [|replace (pos + n) with (pos + zlen ea + (n - zlen ea)) by lia; exact R3].
        rewrite <- Ff. rewrite take_app_ge by lia. rewrite (take_all n) by lia. reflexivity.
      * exfalso. rewrite app_nil_r in Ff. rewrite <- Ff in Lf. lia.
Qed.

Lemma read_ok m d pos n : m <> [] -> zlen m < 2147483648 -> rd m d pos -> 0 <= n -> pos + n <= zlen (enc_of m) ->
  exists d', ds_read m d pos n = Some (true, take n (drop pos (enc_of m)), d') /\ rd m d' (pos + n).
Proof.
  intros Hne Hm R Hn Hp. destruct (enc_future m Hne Hm) as (s & _ & _ & Es & Hs & _).
  pose proof (rd_pos _ _ _ R). unfold ds_read. rewrite (rd_enc _ _ _ R), Z.eqb_refl. cbn [negb].
  destruct (fill_rd m d pos n Hne Hm R) as (d1 & E1 & R1 & P1 & L1 & _); [rewrite Es in *; lia|]. rewrite E1. cbn [bind].
  pose proof (rd_fut _ _ _ R) as (fut & L & F). rewrite F.
  destruct (n - Z.min n (zlen (pending m d)) =? 0) eqn:E0.
  - exists d1. replace (Z.min n (zlen (pending m d))) with n in R1 by lia. split; [|exact R1]. rewrite take_app_le by lia. reflexivity.
  - assert (Hlt : zlen (pending m d) < n) by lia. replace (Z.min n (zlen (pending m d))) with (zlen (pending m d)) in * by lia. rewrite drop_all in P1 by lia.
    assert (Lf : zlen (enc_of m) - pos = zlen (pending m d) + zlen fut) by (rewrite <- zlen_app, <- F, zlen_drop; lia).
    apply L1 in L. destruct L as [(ws2 & sg2 & pe2 & B2 & I2 & F2)|[X ->]].
    + destruct (read_loop m Hne Hm (Datatypes.S (length m)) d1 _ (n - zlen (pending m d)) ws2 sg2 pe2 fut R1 P1) as (d3 & E3 & R3); try assumption; try lia.
      { unfold zlen. lia. }
      { rewrite (Z.add_comm pos), <- drop_drop by (pose proof (zlen_nonneg (pending m d)); lia). rewrite F. now rewrite drop_app_exact. }
      rewrite E3. cbn [bind]. exists d3. split; [|replace (pos + n) with (pos + zlen (pending m d) + (n - zlen (pending m d))) by lia; exact R3].
      rewrite take_app_ge by lia. rewrite (take_all n) by lia. reflexivity.
    + change (zlen (@nil Z)) with 0 in Lf. lia.
Qed.

(** ** Simulation *)
Definition dsim (q : list (list Z)) (d : ds) (p : progress) : Prop :=
  Forall (fun m => zlen m < 2147483648) q /\
  match p with
  | None => ds_active d = false
  | Some None => exists sz, d = mk_ds true sz 0 rle_init DsInactive 0 0 0
  | Some (Some n) => match q with
                     | [] => False
                     | m :: _ => match m with
                                 | [] => d = mk_ds true 0 0 rle_init DsInactive 0 0 0 /\ n = 0
                                 | _ => rd m d n
                                 end
                     end
  end.

Lemma has_more_first m q sz : zlen m < 2147483648 ->
  exists d, ds_has_more (m :: q) (mk_ds true sz 0 rle_init DsInactive 0 0 0) = Some (Some (zlen (enc_of m)), d) /\
    match m with [] => d = mk_ds true 0 0 rle_init DsInactive 0 0 0 | _ => rd m d 0 end.
Proof.
  intros Hm. cbn [ds_has_more]. change (negb (ds_total _ =? 0)) with false. cbv iota.
  destruct m as [|x m'] eqn:Em; [eexists; split; reflexivity|]. rewrite <- Em in *.
  assert (Hne : m <> []) by (rewrite Em; congruence). clear Em.
  unfold ds_compute. cbn [ds_active ds_total ds_ctx ds_st ds_woff ds_done ds_enc].
  set (d0 := mk_ds true (zlen m) 0 rle_init DsInactive 0 0 0).
  assert (0 < zlen m) by (destruct m; [congruence|zl]).
  destruct (enc_future m Hne Hm) as (s & F & _ & Es & Hs & Ht).
  destruct (size_loop m Hm (Datatypes.S (length m)) d0 0 [] [] []) as (ws & c & c' & E & Rr & Ef).
  { reflexivity. } { lia. } { unfold zlen. lia. } { exact inv_init. } { reflexivity. }
  rewrite E. cbn [bind]. pose proof (Ht _ _ _ Rr Ef) as Tt. cbn. rewrite Tt, Es. eexists. split; [reflexivity|].
  constructor; cbn; try reflexivity; try congruence; try (pose proof (zlen_nonneg (enc_of m)); lia).
  - constructor; cbn; [discriminate|auto|lia].
  - exists s. split; [left|rewrite Es; reflexivity]. exists [], [], []. cbn. split; [lia|]. split; [exact inv_init|exact F].
Qed.

Lemma dsim_step q d p o res q' p' : dsim q d p -> ds_op_ok o -> dsp_step enc_of q p o = Some (res, q', p') ->
  exists d', ds_step q d o = Some (res, q', d') /\ dsim q' d' p'.
Proof.
  intros [Q S] O H. destruct o as [[|]| |off len| |m]; cbn [dsp_step ds_step] in *.
  - destruct p as [p|]; injection H as <- <- <-; eexists; (split; [reflexivity|]).
    + split; [exact Q|]. unfold ds_set_active. replace (ds_active d) with true; [exact S|]. destruct p as [n|].
      * destruct q as [|[|x m] q]; [contradiction|destruct S as [-> _]; reflexivity|symmetry; apply S].
      * destruct S as [? ->]. reflexivity.
    + split; [exact Q|]. unfold ds_set_active. rewrite S. exists 0. reflexivity.
  - injection H as <- <- <-. eexists. split; [reflexivity|]. split; [exact Q|]. unfold ds_set_active. destruct (ds_active d) eqn:E; [reflexivity|exact E].
  - destruct p as [[n|]|]; [| |discriminate].
    + destruct q as [|m q]; [contradiction|]. injection H as <- <- <-.
      assert (Hm : zlen m < 2147483648) by (now inv Q).
      destruct m as [|x m'] eqn:Em.
      * destruct S as [-> ->]. eexists. split; [reflexivity|]. split; [exact Q|]. split; reflexivity.
      * rewrite <- Em in *. assert (Hne : m <> []) by (rewrite Em; congruence).
        assert (S' : rd m d n) by (rewrite Em in S |- *; exact S).
        rewrite (rd_act _ _ _ S'). cbn [negb]. unfold ds_has_more. cbn [ds_total]. rewrite (rd_total _ _ _ S').
        destruct (enc_future m Hne Hm) as (s & _ & De & Es & _).
        replace (zlen (enc_of m) =? 0) with false.
        2: { rewrite Es. destruct s; [cbn in De; congruence|zl]. }
        cbn [negb bind]. eexists. split; [reflexivity|]. split; [exact Q|].
        match goal with |- ?G => enough (X : forall d1, ds_size d1 = zlen m -> ds_active d1 = ds_active d -> ds_total d1 = ds_total d -> ds_ctx d1 = ds_ctx d -> ds_st d1 = ds_st d ->
           ds_woff d1 = ds_woff d -> ds_done d1 = ds_done d -> ds_enc d1 = ds_enc d -> rd m d1 n) end.
        { rewrite Em in X |- *. apply X; try reflexivity. cbn [ds_total]. now rewrite (rd_total _ _ _ S'), Em. }
        intros d1 X1 X2 X3 X4 X5 X6 X7 X8. destruct d1. cbn in *. subst. destruct S' as [[W1 W2 W3] A Sz T E P Fu].
        constructor; [constructor|..]; try assumption; reflexivity.
    + destruct S as [sz ->]. change (negb (ds_active _)) with false. cbv iota. destruct q as [|m q].
      * injection H as <- <- <-. eexists. split; [reflexivity|]. split; [exact Q|]. now exists sz.
      * injection H as <- <- <-. assert (Hm : zlen m < 2147483648) by (now inv Q).
        destruct (has_more_first m q sz Hm) as (d' & E & R). rewrite E. cbn [bind]. eexists. split; [reflexivity|]. split; [exact Q|].
        destruct m; [split; [exact R|reflexivity]|exact R].
  - destruct p as [[n|]|]; try discriminate. destruct q as [|m q]; [discriminate|].
    assert (Hm : zlen m < 2147483648) by (now inv Q).
    assert (Sm : (m = [] /\ d = mk_ds true 0 0 rle_init DsInactive 0 0 0 /\ n = 0) \/ (m <> [] /\ rd m d n)).
    { destruct m; [left; destruct S; auto|right; split; [congruence|exact S]]. }
    assert (A : ds_active d = true) by (destruct Sm as [(_ & -> & _)|[_ R]]; [reflexivity|apply R]).
    assert (En : ds_enc d = n) by (destruct Sm as [(_ & -> & ->)|[_ R]]; [reflexivity|apply R]).
    rewrite A. cbn [negb]. destruct (off =? n) eqn:Eo; cbn [negb] in H.
    2: { injection H as <- <- <-. unfold ds_read. rewrite En, Eo. cbn [negb bind]. eexists. split; [reflexivity|]. split; [exact Q|exact S]. }
    assert (off = n) as -> by lia. destruct ((0 <=? len) && (n + len <=? zlen (enc_of m))) eqn:B; [|discriminate]. injection H as <- <- <-.
    apply andb_prop in B as [B1 B2]. destruct Sm as [(-> & -> & ->)|[Hne R]].
    + cbn in B2. change (zlen (@nil Z)) with 0 in B2. assert (len = 0) as -> by lia. eexists. split; [reflexivity|]. split; [exact Q|]. split; reflexivity.
    + destruct (read_ok m d n len Hne Hm R ltac:(lia) ltac:(lia)) as (d' & E & R'). rewrite E. cbn [bind]. eexists. split; [reflexivity|]. split; [exact Q|].
      destruct m; [congruence|exact R'].
  - destruct p as [p|]; [|discriminate]. destruct q as [|m q]; [discriminate|]. injection H as <- <- <-.
    assert (A : ds_active d = true).
    { destruct p as [n|]; [|destruct S as [? ->]; reflexivity]. destruct m; [destruct S as [-> _]; reflexivity|apply S]. }
    rewrite A. cbn [negb ds_mark tl]. eexists. split; [reflexivity|]. split; [now inv Q|]. rewrite A. now exists 0.
  - injection H as <- <- <-. eexists. split; [reflexivity|]. split; [apply Forall_app; split; [exact Q|constructor; [exact O|constructor]]|].
    destruct p as [[n|]|]; [destruct q; [contradiction|exact S]|exact S|exact S].
Qed.

Lemma dsim_run ops : forall q d p rs q' p', dsim q d p -> Forall ds_op_ok ops -> dsp_run enc_of q p ops = Some (rs, q', p') ->
  exists d', ds_run q d ops = Some (rs, q', d') /\ dsim q' d' p'.
Proof.
  induction ops as [|o ops IH]; intros q d p rs q' p' S O H; cbn [dsp_run ds_run] in *.
  - injection H as <- <- <-. eauto.
  - inv O. apply bind_inv in H as ([[res q1] p1] & H1 & H). apply bind_inv in H as ([[rs1 q2] p2] & H2' & H). injection H as <- <- <-.
    destruct (dsim_step _ _ _ _ _ _ _ S H2 H1) as (d1 & E1 & S1). rewrite E1. cbn [bind].
    destruct (IH _ _ _ _ _ _ S1 H3 H2') as (d2 & E2 & S2). rewrite E2. cbn [bind]. eauto.
Qed.

Lemma rle_source_refines : exists E : list Z -> list Z,
  (forall m, zlen m < 2147483648 -> rle_decode (E m) = Some m) /\
  forall q ops rs q' p', Forall (fun m => zlen m < 2147483648) q -> Forall ds_op_ok ops ->
    dsp_run E q None ops = Some (rs, q', p') ->
    exists d', ds_run q ds_init ops = Some (rs, q', d').
Proof.
  exists enc_of. split.
  - intros m Hm. destruct m as [|x m'] eqn:Em; [reflexivity|]. rewrite <- Em in *.
    destruct (enc_future m) as (s & _ & D & E & _); [rewrite Em; congruence|exact Hm|]. now rewrite E.
  - intros q ops rs q' p' Q O H. destruct (dsim_run ops q ds_init None rs q' p') as (d' & E & _); [split; [exact Q|reflexivity]|exact O|exact H|]. eauto.
Qed.
