From Coq Require Import String.
From Verif Require Import Base Crc16Spec ChunkSpec Packetizer PacketizerSpec PacketizerProofs Uplink UplinkSpec UplinkProofs SinkProofs Mds MdsSpec.

Definition minv (m : mds) (s : seen) : Prop :=
  match n_sub s with Some c => m_active m = true /\ m_conn m = c | None => m_active m = false end /\
  m_mode m = n_on s /\ m_seq m = n_count s mod 32 /\
  match n_kept s with
  | None => m_payload m = None /\ m_len m = 0
  | Some v => exists b, m_payload m = Some b /\ 0 < m_len m /\ m_len m + 1 <= zlen b /\ v = take (m_len m + 1) b
  end.
Definition held (s : seen) : Z := zlen (kept_list s).

Lemma tries_app s c e o1 s1 l o2 s2 : tries s [(c, e)] o1 s1 -> tries s1 l o2 s2 -> tries s ((c, e) :: l) (o1 ++ o2) s2.
Proof.
  intros H1 H2. inv H1; match goal with X : tries _ [] _ _ |- _ => inv X end; cbn [Datatypes.app].
  - now apply T_none.
  - eapply T_idle; eauto.
  - eapply T_nomem; eauto.
  - eapply T_new; eauto.
  - eapply T_kept; eauto.
  - eapply T_again; eauto.
  - eapply T_fail; eauto.
Qed.

Lemma land31 n : Z.land (n mod 32) 0x1f = n mod 32.
Proof. change 0x1f with (Z.ones 5). rewrite Z.land_ones by lia. change (2 ^ 5) with 32. apply Z.mod_mod. lia. Qed.

(* ------------------------------------------------------------ reads *)
Lemma splice_behind p r off d : zlen p <= off -> off + zlen d <= zlen (p ++ r) -> exists r', splice (p ++ r) off d = Some (p ++ r') /\ zlen r' = zlen r.
Proof.
  intros H1 H2. pose proof (zlen_nonneg p). rewrite splice_some by lia. rewrite take_app_ge by lia. rewrite <- app_assoc. eexists. split; [reflexivity|].
  rewrite zlen_app in H2. pose proof (zlen_nonneg d). rewrite !zlen_app, zlen_take, zlen_drop, zlen_app. pose proof (zlen_nonneg r). lia.
Qed.
Lemma read_tail p r off : 0 <= off <= zlen p -> read_at (p ++ r) off (zlen p - off) = Some (drop off p).
Proof.
  intros H. rewrite read_at_some by (rewrite ?zlen_app; pose proof (zlen_nonneg r); lia). f_equal. rewrite drop_app_le by lia. apply take_app_exact. rewrite zlen_drop. lia.
Qed.

Lemma handle_read_ok mc junk access c h off : zlen junk = 64 -> 0 <= off ->
  handle_read mc junk access c h off = Some (OReadCfm c h (fst (shown mc access h off)) (snd (shown mc access h off))).
Proof.
  intros J Ho. unfold handle_read, shown. destruct access; cbn [negb]; [|reflexivity].
  assert (G : forall v r, (if zlen v =? -1 then Some (OReadCfm c h 2 []) else if 512 <? zlen v then Some (OReadCfm c h 128 []) else if zlen v <? off then Some (OReadCfm c h 0 [])
              else do v0 <- read_at (v ++ r) off (zlen v - off); Some (OReadCfm c h 0 v0)) =
            Some (OReadCfm c h (fst (if 512 <? zlen v then (0x80, []) else (0, drop off v))) (snd (if 512 <? zlen v then (0x80, []) else (0, drop off v))))).
  { intros v r. pose proof (zlen_nonneg v). destruct (Z.eqb_spec (zlen v) (-1)); [lia|]. destruct (512 <? zlen v); [reflexivity|]. destruct (Z.ltb_spec (zlen v) off).
    - cbn [fst snd]. rewrite drop_all by lia. reflexivity.
    - rewrite read_tail by lia. reflexivity. }
  destruct h; cbn [value_of bind].
  - specialize (G [0] []). rewrite app_nil_r in G. exact G.
  - set (base := mc_base mc). set (ser := mc_serial mc). pose proof (zlen_nonneg base). pose proof (zlen_nonneg ser).
    assert (L1 : zlen (take 63 (base ++ fill 63 0)) = 63) by (rewrite zlen_take, zlen_app, zlen_fill by lia; lia).
    rewrite splice_some by (rewrite ?L1; lia). cbn [bind]. rewrite L1. change (take 0 junk) with (@nil Z). cbn [Datatypes.app].
    set (l1 := take 63 (base ++ fill 63 0) ++ drop (0 + 63) junk).
    assert (Z1 : zlen l1 = 64) by (unfold l1; rewrite zlen_app, L1, zlen_drop; lia).
    unfold put. rewrite splice_some by (change (zlen [0]) with 1; lia). cbn [bind]. set (l2 := take 63 l1 ++ [0] ++ drop (63 + zlen [0]) l1).
    assert (Z2 : zlen l2 = 64) by (unfold l2; rewrite !zlen_app, zlen_take, zlen_drop; change (zlen [0]) with 1; lia).
    rewrite zlen_app. destruct (Z.ltb_spec 63 (zlen base + zlen ser)) as [Gt|Le]; [reflexivity|]. cbn [bind].
    rewrite splice_some by (rewrite ?zlen_app; change (zlen [0]) with 1; lia). cbn [bind]. change (take 0 l2) with (@nil Z). cbn [Datatypes.app].
    rewrite <- app_assoc. set (r3 := [0] ++ drop (0 + zlen (base ++ [0])) l2).
    assert (Z3 : zlen (base ++ r3) = 64) by (unfold r3; rewrite !zlen_app, zlen_drop, ?zlen_app; change (zlen [0]) with 1; lia).
    rewrite splice_app_pre; [|reflexivity|rewrite zlen_app in *; change (zlen [0]) with 1; lia]. cbn [bind]. rewrite <- (app_assoc ser), app_assoc.
    set (r4 := [0] ++ drop (zlen (ser ++ [0])) r3).
    assert (Z4 : zlen ((base ++ ser) ++ r4) = 64) by (unfold r4; rewrite zlen_app in Z3; rewrite !zlen_app, zlen_drop, ?zlen_app; change (zlen [0]) with 1; lia).
    destruct (splice_behind (base ++ ser) r4 63 [0]) as (r5 & E5 & _); [rewrite zlen_app; lia|change (zlen [0]) with 1; lia|]. rewrite E5. cbn [bind].
    specialize (G (base ++ ser) r5). rewrite zlen_app in G. exact G.
  - specialize (G (str "Memfault-Project-Key:" ++ mc_key mc) []). rewrite app_nil_r in G. exact G.
  - specialize (G (mc_serial mc) []). rewrite app_nil_r in G. exact G.
  - reflexivity.
  - reflexivity.
  - reflexivity.
Qed.

(* ------------------------------------------------------------ what keeps the stream going *)
Lemma tries_same s l o s' : tries s l o s' -> n_sub s' = n_sub s /\ n_on s' = n_on s.
Proof. induction 1; cbn [n_sub n_on] in *; auto. Qed.
Lemma timer_stays s l o s' : tries s l o s' -> timer_after true o = true.
Proof. induction 1; auto. Qed.
Lemma tries_live s l o s' : tries s l o s' -> forall c, n_sub s = Some c -> n_on s = true -> In c (map fst l) -> Forall (fun x => ne_mtu (snd x) <> None) l ->
  0 < zlen (sent_values o) \/ forall t, timer_after t o = true.
Proof.
  induction 1 as [s|s c e l o s' N H IH|c n e l mtu o s' E H IH|c n e l mtu o s' E M H IH|c n e l mtu ch o s' E L1 L2 X H IH|c n e l mtu ch o s' E L1 L2 X H IH|c n e l mtu v o s' E X H IH|c n e l mtu v o s' E X H IH];
    intros c' S1 S2 I F.
  - destruct I.
  - pose proof (Forall_inv F) as F1. cbn in F1. apply (IH c' S1 S2); [|now inv F]. destruct I as [I|I]; [|exact I]. cbn in I. subst c'. destruct N as [N|[N|N]]; [contradiction|congruence|contradiction].
  - right. intros t. exact (timer_stays _ _ _ _ H).
  - right. intros t. exact (timer_stays _ _ _ _ H).
  - left. pose proof (zlen_nonneg (sent_values o)). unfold sent_values in *. cbn [flat_map Datatypes.app] in *. rewrite zlen_cons. lia.
  - right. intros t. exact (timer_stays _ _ _ _ H).
  - left. pose proof (zlen_nonneg (sent_values o)). unfold sent_values in *. cbn [flat_map Datatypes.app] in *. rewrite zlen_cons. lia.
  - right. intros t. exact (timer_stays _ _ _ _ H).
Qed.
Lemma tries_none s c e o s' : tries s [(c, e)] o s' -> n_sub s <> Some c -> o = [] /\ s' = s.
Proof. intros H N. inv H; try (cbn in N; congruence). match goal with X : tries _ [] _ _ |- _ => inv X end. auto. Qed.

Definition alive (s : seen) (p : pulse) : Prop :=
  0 <= p_air p /\ (p_asked p = true -> n_on s = true /\ (exists c, n_sub s = Some c) /\ (0 < p_air p \/ p_timer p = true)).
Lemma timer_app t l r : timer_after t (l ++ r) = timer_after (timer_after t l) r.
Proof. apply fold_left_app. Qed.
Lemma alive_step mc {O} s p (o : @m_op O) l s' : answers mc s o l s' -> steady s o -> alive s p -> alive s' (pulse_after s p o l).
Proof.
  intros H St (A1 & A2). inv H; unfold pulse_after, alive; cbn [p_asked p_air p_timer sent_values flat_map Datatypes.app]; try change (zlen (@nil (list Z))) with 0; rewrite ?Z.add_0_r.
  - unfold sub_is. match goal with X : n_sub s = Some _ |- _ => rewrite X end. rewrite Z.eqb_refl. split; [lia|discriminate].
  - cbn [steady] in St. contradiction.
  - auto.
  - auto.
  - match goal with X : ?y <> 0 |- _ => destruct (Z.eqb_spec y 0); [contradiction|] end. auto.
  - match goal with X : status_of _ _ _ _ _ = 0 |- _ => rename X into Hs end. rewrite Hs. change (0 =? 0) with true. cbv iota. split; [exact A1|].
    cbn [status_of] in Hs. destruct (Z.eqb_spec off 0); [|discriminate]. destruct (Z.eqb_spec (zlen v) 2) as [Lv|]; [|discriminate]. destruct v as [|lo v]; [discriminate|]. cbn [negb] in Hs. cbn [written n_on n_sub].
    destruct (Z.odd lo); [|discriminate]. intros X. destruct (A2 X) as (B1 & (c1 & B2) & B3). split; [exact B1|]. split; [exists c; reflexivity|exact B3].
  - match goal with X : status_of _ _ _ _ _ = 0 |- _ => rename X into Hs end. match goal with X : tries _ _ _ _ |- _ => rename X into Ht end. rewrite Hs. change (0 =? 0) with true. cbv iota.
    cbn [status_of] in Hs. destruct (Z.eqb_spec off 0); [|discriminate]. destruct (Z.eqb_spec (zlen v) 1) as [Lv|]; [|discriminate]. cbn [negb] in Hs.
    destruct (n_sub s) as [c1|] eqn:Es; [|discriminate]. destruct (Z.eqb_spec c1 c) as [->|]; [|discriminate]. destruct v as [|b v]; [discriminate|].
    fold (sent_values (o0 ++ [OWriteCfm c HChunk 0])). unfold sent_values. rewrite flat_map_app. cbn [flat_map Datatypes.app]. rewrite app_nil_r. fold (sent_values o0). pose proof (zlen_nonneg (sent_values o0)). split; [lia|]. intros Hb.
    destruct (tries_same _ _ _ _ Ht) as (T1 & T2). cbn [written n_sub n_on] in T1, T2. rewrite T1, T2, Es. split; [exact Hb|]. split; [exists c; reflexivity|].
    cbn [steady] in St. destruct (tries_live _ _ _ _ Ht c) as [X|X]; [exact Es|exact Hb|now left|constructor; [exact St|constructor]|left; lia|right; rewrite timer_app, X; reflexivity].
  - match goal with X : tries _ _ _ _ |- _ => rename X into Ht end. cbn [steady] in St. fold (sent_values l). pose proof (zlen_nonneg (sent_values l)). destruct (tries_same _ _ _ _ Ht) as (T1 & T2).
    unfold sub_is. split; [destruct (n_sub s) as [c1|]; [destruct (c1 =? c)|]; lia|]. intros X. destruct (A2 X) as (B1 & (c1 & B2) & B3). rewrite T1, T2. split; [exact B1|]. split; [exists c1; exact B2|]. rewrite B2.
    destruct (Z.eqb_spec c1 c) as [->|N].
    + destruct (tries_live _ _ _ _ Ht c B2 B1) as [Y|Y]; [now left|constructor; [exact St|constructor]|left; lia|right; apply Y].
    + destruct (tries_none _ _ _ _ _ Ht) as (-> & _); [congruence|]. change (zlen (sent_values [])) with 0. destruct B3; [left; lia|right; assumption].
  - match goal with X : tries _ _ _ _ |- _ => rename X into Ht end. cbn [steady] in St. fold (sent_values l). pose proof (zlen_nonneg (sent_values l)). destruct (tries_same _ _ _ _ Ht) as (T1 & T2).
    split; [lia|]. intros X. destruct (A2 X) as (B1 & (c1 & B2) & B3). rewrite T1, T2. split; [exact B1|]. split; [exists c1; exact B2|]. destruct St as (St1 & St2).
    destruct (tries_live _ _ _ _ Ht c1 B2 B1) as [Y|Y]; [rewrite map_rev, <- in_rev; auto|apply Forall_rev; exact St2|left; lia|right; apply Y].
Qed.
Lemma alive_story mc {O R} s p (ops : list (@m_op O)) (rs : list (@m_res R)) s' p' k : story mc s p ops rs s' p' k -> k -> alive s p -> alive s' p'.
Proof. induction 1 as [s p|s p o r ops rs s' p' k H IH|s p o l s1 ops rs s' p' k Ha H IH]; intros Hk A; auto. destruct Hk as (Hs & Hk). apply IH; [exact Hk|]. eapply alive_step; eauto. Qed.

Section Mds.
Context {W A O Re : Type}.
Variables (so : sources W) (cfg : up_cfg) (app : W -> O -> option (Re * W)) (dev : device A O Re) (rel : option (src * Z) -> W -> A -> Prop).
Hypothesis K : keeps_contract so cfg app dev rel.
Variables (mc : m_cfg) (junk : list Z).
Notation uinv := (uinv cfg dev rel).
Notation drained mask a := (forall s, enabled mask s = true -> offer dev s a = None).

(** What holds between two states of the whole: values, messages *)
Definition moved (s : seen) (w : W) (a : A) (st : pk) (fl : option flight) (c : cloud_state) (o : list out) (s' : seen) (w' : W) (a' : A) (st' : pk) (fl' : option flight) (c' : cloud_state)
    (t : list (@deed O Re)) (got : list (list Z * Z)) : Prop :=
  uinv w' a' st' fl' /\ deeds dev a t a' /\ pk_mask st' = pk_mask st /\
  (exists new, sent_values o ++ kept_list s' = kept_list s ++ new /\ cloud c (map chunk_of new) = (c', got)) /\
  received cfg got (sent t) /\ fl_single fl' /\ at_cloud c' fl' /\ blocks o (held s) = Some (held s').

Lemma moved_still s w a st fl c o s' : uinv w a st fl -> fl_single fl -> at_cloud c fl -> sent_values o = [] -> kept_list s' = kept_list s -> blocks o (held s) = Some (held s') ->
  moved s w a st fl c o s' w a st fl c [] [].
Proof. intros U F C V Ks B. split; [exact U|]. split; [constructor|]. split; [reflexivity|]. split; [exists []; rewrite V, Ks, app_nil_r; split; reflexivity|]. split; [constructor|]. auto. Qed.

Lemma blocks_app l r : forall n k, blocks l n = Some k -> blocks (l ++ r) n = blocks r k.
Proof.
  induction l as [|x l IH]; intros n k H; cbn [blocks Datatypes.app] in *; [now injection H as <-|].
  destruct x; auto; [destruct ok; auto|]. destruct (n =? 0); [discriminate|auto].
Qed.
Lemma sent_values_app l r : sent_values (l ++ r) = sent_values l ++ sent_values r.
Proof. apply flat_map_app. Qed.
Lemma moved_then s w a st fl c o s1 w1 a1 st1 fl1 c1 t got o2 s2 w2 a2 st2 fl2 c2 t2 got2 :
  moved s w a st fl c o s1 w1 a1 st1 fl1 c1 t got -> moved s1 w1 a1 st1 fl1 c1 o2 s2 w2 a2 st2 fl2 c2 t2 got2 ->
  moved s w a st fl c (o ++ o2) s2 w2 a2 st2 fl2 c2 (t ++ t2) (got ++ got2).
Proof.
  intros (U & D & M & (n1 & V1 & C1) & R & F & Ac & B) (U2 & D2 & M2 & (n2 & V2 & C2) & R2 & F2 & Ac2 & B2).
  split; [exact U2|]. split; [eapply deeds_app; eauto|]. split; [congruence|]. split.
  { exists (n1 ++ n2). split; [rewrite sent_values_app, <- app_assoc, V2, !app_assoc, V1; reflexivity|]. rewrite map_app. eapply cloud_app; eauto. }
  split; [rewrite sent_app; apply received_app; assumption|]. split; [exact F2|]. split; [exact Ac2|]. rewrite (blocks_app _ _ _ _ B). exact B2.
Qed.

Lemma try_ok e c0 m s w a st fl c : minv m s -> n_env_ok e -> uinv w a st fl -> fl_single fl -> at_cloud c fl ->
  exists m' o st' w' a' fl' t got c' s', try_notify so cfg e c0 m w st = Some (m', o, st', w') /\ minv m' s' /\ tries s [(c0, e)] o s' /\
    moved s w a st fl c o s' w' a' st' fl' c' t got /\ app_deeds t = [] /\
    (n_sub s = Some c0 -> n_on s = true -> ne_mtu e <> None -> ne_mem e <> None -> (exists v, In (ONotify c0 v (ne_send e)) o) \/ drained (pk_mask st) a').
Proof.
  intros (I1 & I2 & I3 & I4) Ee U Fs Ac. unfold try_notify.
  assert (Nt : n_sub s <> Some c0 \/ n_on s = false \/ ne_mtu e = None ->
    exists m' o st' w' a' fl' t got c' s', Some (m, @nil out, st, w) = Some (m', o, st', w') /\ minv m' s' /\ tries s [(c0, e)] o s' /\
    moved s w a st fl c o s' w' a' st' fl' c' t got /\ app_deeds t = [] /\
    (n_sub s = Some c0 -> n_on s = true -> ne_mtu e <> None -> ne_mem e <> None -> (exists v, In (ONotify c0 v (ne_send e)) o) \/ drained (pk_mask st) a')).
  { intros X. exists m, [], st, w, a, fl, [], [], c, s. split; [reflexivity|]. split; [split; [exact I1|split; [exact I2|split; [exact I3|exact I4]]]|]. split; [apply T_none; [exact X|constructor]|].
    split; [apply moved_still; auto|]. split; [reflexivity|]. intros X1 X2 X3. destruct X as [X|[X|X]]; [contradiction|congruence|contradiction]. }
  destruct s as [sub on n kept]. cbn [n_sub n_on n_count n_kept] in *. destruct sub as [c1|].
  2:{ rewrite I1. cbn [negb orb]. apply Nt. left. discriminate. }
  destruct I1 as [J1 J2]. rewrite J1, J2. cbn [negb orb]. destruct (Z.eqb_spec c1 c0) as [->|Nc]; cbn [negb].
  2:{ apply Nt. left. congruence. }
  rewrite I2. destruct on; cbn [negb]; [|apply Nt; auto]. destruct (ne_mtu e) as [mtu|] eqn:Em; [|apply Nt; auto]. destruct (Ee mtu Em) as [Lm Hb]. clear Nt.
  destruct kept as [v|].
  - (* a value is kept *)
    destruct I4 as (b & P1 & P2 & P3 & P4). rewrite P1. cbn [bind]. destruct (Z.eqb_spec (m_len m) 0); [lia|]. cbn [negb]. rewrite P1. cbn [bind]. rewrite read_at_some by lia. cbn [bind].
    change (drop 0 b) with b. rewrite <- P4. destruct (ne_send e) eqn:Es.
    + eexists _, _, st, w, a, fl, [], [], c, (mk_sn (Some c0) true (n + 1) None). split; [reflexivity|]. split.
      { split; [split; assumption|]. split; [exact I2|]. split; [|split; reflexivity]. cbn [m_seq n_count]. rewrite I3. apply Zplus_mod_idemp_l. }
      split; [eapply T_again; [exact Em|exact Es|constructor]|]. split; [|split; [reflexivity|intros _ _ _ _; left; exists v; now left]].
      split; [exact U|]. split; [constructor|]. split; [reflexivity|]. split; [exists []; split; reflexivity|]. split; [constructor|]. split; [exact Fs|]. split; [exact Ac|reflexivity].
    + eexists _, _, st, w, a, fl, [], [], c, (mk_sn (Some c0) true n (Some v)). split; [reflexivity|]. split.
      { split; [split; assumption|]. split; [assumption|]. split; [exact I3|]. exists b. auto. }
      split; [eapply T_fail; [exact Em|exact Es|constructor]|]. split; [|split; [reflexivity|intros _ _ _ _; left; exists v; now left]].
      apply moved_still; auto.
  - (* a new one, if there is one *)
    destruct I4 as (P1 & P2). rewrite P1. destruct (sink_avail so cfg app dev rel K w a st fl U) as (av & w1 & cs & t & E & U1 & D & Y & T & B). rewrite E. cbn [bind].
    assert (Mv : moved (mk_sn (Some c0) true n None) w a st fl c [OStart] (mk_sn (Some c0) true n None) w1 (effects dev a cs) st fl c t []).
    { split; [exact U1|]. split; [exact D|]. split; [reflexivity|]. split; [exists []; split; reflexivity|]. split; [rewrite T; constructor|]. split; [exact Fs|]. split; [exact Ac|reflexivity]. }
    destruct av; cbn [negb].
    2:{ cbn [bind]. rewrite P2. change (0 =? 0) with true. cbn [negb Datatypes.app]. eexists _, _, st, w1, (effects dev a cs), fl, t, [], c, (mk_sn (Some c0) true n None). split; [reflexivity|].
        split; [split; [split; assumption|]; split; [assumption|]; split; [exact I3|]; split; assumption|]. split; [eapply T_idle; [exact Em|constructor]|].
        split; [exact Mv|]. split; [exact Y|]. intros _ _ _ _. right. apply B. }
    destruct (ne_mem e) as [b|] eqn:Eb.
    2:{ cbn [bind]. rewrite P2. change (0 =? 0) with true. cbn [negb Datatypes.app]. eexists _, _, st, w1, (effects dev a cs), fl, t, [], c, (mk_sn (Some c0) true n None). split; [reflexivity|].
        split; [split; [split; assumption|]; split; [assumption|]; split; [exact I3|]; split; assumption|]. split; [eapply T_nomem; [exact Em|exact Eb|constructor]|].
        split; [|split; [exact Y|intros _ _ _ X; contradiction]]. destruct Mv as (M1 & M2 & M3 & M4 & M5 & M6 & M7 & M8). repeat (split; [assumption|]). reflexivity. }
    pose proof (Hb b eq_refl) as Lb. rewrite I3, land31. unfold put.
    destruct b as [|b0 b]; [change (zlen (@nil Z)) with 0 in Lb; lia|]. rewrite zlen_cons in Lb. change (b0 :: b) with ([] ++ (b0 :: b)).
    rewrite (splice_app_pre [] (b0 :: b) 0 [n mod 32] eq_refl) by (change (zlen [n mod 32]) with 1; rewrite zlen_cons; pose proof (zlen_nonneg b); lia).
    change (drop (zlen [n mod 32]) (b0 :: b)) with b. cbn [Datatypes.app bind]. change (drop 1 (n mod 32 :: b)) with b.
    rewrite take_all by lia.
    destruct (sink_chunk so cfg app dev rel K w1 (effects dev a cs) st fl c b U1 Fs Ac ltac:(lia)) as (ok & d & cs2 & st2 & w2 & fl2 & t2 & got2 & c2 & E2 & U2 & D2 & Y2 & M2 & C2 & R2 & F2 & A2 & B2).
    rewrite E2. cbn [bind]. destruct ok.
    2:{ exfalso. destruct B2 as (_ & B2). destruct (B2 ltac:(lia)) as (X & _). exact (X B). }
    change (n mod 32 :: b) with ([n mod 32] ++ b). rewrite (splice_app_pre [n mod 32] b 1 d eq_refl) by lia. cbn [bind m_len m_payload m_seq m_mode m_conn m_active].
    destruct (Z.eqb_spec (zlen d) 0); [lia|]. cbn [negb].
    set (blk := [n mod 32] ++ d ++ drop (zlen d) b).
    assert (Lk : zlen blk = 1 + zlen b) by (unfold blk; rewrite !zlen_app, zlen_drop; change (zlen [n mod 32]) with 1; lia).
    assert (Tk : take (zlen d + 1) blk = n mod 32 :: d).
    { unfold blk. rewrite app_assoc, take_app_le by (rewrite zlen_app; change (zlen [n mod 32]) with 1; lia). apply take_all. cbn [Datatypes.app]. rewrite zlen_cons. lia. }
    rewrite read_at_some by lia. change (drop 0 blk) with blk. rewrite Tk. cbn [bind].
    assert (Nw : forall o s', sent_values o ++ kept_list s' = [n mod 32 :: d] -> blocks o 0 = Some (held s') ->
      moved (mk_sn (Some c0) true n None) w a st fl c o s' w2 (effects dev (effects dev a cs) cs2) st2 fl2 c2 (t ++ t2) got2).
    { intros o s' V Bl. split; [exact U2|]. split; [eapply deeds_app; eauto|]. split; [exact M2|]. split; [exists [n mod 32 :: d]; split; [exact V|exact C2]|].
      split; [rewrite sent_app, T; exact R2|]. split; [exact F2|]. split; [exact A2|exact Bl]. }
    destruct (ne_send e) eqn:Es; cbn [Datatypes.app].
    + eexists _, _, st2, w2, _, fl2, (t ++ t2), got2, c2, (mk_sn (Some c0) true (n + 1) None). split; [reflexivity|]. split.
      { split; [split; auto|]. split; [auto|]. split; [|split; reflexivity]. cbn [m_seq n_count]. rewrite ?I3. apply Zplus_mod_idemp_l. }
      split; [eapply T_new; [exact Em|lia|rewrite zlen_cons; lia|exact Es|constructor]|]. split; [apply Nw; reflexivity|]. split; [rewrite app_deeds_app, Y, Y2; reflexivity|].
      intros _ _ _ _. left. eexists. right. left. reflexivity.
    + eexists _, _, st2, w2, _, fl2, (t ++ t2), got2, c2, (mk_sn (Some c0) true n (Some (n mod 32 :: d))). split; [reflexivity|]. split.
      { split; [split; auto|]. split; [auto|]. split; [cbn [m_seq n_count]; rewrite ?I3; reflexivity|]. exists blk. cbn [m_payload m_len]. split; [reflexivity|]. split; [lia|]. split; [lia|]. symmetry. exact Tk. }
      split; [eapply T_kept; [exact Em|lia|rewrite zlen_cons; lia|exact Es|constructor]|]. split; [apply Nw; reflexivity|]. split; [rewrite app_deeds_app, Y, Y2; reflexivity|].
      intros _ _ _ _. left. eexists. right. left. reflexivity.
Qed.

Lemma try_all_ok l : forall m s w a st fl c, minv m s -> Forall (fun x => n_env_ok (snd x)) l -> uinv w a st fl -> fl_single fl -> at_cloud c fl ->
  exists m' o st' w' a' fl' t got c' s', try_all so cfg l m w st = Some (m', o, st', w') /\ minv m' s' /\ tries s l o s' /\
    moved s w a st fl c o s' w' a' st' fl' c' t got /\ app_deeds t = [].
Proof.
  induction l as [|[c0 e] l IH]; intros m s w a st fl c Mi F U Fs Ac; cbn [try_all].
  - exists m, [], st, w, a, fl, [], [], c, s. split; [reflexivity|]. split; [exact Mi|]. split; [constructor|]. split; [apply moved_still; auto|reflexivity].
  - pose proof (Forall_inv F) as Fe. apply Forall_inv_tail in F.
    destruct (try_ok e c0 m s w a st fl c Mi Fe U Fs Ac) as (m1 & o1 & st1 & w1 & a1 & fl1 & t1 & got1 & c1 & s1 & E1 & Mi1 & T1 & V1 & Y1 & _). rewrite E1. cbn [bind].
    destruct (IH m1 s1 w1 a1 st1 fl1 c1 Mi1 F) as (m2 & o2 & st2 & w2 & a2 & fl2 & t2 & got2 & c2 & s2 & E2 & Mi2 & T2 & V2 & Y2); try apply V1. rewrite E2. cbn [bind].
    exists m2, (o1 ++ o2), st2, w2, a2, fl2, (t1 ++ t2), (got1 ++ got2), c2, s2. split; [reflexivity|]. split; [exact Mi2|]. split; [eapply tries_app; eauto|].
    split; [eapply moved_then; eauto|]. rewrite app_deeds_app, Y1, Y2. reflexivity.
Qed.

Lemma land1 lo hi : negb (Z.land (lo + 256 * hi) 1 =? 0) = Z.odd lo.
Proof.
  change 1 with (Z.ones 1) at 1. rewrite Z.land_ones by lia. change (2 ^ 1) with 2. rewrite Zmod_odd. rewrite Z.odd_add, Z.odd_mul. change (Z.odd 256) with false. cbn [andb]. rewrite xorb_false_r. destruct (Z.odd lo); reflexivity.
Qed.

Hypothesis Hj : zlen junk = 64.
Lemma step_ok o m s w a st fl c : (forall x, o <> MApp x) -> minv m s -> m_fine (fine dev) o -> uinv w a st fl -> fl_single fl -> at_cloud c fl ->
  exists l m' st' w' a' fl' t got c' s', m_step so cfg mc junk app m w st o = Some (MROut l, m', st', w') /\ minv m' s' /\ answers mc s o l s' /\
    moved s w a st fl c l s' w' a' st' fl' c' t got /\ app_deeds t = [].
Proof.
  intros Na Mi Fo U Fs Ac. destruct o as [c0|access c0 h off|access e c0 h off v|c0 e|l|x]; [| | | | |destruct (Na x eq_refl)]; cbn [m_step].
  - pose proof Mi as (I1 & I2 & I3 & I4). unfold handle_gone. destruct s as [sub on n kept]. cbn [n_sub n_on n_count n_kept] in *. destruct sub as [c1|].
    + destruct I1 as [J1 J2]. rewrite J1, J2. cbn [andb]. destruct (Z.eqb_spec c1 c0) as [->|Nc].
      * eexists _, _, st, w, a, fl, [], [], c, _. split; [reflexivity|]. split; [|split; [apply A_gone_sub; reflexivity|split; [apply moved_still; auto|reflexivity]]].
        split; [reflexivity|]. split; [reflexivity|]. split; [reflexivity|]. exact I4.
      * eexists _, _, st, w, a, fl, [], [], c, _. split; [reflexivity|]. split; [exact Mi|split; [apply A_gone_other; cbn; congruence|split; [apply moved_still; auto|reflexivity]]].
    + rewrite I1. cbn [andb]. eexists _, _, st, w, a, fl, [], [], c, _. split; [reflexivity|]. split; [exact Mi|split; [apply A_gone_other; cbn; congruence|split; [apply moved_still; auto|reflexivity]]].
  - cbn [m_fine] in Fo. rewrite (handle_read_ok mc junk access c0 h off Hj Fo). cbn [bind]. eexists _, m, st, w, a, fl, [], [], c, s. split; [reflexivity|]. split; [exact Mi|]. split; [constructor|]. split; [apply moved_still; auto|reflexivity].
  - destruct Fo as (Fe & Fv). unfold handle_write. destruct access; cbn [negb].
    2:{ cbn [bind]. eexists _, m, st, w, a, fl, [], [], c, s. split; [reflexivity|]. split; [exact Mi|]. split; [constructor|]. split; [apply moved_still; auto|reflexivity]. }
    assert (Rf : forall k, status_of s c0 h off v = k -> k <> 0 -> exists l m' st' w' a' fl' t got c' s', Some (MROut (R := Re) [OWriteCfm c0 h k], m, st, w) = Some (MROut l, m', st', w') /\ minv m' s' /\
      answers mc s (@MWrite O true e c0 h off v) l s' /\ moved s w a st fl c l s' w' a' st' fl' c' t got /\ app_deeds t = []).
    { intros k <- Hk. eexists _, m, st, w, a, fl, [], [], c, s. split; [reflexivity|]. split; [exact Mi|]. split; [apply A_refused; exact Hk|]. split; [apply moved_still; auto|reflexivity]. }
    pose proof Mi as (I1 & I2 & I3 & I4).
    destruct h; try (cbn [bind]; apply Rf; [reflexivity|discriminate]).
    + (* the switch *)
      unfold export_write. cbn [status_of] in Rf. destruct (Z.eqb_spec off 0) as [->|No]; cbn [negb bind] in *; [|apply Rf; [reflexivity|discriminate]].
      destruct (Z.eqb_spec (zlen v) 1) as [Lv|Lv]; cbn [negb bind] in *; [|apply Rf; [reflexivity|discriminate]].
      destruct (n_sub s) as [c1|] eqn:Es.
      2:{ rewrite I1. cbn [negb orb bind]. apply Rf; [reflexivity|discriminate]. }
      destruct I1 as [J1 J2]. rewrite J1, J2. cbn [negb orb]. destruct (Z.eqb_spec c1 c0) as [->|Nc]; cbn [negb bind]; [|apply Rf; [reflexivity|discriminate]].
      destruct v as [|b [|b2 v]]; [discriminate| |rewrite !zlen_cons in Lv; pose proof (zlen_nonneg v); lia]. change (get [b] 0) with (Some b). cbn [bind].
      destruct (Z.eqb_spec b 0) as [E0|N0]; [|destruct (Z.eqb_spec b 1) as [E1|N1]]; cbn [orb negb bind].
      3:{ apply Rf; [|discriminate]. destruct b as [|[p|p|]|p]; try reflexivity; contradiction. }
      * subst b. change (0 =? 1) with false. set (m2 := mk_md true false (m_seq m) c0 (m_payload m) (m_len m)). pose (s2 := written s c0 HChunk [0]).
        assert (Mi2 : minv m2 s2) by (subst m2 s2; split; [cbn [written n_sub]; rewrite Es; split; reflexivity|split; [reflexivity|split; [exact I3|exact I4]]]).
        destruct (try_ok e c0 m2 s2 w a st fl c Mi2 Fe U Fs Ac) as (m1 & o1 & st1 & w1 & a1 & fl1 & t1 & got1 & cc & s1 & E1 & Mi1 & T1 & V1 & Y1 & _). rewrite E1. cbn [bind].
        eexists _, m1, st1, w1, a1, fl1, (t1 ++ []), (got1 ++ []), cc, s1. split; [reflexivity|]. split; [exact Mi1|].
        split; [eapply A_switched; [cbn [status_of]; rewrite Es, !Z.eqb_refl; reflexivity|exact T1]|].
        split; [eapply moved_then; [exact V1|]; apply moved_still; try reflexivity; apply V1|]. rewrite app_deeds_app, Y1. reflexivity.
      * subst b. set (m2 := mk_md true true (m_seq m) c0 (m_payload m) (m_len m)). pose (s2 := written s c0 HChunk [1]).
        assert (Mi2 : minv m2 s2) by (subst m2 s2; split; [cbn [written n_sub]; rewrite Es; split; reflexivity|split; [reflexivity|split; [exact I3|exact I4]]]).
        destruct (try_ok e c0 m2 s2 w a st fl c Mi2 Fe U Fs Ac) as (m1 & o1 & st1 & w1 & a1 & fl1 & t1 & got1 & cc & s1 & E1 & Mi1 & T1 & V1 & Y1 & _). rewrite E1. cbn [bind].
        eexists _, m1, st1, w1, a1, fl1, (t1 ++ []), (got1 ++ []), cc, s1. split; [reflexivity|]. split; [exact Mi1|].
        split; [eapply A_switched; [cbn [status_of]; rewrite Es, !Z.eqb_refl; reflexivity|exact T1]|].
        split; [eapply moved_then; [exact V1|]; apply moved_still; try reflexivity; apply V1|]. rewrite app_deeds_app, Y1. reflexivity.
    + (* subscriptions *)
      unfold cccd_write. cbn [status_of] in Rf. destruct (Z.eqb_spec off 0) as [->|No]; cbn [negb bind] in *; [|apply Rf; [reflexivity|discriminate]].
      destruct (Z.eqb_spec (zlen v) 2) as [Lv|Lv]; cbn [negb bind] in *; [|apply Rf; [reflexivity|discriminate]].
      destruct v as [|lo [|hi v]]; [discriminate|discriminate|]. change (get (lo :: hi :: v) 0) with (Some lo). change (get (lo :: hi :: v) 1) with (Some hi). cbn [bind]. rewrite land1.
      assert (Wr : forall m', status_of s c0 HCccd 0 (lo :: hi :: v) = 0 -> m_active m' = Z.odd lo -> m_conn m' = c0 -> m_mode m' = m_mode m -> m_seq m' = m_seq m -> m_payload m' = m_payload m -> m_len m' = m_len m ->
        exists l m'0 st' w' a' fl' t got c' s', Some (MROut (R := Re) [OWriteCfm c0 HCccd 0], m', st, w) = Some (MROut l, m'0, st', w') /\ minv m'0 s' /\
        answers mc s (@MWrite O true e c0 HCccd 0 (lo :: hi :: v)) l s' /\ moved s w a st fl c l s' w' a' st' fl' c' t got /\ app_deeds t = []).
      { intros m' Hs X1 X2 X3 X4 X5 X6. eexists _, m', st, w, a, fl, [], [], c, _. split; [reflexivity|]. split; [|split; [apply A_written; exact Hs|split; [apply moved_still; auto|reflexivity]]].
        unfold minv. cbn [written n_sub n_on n_count n_kept]. rewrite X1, X2, X3, X4, X5, X6. split; [destruct (Z.odd lo); auto|]. auto. }
      destruct (n_sub s) as [c1|] eqn:Es.
      * destruct I1 as [J1 J2]. rewrite J1, J2. cbn [negb]. destruct (Z.eqb_spec c1 c0) as [->|Nc]; cbn [bind]; [|apply Rf; [reflexivity|discriminate]].
        apply Wr; try reflexivity. cbn [status_of]. rewrite Lv, Es, !Z.eqb_refl. reflexivity.
      * rewrite I1. cbn [negb bind]. apply Wr; try reflexivity. cbn [status_of]. rewrite Lv, Es, !Z.eqb_refl. reflexivity.
  - destruct (try_ok e c0 m s w a st fl c Mi Fo U Fs Ac) as (m1 & o1 & st1 & w1 & a1 & fl1 & t1 & got1 & c1 & s1 & E1 & Mi1 & T1 & V1 & Y1 & _). rewrite E1. cbn [bind].
    exists o1, m1, st1, w1, a1, fl1, t1, got1, c1, s1. split; [reflexivity|]. split; [exact Mi1|]. split; [apply A_sent; exact T1|]. split; [exact V1|exact Y1].
  - destruct (try_all_ok (rev l) m s w a st fl c Mi (Forall_rev Fo) U Fs Ac) as (m1 & o1 & st1 & w1 & a1 & fl1 & t1 & got1 & c1 & s1 & E1 & Mi1 & T1 & V1 & Y1). rewrite E1. cbn [bind].
    exists o1, m1, st1, w1, a1, fl1, t1, got1, c1, s1. split; [reflexivity|]. split; [exact Mi1|]. split; [apply A_timer; exact T1|]. split; [exact V1|exact Y1].
Qed.

Lemma m_general ops : forall m s p w a st fl c, minv m s -> uinv w a st fl -> fl_single fl -> at_cloud c fl -> Forall (m_fine (fine dev)) ops ->
  exists ops1 rs m' st' w' a' fl' t got c' s' p' k, m_played dev ops ops1 a' /\ m_run so cfg mc junk app m w st ops1 = Some (rs, m', st', w') /\
    minv m' s' /\ story mc s p ops1 rs s' p' k /\ moved s w a st fl c (m_outs rs) s' w' a' st' fl' c' t got /\ app_deeds t = m_calls ops1 rs.
Proof.
  induction ops as [|o ops IH]; intros m s p w a st fl c Mi U Fs Ac F.
  - exists [], [], m, st, w, a, fl, [], [], c, s, p, True. split; [exists []; auto|]. split; [reflexivity|]. split; [exact Mi|]. split; [constructor|]. split; [apply moved_still; auto|reflexivity].
  - pose proof (Forall_inv F) as Fo. apply Forall_inv_tail in F.
    assert (Up : (forall x, o <> MApp x) -> 
      exists ops1 rs m' st' w' a' fl' t got c' s' p' k, m_played dev (o :: ops) ops1 a' /\ m_run so cfg mc junk app m w st ops1 = Some (rs, m', st', w') /\
        minv m' s' /\ story mc s p ops1 rs s' p' k /\ moved s w a st fl c (m_outs rs) s' w' a' st' fl' c' t got /\ app_deeds t = m_calls ops1 rs).
    { intros Na. destruct (step_ok o m s w a st fl c Na Mi Fo U Fs Ac) as (l & m1 & st1 & w1 & a1 & fl1 & t1 & got1 & c1 & s1 & E1 & Mi1 & An & V1 & Y1).
      destruct (IH m1 s1 (pulse_after s p o l) w1 a1 st1 fl1 c1 Mi1 ltac:(apply V1) ltac:(apply V1) ltac:(apply V1) F)
        as (ops1 & rs & m2 & st2 & w2 & a2 & fl2 & t2 & got2 & c2 & s2 & p2 & k & (ops2 & -> & Pl) & E2 & Mi2 & Sy & V2 & Y2).
      exists (o :: ops1), (@MROut Re l :: rs), m2, st2, w2, a2, fl2, (t1 ++ t2), (got1 ++ got2), c2, s2, p2, (steady s o /\ k).
      split; [exists ops2; split; [reflexivity|exact Pl]|]. split; [cbn [m_run]; rewrite E1; cbn [bind]; rewrite E2; reflexivity|]. split; [exact Mi2|]. split; [eapply S_op; eauto|].
      split; [exact (moved_then _ _ _ _ _ _ _ _ _ _ _ _ _ _ _ _ _ _ _ _ _ _ _ _ V1 V2)|]. rewrite app_deeds_app, Y1, Y2. cbn [m_calls]. destruct o; reflexivity. }
    destruct o as [c0|access c0 h off|access e c0 h off v|c0 e|l|o]; try (apply Up; discriminate). clear Up. cbn [m_fine] in Fo.
    destruct (spec dev a o) as [[r a1]|] eqn:Es.
    + destruct (step_chunk so cfg app dev rel K w a st fl c (UApp o) U Fo Fs Ac ltac:(congruence)) as (r0 & st1 & w1 & a1' & fl1 & t1 & got1 & c1 & E1 & S1 & U1 & D1 & Y1 & C1 & R1 & F1 & A1).
      cbn [up_step] in E1. apply bind_inv in E1 as ([r1 w1'] & E1 & X). injection X as <- <- <-.
      destruct (IH m s p w1' a1' st fl1 c1 Mi U1 F1 A1 F) as (ops1 & rs & m2 & st2 & w2 & a2 & fl2 & t2 & got2 & c2 & s2 & p2 & k & (ops2 & -> & Pl) & E2 & Mi2 & Sy & V2 & Y2).
      exists (MApp o :: ops1), (MRApp r1 :: rs), m2, st2, w2, a2, fl2, (t1 ++ t2), (got1 ++ got2), c2, s2, p2, k.
      split; [exists ops2; split; [reflexivity|exact Pl]|]. split; [cbn [m_run m_step]; rewrite E1; cbn [bind]; rewrite E2; reflexivity|]. split; [exact Mi2|]. split; [apply S_app; exact Sy|].
      split; [|rewrite app_deeds_app, Y1, Y2; reflexivity].
      destruct V2 as (Q1 & Q2 & Q3 & (new & Q4 & Q5) & Q6 & Q7 & Q8 & Q9). split; [exact Q1|]. split; [eapply deeds_app; eauto|]. split; [exact Q3|].
      split; [exists new; split; [exact Q4|]; change (map chunk_of new) with ([] ++ map chunk_of new); eapply cloud_app; [|exact Q5]; cbn in C1; exact C1|].
      split; [rewrite sent_app; apply received_app; assumption|]. auto.
    + exists [], [], m, st, w, a, fl, [], [], c, s, p, True. split; [exists (MApp o :: ops); split; [reflexivity|right; eauto]|]. split; [reflexivity|]. split; [exact Mi|]. split; [constructor|]. split; [apply moved_still; auto|reflexivity].
Qed.

Theorem m_accounts w a ops : rel None w a -> Forall (m_fine (fine dev)) ops ->
  exists ops1 rs m st w' a' t got k s p calm, m_played dev ops ops1 a' /\ m_run so cfg mc junk app mds_boot w pk_init ops1 = Some (rs, m, st, w') /\
    deeds dev a t a' /\ app_deeds t = m_calls ops1 rs /\ story mc seen_boot pulse_boot ops1 rs s p calm /\
    cloud None (map chunk_of (sent_values (m_outs rs) ++ kept_list s)) = (k, got) /\ received cfg got (sent t) /\
    blocks (m_outs rs ++ cleanup m) 0 = Some 0 /\
    (calm -> p_asked p = true -> 0 < p_air p \/ p_timer p = true) /\
    forall c e, n_sub s = Some c -> n_on s = true -> n_env_ok e -> ne_mtu e <> None -> ne_mem e <> None ->
      exists o m2 st2 w2 a2 t2, m_step so cfg mc junk app m w' st (MSent c e) = Some (MROut o, m2, st2, w2) /\ deeds dev a' t2 a2 /\
        ((exists v, In (ONotify c v (ne_send e)) o) \/ forall s, enabled (pk_mask st) s = true -> offer dev s a2 = None).
Proof.
  intros R F. assert (M0 : minv mds_boot seen_boot) by (split; [reflexivity|split; [reflexivity|split; [reflexivity|split; reflexivity]]]).
  destruct (m_general ops mds_boot seen_boot pulse_boot w a pk_init None None M0 (uinv_boot _ _ _ _ _ K w a R) I I F)
    as (ops1 & rs & m & st & w' & a' & fl & t & got & c & s & p & k & P & E & Mi & Sy & (U & D & Mk & (new & V & C) & Rc & Fs & Ac & B) & Y).
  exists ops1, rs, m, st, w', a', t, got, c, s, p, k. split; [exact P|]. split; [exact E|]. split; [exact D|]. split; [exact Y|]. split; [exact Sy|].
  split; [rewrite V; exact C|]. split; [exact Rc|]. split.
  { change (held seen_boot) with 0 in B. rewrite (blocks_app _ _ _ _ B). unfold cleanup, held, kept_list. destruct Mi as (_ & _ & _ & I4). destruct (n_kept s) as [v|]; [destruct I4 as (b & -> & _)|destruct I4 as (-> & _)]; reflexivity. }
  split.
  { intros Hk. destruct (alive_story mc _ _ _ _ _ _ _ Sy Hk) as (_ & A2); [split; [cbn; lia|discriminate]|]. intros X. apply (A2 X). }
  intros c0 e S1 S2 Ee E1 E2. destruct (try_ok e c0 m s w' a' st fl c Mi Ee U Fs Ac) as (m1 & o1 & st1 & w1 & a1 & fl1 & t1 & got1 & cc & s1 & X1 & Mi1 & T1 & V1 & Y1 & Z1).
  exists o1, m1, st1, w1, a1, t1. split; [cbn [m_step]; rewrite X1; reflexivity|]. split; [apply V1|]. apply Z1; assumption.
Qed.
End Mds.
