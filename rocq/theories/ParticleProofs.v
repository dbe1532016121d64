From Verif Require Import Base Base64 Base64Spec Base64Proofs Crc16Spec ChunkTransport ChunkSpec ChunkProofs ChunkDrain Packetizer PacketizerSpec PacketizerProofs DataExportProofs
  Uplink UplinkSpec UplinkProofs SinkProofs Particle ParticleSpec.

(* ------------------------------------------------------------ sizes and texts *)
Lemma size_fits n : 0 <= n < 2 ^ 30 -> b64_enc_len (max_decode_len n) <= n <-> n mod 4 <= 1.
Proof. intros H. unfold b64_enc_len, max_decode_len, u32. change (2 ^ 30) with 1073741824 in H. rewrite (Z.mod_small (3 * n)) by lia. lia. Qed.
Lemma enc_mono a b : a <= b -> b64_enc_len a <= b64_enc_len b.
Proof. unfold b64_enc_len. lia. Qed.
Lemma ch_nonzero v : 0 <= v < 64 -> ch v <> 0.
Proof. intros H E. pose proof (ch_val v H) as X. rewrite E in X. discriminate. Qed.
Lemma b64_nonzero l : bytes l -> Forall (fun x => x <> 0) (b64 l).
Proof.
  unfold bytes. induction l using list3_ind; intros Hb; [constructor| | |];
    repeat match goal with H : Forall _ (_ :: _) |- _ => inversion H; subst; clear H end; unfold is_u8 in *.
  - cbn [b64 quad1]. repeat (constructor; [first [apply ch_nonzero; lia|discriminate]|]). constructor.
  - cbn [b64 quad2]. repeat (constructor; [first [apply ch_nonzero; lia|discriminate]|]). constructor.
  - cbn [b64 quad3 Datatypes.app]. repeat (constructor; [first [apply ch_nonzero; lia|discriminate]|]). auto.
Qed.
Lemma text_prefix t r : Forall (fun x => x <> 0) t -> text_at (t ++ 0 :: r) = Some t.
Proof. induction 1 as [|x t N _ IH]; cbn [text_at Datatypes.app]; [reflexivity|]. destruct (Z.eqb_spec x 0); [contradiction|]. now rewrite IH. Qed.

(** A chunk that fits becomes a text that stands for it. *)
Lemma published b d n : bytes b -> bytes d -> zlen b = n + 1 -> b64_enc_len (zlen d) <= n -> n < 2 ^ 30 ->
  (do b <- splice b 0 d; do b <- base64_encode_inplace b (zlen d); do b <- put b (b64_enc_len (zlen d)) 0; text_at b) = Some (b64 d).
Proof.
  intros Bb Bd Lb Hn Hx. pose proof (zlen_nonneg d). assert (Le : zlen d <= b64_enc_len (zlen d)) by (unfold b64_enc_len; lia).
  rewrite splice_some by lia. cbn [bind]. set (b1 := take 0 b ++ d ++ drop (0 + zlen d) b).
  assert (E1 : b1 = d ++ drop (zlen d) b) by reflexivity.
  assert (L1 : zlen b1 = n + 1) by (rewrite E1, zlen_app, zlen_drop; lia).
  rewrite base64_inplace_is_b64; [|rewrite E1; apply bytes_app; split; [exact Bd|now apply bytes_drop]|lia|lia|unfold INT_MAX; lia].
  cbn [bind]. rewrite E1, take_app_exact by reflexivity. set (tl := drop (b64_enc_len (zlen d)) (d ++ drop (zlen d) b)).
  assert (Lt : 1 <= zlen tl) by (unfold tl; rewrite zlen_drop; rewrite E1 in L1; rewrite L1; pose proof (zlen_nonneg d); lia).
  destruct tl as [|x tl]; [change (zlen (@nil Z)) with 0 in Lt; lia|].
  unfold put. rewrite splice_some.
  2: pose proof (b64_len d); lia.
  2: rewrite zlen_app, b64_len; change (zlen [0]) with 1; lia.
  cbn [bind]. rewrite take_app_exact by (symmetry; apply b64_len). change (zlen [0]) with 1. cbn [Datatypes.app]. apply text_prefix, b64_nonzero, Bd.
Qed.

(* ------------------------------------------------------------ chunks are bytes *)
Section Particle.
Context {W A O Re : Type}.
Variables (so : sources W) (cfg : up_cfg) (app : W -> O -> option (Re * W)) (dev : device A O Re) (rel : option (src * Z) -> W -> A -> Prop).
Hypothesis K : keeps_contract so cfg app dev rel.
Notation uinv := (uinv cfg dev rel).
Notation ucfg := (u_cfg cfg).
Notation vw := (view dev).
Notation drained mask a := (forall s, enabled mask s = true -> offer dev s a = None).

Lemma next_bytes_up w a st fl buf status out st' w' cs : uinv w a st fl -> 9 <= zlen buf < 4294967296 ->
  up_next so cfg w st buf = Some (status, out, st', w', cs) -> bytes out.
Proof.
  intros [Hs Hr] Hn E0. destruct (next_ok _ _ _ _ buf Hs ltac:(lia)) as (status1 & out1 & st1 & q & cs1 & ss' & E & N & S').
  pose proof (next_bytes _ _ _ _ _ _ _ _ _ _ Hs Hn E) as B.
  pose proof Hs as [Sq Sm Sok Sf]. unfold up_next, pk_get_next in *. cbn [s_fl s_q s_mask] in *.
  destruct (pk_cur st) as [pm|] eqn:Ec; [|injection E0 as <- <- <- <- <-; constructor].
  destruct fl as [f|]; [|contradiction].
  assert (Eo : offer dev (pm_src pm) a = Some (f_msg f)).
  { destruct (fo_q _ _ _ _ _ Sf) as (r & Q). rewrite view_q, <- (fo_src _ _ _ _ _ Sf) in Q. destruct (offer dev (pm_src pm) a); [|discriminate]. now injection Q as -> _. }
  assert (Er : pm_rle pm = is_rle ucfg (pm_src pm)) by (rewrite (fo_src _ _ _ _ _ Sf); apply Sf).
  assert (Em0 : src_msg ucfg (vw a) (pm_src pm) (pm_rle pm) = Some (f_msg f)).
  { rewrite Er, (src_msg_body _ _ _ (f_msg f) []) by (rewrite view_q, Eo; reflexivity). now rewrite ubody. }
  rewrite Em0 in E. cbn [bind] in E.
  apply bind_inv in E as (o & En & E).
  assert (Wf : cwf (wire ucfg (pm_src pm) (f_msg f)) (pm_ctx pm)) by (rewrite (fo_src _ _ _ _ _ Sf); apply Sf).
  assert (Mok : msg_ok ucfg (pm_src pm) (f_msg f)).
  { exact (k_ok _ _ _ _ _ K _ _ _ _ _ Hr Eo). }
  destruct Mok as [Mb Ms].
  assert (Hk : exists k, co_reads o = (if k =? 0 then [] else [(ct_offset (pm_ctx pm), k)]) /\ ct_offset (co_ctx o) = ct_offset (pm_ctx pm) + k).
  { assert (En2 : ct_next (read_at (wire ucfg (pm_src pm) (f_msg f))) (pm_ctx pm) buf (zlen buf) = Some o).
    { rewrite <- En. symmetry. apply ct_next_ext; [destruct Wf as [-> _ _]; zl|]. intros k Kp. rewrite <- reader_is_wire; [now rewrite ubody|exact Er|destruct Wf; lia|exact Kp]. }
    destruct (ct_next_ok _ Mb Ms (pm_ctx pm) buf (zlen buf) Wf) as (more & k & vi & crc & out2 & _ & _ & _ & _ & _ & _ & _ & _ & _ & En3); [lia|lia|lia|].
    rewrite En3 in En2. injection En2 as <-. exists k. cbn. split; reflexivity. }
  destruct (chunk_up so cfg app dev rel K pm w a (f_msg f) buf o Er Eo Hr) as (w1 & Eu & R1); [destruct Wf as [-> _ _]; zl|destruct Wf; lia|exact En|exact Hk|].
  rewrite Eu in E0. cbn [bind] in E0. destruct (co_len o =? 0).
  - injection E as <- <- <- <- <-. injection E0 as <- <- <- <- <-. exact B.
  - destruct (negb (co_more o)).
    + injection E as <- <- <- <- <-. apply bind_inv in E0 as (w2 & _ & E0). apply bind_inv in E0 as (w3 & _ & E0). injection E0 as <- <- <- <- <-. exact B.
    + injection E as <- <- <- <- <-. injection E0 as <- <- <- <- <-. exact B.
Qed.
Lemma chunk_bytes w a st fl buf b out st' w' cs : uinv w a st fl -> 9 <= zlen buf < 4294967296 ->
  up_get_chunk so cfg w st buf = Some (b, out, st', w', cs) -> bytes out.
Proof.
  intros U Hn E. unfold up_get_chunk in E. destruct (begin_up so cfg app dev rel K w a st fl false U) as (ok & l & p & st1 & w1 & cs1 & fl1 & E1 & _ & _ & U1 & _).
  rewrite E1 in E. cbn [bind] in E. destruct ok; cbn [negb] in E; [|injection E as <- <- <- <- <-; constructor].
  apply bind_inv in E as ([[[[s o] st2] w2] cs2] & E2 & E). injection E as <- <- <- <- <-. eapply next_bytes_up; eauto.
Qed.

(* ------------------------------------------------------------ one call *)
Definition pinv (m : pt) (s : p_seen) : Prop := pt_conn m = s_conn s /\ pt_last m = u32 (s_at s).
Definition p_moved (w : W) (a : A) (st : pk) (fl : option flight) (c : cloud_state) (o : list p_out) (w' : W) (a' : A) (st' : pk) (fl' : option flight) (c' : cloud_state)
    (t : list (@deed O Re)) (got : list (list Z * Z)) : Prop :=
  uinv w' a' st' fl' /\ deeds dev a t a' /\ pk_mask st' = pk_mask st /\
  (exists cs, stand_for (texts o) cs /\ cloud c cs = (c', got)) /\ received cfg got (sent t) /\ fl_single fl' /\ at_cloud c' fl'.
Lemma p_still w a st fl c : uinv w a st fl -> fl_single fl -> at_cloud c fl -> p_moved w a st fl c [] w a st fl c [] [].
Proof. intros U F C. split; [exact U|]. split; [constructor|]. split; [reflexivity|]. split; [exists []; split; [constructor|reflexivity]|]. split; [constructor|]. auto. Qed.
Lemma texts_app l r : texts (l ++ r) = texts l ++ texts r. Proof. apply flat_map_app. Qed.
Lemma p_moved_then w a st fl c o w1 a1 st1 fl1 c1 t got o2 w2 a2 st2 fl2 c2 t2 got2 :
  p_moved w a st fl c o w1 a1 st1 fl1 c1 t got -> p_moved w1 a1 st1 fl1 c1 o2 w2 a2 st2 fl2 c2 t2 got2 ->
  p_moved w a st fl c (o ++ o2) w2 a2 st2 fl2 c2 (t ++ t2) (got ++ got2).
Proof.
  intros (U & D & M & (n1 & V1 & C1) & R & F & Ac) (U2 & D2 & M2 & (n2 & V2 & C2) & R2 & F2 & Ac2).
  split; [exact U2|]. split; [eapply deeds_app; eauto|]. split; [congruence|]. split.
  { exists (n1 ++ n2). split; [rewrite texts_app; apply Forall2_app; assumption|]. eapply SinkProofs.cloud_app; eauto. }
  split; [rewrite sent_app; apply received_app; assumption|]. auto.
Qed.

Lemma u32_sub x y : u32 (u32 x - u32 y) = u32 (x - y).
Proof. unfold u32. symmetry. apply Zminus_mod. Qed.

Lemma process_ok e m s w a st fl c : pinv m s -> p_mem_ok e -> p_size_ok (pe_max e) -> s_at s <= pe_t1 e -> uinv w a st fl -> fl_single fl -> at_cloud c fl ->
  exists m' o st' w' a' fl' t got c' s', pt_process so cfg e m w st = Some (m', o, st', w') /\ pinv m' s' /\ p_answers (O := O) s (PtProcess e) o s' /\
    p_moved w a st fl c o w' a' st' fl' c' t got /\ app_deeds t = [] /\ (s' = s \/ s_at s' = pe_t2 e) /\
    (s_conn s = true -> 1000 <= pe_t1 e - s_at s < 2 ^ 32 -> pe_mem e <> None -> (exists x, In (PPublish x (pe_pub e)) o) \/ drained (pk_mask st) a').
Proof.
  intros (I1 & I2) Em (Ez & Ez2) Et U Fs Ac. change (2 ^ 30) with 1073741824 in *. unfold pt_process. rewrite I1. destruct (s_conn s) eqn:Ec; cbn [negb].
  2:{ exists m, [], st, w, a, fl, [], [], c, s. split; [reflexivity|]. split; [split; congruence|]. split; [now apply PA_off|]. split; [now apply p_still|]. split; [reflexivity|]. split; [now left|discriminate]. }
  unfold millis. rewrite I2, u32_sub. destruct (Z.ltb_spec (u32 (pe_t1 e - s_at s)) 1000) as [Lt|Ge].
  { exists m, [], st, w, a, fl, [], [], c, s. split; [reflexivity|]. split; [split; congruence|].
    assert (X : pe_t1 e - s_at s < 1000 \/ 2 ^ 32 <= pe_t1 e - s_at s).
    { destruct (Z.le_gt_cases (2 ^ 32) (pe_t1 e - s_at s)); [now right|left]. unfold u32 in Lt. rewrite Z.mod_small in Lt by lia. exact Lt. }
    split; [now apply PA_soon|]. split; [now apply p_still|]. split; [reflexivity|]. split; [now left|]. intros _ Y. lia. }
  assert (Ge' : 1000 <= pe_t1 e - s_at s) by (unfold u32 in Ge; pose proof (Z.mod_le (pe_t1 e - s_at s) (2 ^ 32)); lia).
  set (m1 := mk_pt true (u32 (pe_t2 e))). assert (P1 : pinv m1 (mk_ps true (pe_t2 e))) by (split; reflexivity).
  destruct (sink_avail so cfg app dev rel K w a st fl U) as (av & w1 & cs & t & E & U1 & D & Y & T & B). rewrite E. cbn [bind].
  assert (Mv : p_moved w a st fl c [] w1 (effects dev a cs) st fl c t []).
  { split; [exact U1|]. split; [exact D|]. split; [reflexivity|]. split; [exists []; split; [constructor|reflexivity]|]. split; [rewrite T; constructor|]. auto. }
  destruct av; cbn [negb].
  2:{ eexists m1, _, st, w1, (effects dev a cs), fl, t, [], c, _. split; [reflexivity|]. split; [exact P1|]. split; [now apply PA_idle|]. split; [exact Mv|]. split; [exact Y|]. split; [now right|].
      intros _ _ _. right. apply B. }
  replace (u32 (pe_max e + 1)) with (pe_max e + 1) by (unfold u32; rewrite Z.mod_small; lia).
  destruct (pe_mem e) as [b|] eqn:Eb.
  2:{ eexists m1, _, st, w1, (effects dev a cs), fl, t, [], c, _. split; [reflexivity|]. split; [exact P1|]. split; [now apply PA_nomem|]. split; [exact Mv|]. split; [exact Y|]. split; [now right|].
      intros _ _ X. elim X. reflexivity. }
  destruct (Em b Eb) as (Bb & Lb). set (n := max_decode_len (pe_max e)).
  assert (Hn : 9 <= n < pe_max e) by (unfold n, max_decode_len, u32; rewrite Z.mod_small by lia; lia).
  assert (Lt : zlen (take n b) = n) by (rewrite zlen_take; lia).
  destruct (sink_chunk so cfg app dev rel K w1 (effects dev a cs) st fl c (take n b) U1 Fs Ac ltac:(lia))
    as (ok & d & cs2 & st2 & w2 & fl2 & t2 & got & c2 & E2 & U2 & D2 & Y2 & M2 & C2 & R2 & F2 & A2 & Z2).
  assert (Bd : bytes d) by (refine (chunk_bytes _ _ _ _ _ _ _ _ _ _ U1 _ E2); lia).
  rewrite E2. cbn [bind]. destruct ok.
  2:{ exfalso. destruct Z2 as (_ & Z2). destruct (Z2 ltac:(lia)) as (Z3 & _). contradiction. }
  assert (Hd : b64_enc_len (zlen d) <= pe_max e).
  { pose proof (enc_mono (zlen d) n ltac:(lia)). pose proof (proj2 (size_fits (pe_max e) ltac:(lia)) Ez2). unfold n in *. lia. }
  destruct (Z.ltb_spec (pe_max e) (b64_enc_len (zlen d))) as [?|_]; [lia|].
  pose proof (published b d (pe_max e) Bb Bd Lb Hd ltac:(lia)) as Pb.
  apply bind_inv in Pb as (b1 & Q1 & Pb). rewrite Q1. cbn [bind]. apply bind_inv in Pb as (b2 & Q2 & Pb). rewrite Q2. cbn [bind].
  apply bind_inv in Pb as (b3 & Q3 & Pb). rewrite Q3. cbn [bind]. rewrite Pb. cbn [bind Datatypes.app].
  assert (Lx : 0 < zlen (b64 d) <= pe_max e) by (rewrite b64_len; unfold b64_enc_len in *; lia).
  eexists m1, _, st2, w2, (effects dev (effects dev a cs) cs2), fl2, (t ++ t2), ([] ++ got), c2, _. split; [reflexivity|]. split; [exact P1|].
  split; [apply PA_sent; assumption|]. split.
  { change [PAlloc (pe_max e + 1) true; PPublish (b64 d) (pe_pub e); PFree] with ([] ++ [PAlloc (pe_max e + 1) true; PPublish (b64 d) (pe_pub e); PFree]).
    eapply p_moved_then; [exact Mv|]. split; [exact U2|]. split; [exact D2|]. split; [exact M2|]. split; [exists [d]; split; [|exact C2]|auto].
    constructor; [apply b64_roundtrip, Bd|constructor]. }
  split; [rewrite app_deeds_app, Y, Y2; reflexivity|]. split; [now right|]. intros _ _ _. left. exists (b64 d). right. left. reflexivity.
Qed.

(* ------------------------------------------------------------ histories *)
Lemma p_general ops : forall m s now w a st fl c, pinv m s -> s_at s <= now -> in_time now ops -> uinv w a st fl -> fl_single fl -> at_cloud c fl -> Forall (p_fine (fine dev)) ops ->
  exists ops1 rs m' st' w' a' fl' t got c' s', p_played dev ops ops1 a' /\ pt_run so cfg app m w st ops1 = Some (rs, m', st', w') /\
    pinv m' s' /\ p_story s ops1 rs s' /\ p_moved w a st fl c (p_outs rs) w' a' st' fl' c' t got /\ app_deeds t = p_calls ops1 rs.
Proof.
  induction ops as [|o ops IH]; intros m s now w a st fl c Mi Na Ti U Fs Ac F.
  - exists [], [], m, st, w, a, fl, [], [], c, s. split; [exists []; auto|]. split; [reflexivity|]. split; [exact Mi|]. split; [constructor|]. split; [now apply p_still|reflexivity].
  - pose proof (Forall_inv F) as Fo. apply Forall_inv_tail in F. destruct o as [x y|e|o]; cbn [in_time p_fine] in *.
    + set (s1 := if x then mk_ps y (s_at s) else s).
      assert (M1 : pinv (pt_cloud x y m) s1) by (unfold s1, pt_cloud; destruct Mi; destruct x; split; auto).
      assert (N1 : s_at s1 <= now) by (unfold s1; destruct x; exact Na).
      destruct (IH _ s1 now w a st fl c M1 N1 Ti U Fs Ac F) as (ops1 & rs & m2 & st2 & w2 & a2 & fl2 & t2 & got2 & c2 & s2 & (ops2 & -> & Pl) & E2 & Mi2 & Sy & V2 & Y2).
      exists (PtCloud x y :: ops1), (@PtOut Re [] :: rs), m2, st2, w2, a2, fl2, t2, got2, c2, s2. split; [exists ops2; split; [reflexivity|exact Pl]|].
      split; [cbn [pt_run pt_step bind]; rewrite E2; reflexivity|]. split; [exact Mi2|]. split; [|split; [exact V2|exact Y2]].
      eapply PS_op; [|exact Sy]. unfold s1. destruct x; constructor.
    + destruct Ti as (T1 & T2). destruct Fo as (Fe & Fz).
      destruct (process_ok e m s w a st fl c Mi Fe Fz ltac:(lia) U Fs Ac) as (m1 & o1 & st1 & w1 & a1 & fl1 & t1 & got1 & c1 & s1 & E1 & Mi1 & An & V1 & Y1 & X1 & _).
      destruct (IH m1 s1 (pe_t2 e) w1 a1 st1 fl1 c1 Mi1 ltac:(destruct X1 as [->|X1]; lia) T2 ltac:(apply V1) ltac:(apply V1) ltac:(apply V1) F)
        as (ops1 & rs & m2 & st2 & w2 & a2 & fl2 & t2 & got2 & c2 & s2 & (ops2 & -> & Pl) & E2 & Mi2 & Sy & V2 & Y2).
      exists (PtProcess e :: ops1), (@PtOut Re o1 :: rs), m2, st2, w2, a2, fl2, (t1 ++ t2), (got1 ++ got2), c2, s2.
      split; [exists ops2; split; [reflexivity|exact Pl]|]. split; [cbn [pt_run pt_step]; rewrite E1; cbn [bind]; rewrite E2; reflexivity|]. split; [exact Mi2|]. split; [eapply PS_op; eauto|].
      split; [exact (p_moved_then _ _ _ _ _ _ _ _ _ _ _ _ _ _ _ _ _ _ _ _ _ V1 V2)|]. rewrite app_deeds_app, Y1, Y2. reflexivity.
    + destruct (spec dev a o) as [[r a1]|] eqn:Es.
      * destruct (step_chunk so cfg app dev rel K w a st fl c (UApp o) U Fo Fs Ac ltac:(congruence)) as (r0 & st1 & w1 & a1' & fl1 & t1 & got1 & c1 & E1 & S1 & U1 & D1 & Y1 & C1 & R1 & F1 & A1).
        cbn [up_step] in E1. apply bind_inv in E1 as ([r1 w1'] & E1 & X). injection X as <- <- <-.
        destruct (IH m s now w1' a1' st fl1 c1 Mi Na Ti U1 F1 A1 F) as (ops1 & rs & m2 & st2 & w2 & a2 & fl2 & t2 & got2 & c2 & s2 & (ops2 & -> & Pl) & E2 & Mi2 & Sy & V2 & Y2).
        exists (PtApp o :: ops1), (PtRApp r1 :: rs), m2, st2, w2, a2, fl2, (t1 ++ t2), (got1 ++ got2), c2, s2.
        split; [exists ops2; split; [reflexivity|exact Pl]|]. split; [cbn [pt_run pt_step]; rewrite E1; cbn [bind]; rewrite E2; reflexivity|]. split; [exact Mi2|]. split; [apply PS_app; exact Sy|].
        split; [|rewrite app_deeds_app, Y1, Y2; reflexivity].
        destruct V2 as (Q1 & Q2 & Q3 & (new & Q4 & Q5) & Q6 & Q7 & Q8). split; [exact Q1|]. split; [eapply deeds_app; eauto|]. split; [exact Q3|].
        split; [exists new; split; [exact Q4|]; change new with ([] ++ new); eapply SinkProofs.cloud_app; [|exact Q5]; cbn in C1; exact C1|].
        split; [rewrite sent_app; apply received_app; assumption|]. auto.
      * exists [], [], m, st, w, a, fl, [], [], c, s. split; [exists (PtApp o :: ops); split; [reflexivity|right; eauto]|]. split; [reflexivity|]. split; [exact Mi|]. split; [constructor|]. split; [now apply p_still|reflexivity].
Qed.

Theorem p_accounts w a ops : rel None w a -> Forall (p_fine (fine dev)) ops -> in_time 0 ops ->
  exists ops1 rs m st w' a' t cs got k s, p_played dev ops ops1 a' /\ pt_run so cfg app pt_boot w pk_init ops1 = Some (rs, m, st, w') /\
    deeds dev a t a' /\ app_deeds t = p_calls ops1 rs /\ p_story p_start ops1 rs s /\
    stand_for (texts (p_outs rs)) cs /\ cloud None cs = (k, got) /\ received cfg got (sent t) /\
    forall e, s_conn s = true -> p_mem_ok e -> p_size_ok (pe_max e) -> 1000 <= pe_t1 e - s_at s < 2 ^ 32 -> pe_mem e <> None ->
      exists o m2 st2 w2 a2 t2, pt_step so cfg app m w' st (PtProcess e) = Some (PtOut o, m2, st2, w2) /\ deeds dev a' t2 a2 /\
        ((exists x, In (PPublish x (pe_pub e)) o) \/ forall s, enabled (pk_mask st) s = true -> offer dev s a2 = None).
Proof.
  intros R F Ti. destruct (p_general ops pt_boot p_start 0 w a pk_init None None (conj eq_refl eq_refl) (Z.le_refl 0) Ti (uinv_boot _ _ _ _ _ K w a R) Logic.I Logic.I F)
    as (ops1 & rs & m & st & w' & a' & fl & t & got & c & s & P & E & Mi & Sy & (U & D & Mk & (cs & V & C) & Rc & Fs & Ac) & Y).
  exists ops1, rs, m, st, w', a', t, cs, got, c, s. split; [exact P|]. split; [exact E|]. split; [exact D|]. split; [exact Y|]. split; [exact Sy|].
  split; [exact V|]. split; [exact C|]. split; [exact Rc|]. intros e S1 Me Ze Te E2.
  destruct (process_ok e m s w' a' st fl c Mi Me Ze ltac:(lia) U Fs Ac) as (m1 & o1 & st1 & w1 & a1 & fl1 & t1 & got1 & c1 & s1 & E1 & Mi1 & An & V1 & Y1 & X1 & Z1).
  exists o1, m1, st1, w1, a1, t1. split; [cbn [pt_step]; rewrite E1; reflexivity|]. split; [apply V1|]. apply Z1; assumption.
Qed.
End Particle.
