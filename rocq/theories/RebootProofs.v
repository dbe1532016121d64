From Verif Require Import Base Cbor CborSpec CborDoc CborProofs EventStorage EventStorageSpec EventStorageProofs SerializerHelper
  SerializerHelperSpec SerializerHelperProofs SerializerDocs Reboot RebootSpec.

(** The memory [m] (with the magic value) holds what is known. *)
Record holds (m : rinfo) (k : known) : Prop := {
  h_magic : i_magic m = magic;
  h_first : k_first k = if i_reason m =? not_set then None else Some (i_reason m);
  h_pc : k_pc k = i_pc m; h_lr : k_lr k = i_lr m; h_cd : k_cd k = (i_saved m =? 1);
  h_reg : k_reg k = i_reg0 m; h_crashes : k_crashes k mod 256 = i_crashes m;
  h_active : forall i, 0 <= i < 31 -> k_active k i = Z.testbit (i_sessions m) i }.
(** Memory without the magic value: what is known is nothing. *)
Record empty_k (k : known) : Prop := {
  n_first : k_first k = None; n_pc : k_pc k = 0; n_lr : k_lr k = 0; n_cd : k_cd k = false;
  n_reg : k_reg k = 0; n_crashes : k_crashes k = 0; n_active : forall i, k_active k i = false }.
Definition krel (m : rinfo) (k : known) : Prop := i_magic m = magic /\ holds m k \/ i_magic m <> magic /\ empty_k k.

Lemma recall_rel m : rinfo_ok m -> krel m (recall m).
Proof.
  intros H. unfold krel, recall. fold magic. destruct (i_magic m =? magic) eqn:E.
  - left. split; [lia|]. constructor; cbn; try reflexivity; [lia|]. apply Z.mod_small. exact H.
  - right. split; [lia|]. constructor; reflexivity.
Qed.
Lemma fresh_holds k : empty_k k -> holds fresh k.
Proof.
  intros []. constructor; cbn; try assumption; try reflexivity.
  - now rewrite n_crashes0.
  - intros i _. rewrite n_active0. now rewrite Z.testbit_0_l.
Qed.

Record rsim (s : rt) (v : rview) : Prop := {
  rs_up : r_up v = rt_ptr s;
  rs_boot : r_boot v = rt_data s;
  rs_k : krel (rt_mem s) (r_k v);
  rs_reg : r_up v = true -> i_magic (rt_mem s) = magic /\ (k_first (r_k v) = None -> k_reg (r_k v) = 0);
  rs_prior : forall r f, r_boot v = Some (r, f) -> f <> not_set }.

Lemma init_sim m : rinfo_ok m -> rsim (mk_rt false m None) (start m).
Proof.
  intros H. constructor; cbn; try reflexivity; try discriminate. now apply recall_rel.
Qed.

Lemma coi_up s v : rsim s v -> r_up v = true -> check_or_init s = Some s /\ holds (rt_mem s) (r_k v).
Proof.
  intros M U. destruct (rs_reg _ _ M U) as [R _]. split.
  - unfold check_or_init. rewrite <- (rs_up _ _ M), U. cbn. now rewrite R, Z.eqb_refl.
  - destruct (rs_k _ _ M) as [[_ H]|[H _]]; [exact H|contradiction].
Qed.
Lemma coi_down s v : rsim s v -> r_up v = false -> check_or_init s = None.
Proof. intros M U. unfold check_or_init. rewrite <- (rs_up _ _ M), U. reflexivity. Qed.

Lemma first_set m k f : holds m k -> k_first k = Some f -> i_reason m = f /\ f <> not_set.
Proof. intros H E. pose proof (h_first _ _ H) as F. rewrite E in F. destruct (i_reason m =? not_set) eqn:X; [discriminate|]. inv F. lia. Qed.
Lemma first_none m k : holds m k -> k_first k = None -> i_reason m = not_set.
Proof. intros H E. pose proof (h_first _ _ H) as F. rewrite E in F. destruct (i_reason m =? not_set) eqn:X; [lia|discriminate]. Qed.

Lemma u16_not_set r : is_u16 r -> (r =? not_set) = false.
Proof. unfold is_u16, not_set. lia. Qed.

Lemma record_ok s b k r reg : holds (rt_mem s) k -> is_u16 r ->
  exists m, record_event s r reg = mk_rt (rt_ptr s) m (Some (r, or_first k r)) /\ holds m (note k r reg) /\
    (b = true -> i_reg0 m = i_reg0 (rt_mem s)) /\ k_first (note k r reg) <> None /\ or_first k r <> not_set.
Proof.
  intros H R. unfold record_event, or_first, note. pose proof (u16_not_set r R) as NR.
  destruct (k_first k) as [f|] eqn:E.
  - destruct (first_set _ _ _ H E) as [E1 E2]. rewrite E1. replace (f =? not_set) with false by lia. cbn [negb].
    eexists. split; [reflexivity|]. split; [exact H|]. split; [reflexivity|]. split; [rewrite E; discriminate|exact E2].
  - rewrite (first_none _ _ H E). rewrite Z.eqb_refl. cbn [negb].
    destruct reg as [[pc lr]|]; (eexists; split; [reflexivity|]; split; [|split; [reflexivity|split; [discriminate|lia]]]);
      destruct H; constructor; cbn; try assumption; try reflexivity; now rewrite NR.
Qed.

Lemma u8_mod x : u8 x = x mod 256. Proof. reflexivity. Qed.

Lemma boot_ok s v load info : rsim s v ->
  match load with Some m => rinfo_ok m | None => True end ->
  match info with Some (r, _) => is_u16 r | None => True end ->
  rsim (rt_boot s true load info) (boot v load info).
Proof.
  intros M HL HI. unfold rt_boot. cbn [negb].
  set (s1 := match load with Some m => set_mem (mk_rt true (rt_mem s) (rt_data s)) m | None => mk_rt true (rt_mem s) (rt_data s) end).
  set (k1 := match load with Some m => recall m | None => r_k v end).
  assert (K1 : krel (rt_mem s1) k1 /\ rt_ptr s1 = true).
  { subst s1 k1. destruct load as [m|]; cbn; split; try reflexivity; [now apply recall_rel|exact (rs_k _ _ M)]. }
  destruct K1 as [K1 P1].
  assert (C : exists s2, check_or_init s1 = Some s2 /\ rt_ptr s2 = true /\ holds (rt_mem s2) k1).
  { unfold check_or_init. rewrite P1; cbn [negb]. destruct (i_magic (rt_mem s1) =? magic) eqn:E.
    - exists s1. split; [reflexivity|split; [exact P1|]]. destruct K1 as [[_ H]|[H _]]; [exact H|lia].
    - exists (set_mem s1 fresh). split; [reflexivity|split; [exact P1|]]. destruct K1 as [[H _]|[_ H]]; [lia|]. now apply fresh_holds. }
  destruct C as (s2 & C & P2 & H2). rewrite C. clear C.
  unfold boot. fold k1. clearbody s1 k1.
  set (k2 := match info with Some (_, reg) => with_reg k1 reg | None => k1 end).
  set (reason := match info with Some (r, _) => r | None => 0 end).
  set (m2 := match info with None => rt_mem s2 | Some (_, reg) =>
     mk_rin (i_magic (rt_mem s2)) (i_version (rt_mem s2)) (i_crashes (rt_mem s2)) (i_saved (rt_mem s2)) (i_reason (rt_mem s2)) (i_pc (rt_mem s2)) (i_lr (rt_mem s2)) reg (i_sessions (rt_mem s2)) end).
  replace (match info with None => (0, rt_mem s2) | Some (reason0, reg) =>
     (reason0, mk_rin (i_magic (rt_mem s2)) (i_version (rt_mem s2)) (i_crashes (rt_mem s2)) (i_saved (rt_mem s2)) (i_reason (rt_mem s2)) (i_pc (rt_mem s2)) (i_lr (rt_mem s2)) reg (i_sessions (rt_mem s2))) end)
    with (reason, m2) by (subst reason m2; destruct info as [[? ?]|]; reflexivity).
  assert (HR : is_u16 reason) by (subst reason; destruct info as [[? ?]|]; [exact HI|unfold is_u16; lia]).
  assert (HM : holds m2 k2) by (subst m2 k2; destruct info as [[? ?]|]; [destruct H2; constructor; cbn; (assumption || reflexivity)|exact H2]).
  clearbody m2 k2 reason.
  destruct (record_ok (set_mem s2 m2) true k2 reason None HM HR) as (m3 & E & H3 & _ & F3 & NS). rewrite E. cbn [rt_data rt_ptr set_mem rt_mem].
  assert (U : unexpected (reason, or_first k2 reason) = crash (or_first k2 reason)).
  { unfold unexpected, crash. replace (or_first k2 reason =? not_set) with false by lia. reflexivity. }
  rewrite U. rewrite P2. destruct (crash (or_first k2 reason)); constructor; cbn [r_up r_k r_boot rt_ptr rt_mem rt_data set_mem]; try reflexivity.
  - left. cbn. split; [exact (h_magic _ _ H3)|]. destruct H3. constructor; cbn; try assumption.
    rewrite u8_mod, <- h_crashes0. now rewrite Zplus_mod_idemp_l.
  - intros _. split; [exact (h_magic _ _ H3)|]. intros X. now elim F3.
  - intros r f X. inv X. exact NS.
  - left. split; [exact (h_magic _ _ H3)|exact H3].
  - intros _. split; [exact (h_magic _ _ H3)|]. intros X. now elim F3.
  - intros r f X. inv X. exact NS.
Qed.

Lemma upd_sim s v m k : rsim s v -> r_up v = true -> i_magic m = magic -> holds m k ->
  (k_first k = None -> k_reg k = 0) -> rsim (set_mem s m) (upd v k).
Proof.
  intros M U E H F. constructor; cbn.
  - exact (rs_up _ _ M).
  - exact (rs_boot _ _ M).
  - left. now split.
  - intros _. now split.
  - exact (rs_prior _ _ M).
Qed.

Lemma rt_step_ok s v o r v' : rsim s v -> rt_op_ok o -> rv_step v o = Some (r, v') ->
  exists s', rt_step s o = Some (r, s') /\ rsim s' v'.
Proof.
  intros M K H. destruct o as [mem|addr load info|reason reg| | | | | | | | | |a i| |i]; cbn [rv_step rt_step rt_op_ok] in *.
  - inv H. eexists; split; [reflexivity|]. constructor; cbn; try reflexivity; try discriminate.
    destruct mem as [m|]; [now apply recall_rel|exact (rs_k _ _ M)].
  - inv H. eexists; split; [reflexivity|]. destruct addr; [destruct K; now apply boot_ok|].
    constructor; cbn; try reflexivity; try discriminate; [exact (rs_boot _ _ M)|exact (rs_k _ _ M)|exact (rs_prior _ _ M)].
  - inv H. destruct (r_up v) eqn:U.
    + destruct (coi_up _ _ M U) as [E H]. rewrite E. destruct (record_ok s true _ reason reg H K) as (m & E2 & H2 & _ & F & NS).
      rewrite E2. eexists; split; [reflexivity|]. constructor; cbn; try reflexivity.
      * now rewrite <- (rs_up _ _ M).
      * left. split; [exact (h_magic _ _ H2)|exact H2].
      * intros _. split; [exact (h_magic _ _ H2)|]. intros X. now elim F.
      * intros r0 f X. inv X. exact NS.
    + rewrite (coi_down _ _ M U). eexists; split; [reflexivity|exact M].
  - inv H. destruct (r_up v) eqn:U.
    + destruct (coi_up _ _ M U) as [E H]. rewrite E. eexists; split; [reflexivity|].
      apply upd_sim; [exact M|exact U|exact (h_magic _ _ H)|destruct H; constructor; cbn; (assumption || reflexivity)|].
      exact (proj2 (rs_reg _ _ M U)).
    + rewrite (coi_down _ _ M U). eexists; split; [reflexivity|exact M].
  - inv H. destruct (r_up v') eqn:U.
    + destruct (coi_up _ _ M U) as [E H]. rewrite E. exists s. split; [|exact M]. do 3 f_equal.
      unfold read_info, info_of. destruct (k_first (r_k v')) as [f|] eqn:F.
      * destruct (first_set _ _ _ H F) as [E1 E2]. rewrite E1. replace (f =? not_set) with false by lia. cbn [andb].
        rewrite (h_pc _ _ H), (h_lr _ _ H), (h_reg _ _ H), (h_cd _ _ H). reflexivity.
      * rewrite (first_none _ _ H F), Z.eqb_refl. rewrite <- (h_reg _ _ H), (proj2 (rs_reg _ _ M U) F). reflexivity.
    + rewrite (coi_down _ _ M U). eexists; split; [reflexivity|exact M].
  - inv H. destruct (r_up v) eqn:U.
    + destruct (coi_up _ _ M U) as [E H]. rewrite E. eexists; split; [reflexivity|].
      apply upd_sim; [exact M|exact U|exact (h_magic _ _ H)|destruct H; constructor; cbn; (assumption || reflexivity)|reflexivity].
    + rewrite (coi_down _ _ M U). eexists; split; [reflexivity|exact M].
  - inv H. destruct (r_up v') eqn:U.
    + destruct (coi_up _ _ M U) as [E H]. rewrite E. exists s. rewrite (h_crashes _ _ H). split; [reflexivity|exact M].
    + rewrite (coi_down _ _ M U). eexists; split; [reflexivity|exact M].
  - inv H. destruct (r_up v) eqn:U.
    + destruct (coi_up _ _ M U) as [E H]. rewrite E. eexists; split; [reflexivity|].
      apply upd_sim; [exact M|exact U|exact (h_magic _ _ H)|destruct H; constructor; cbn; (assumption || reflexivity)|].
      exact (proj2 (rs_reg _ _ M U)).
    + rewrite (coi_down _ _ M U). eexists; split; [reflexivity|exact M].
  - inv H. exists s. rewrite (rs_boot _ _ M). split; [reflexivity|exact M].
  - inv H. exists s. split; [|exact M]. rewrite <- (rs_boot _ _ M). destruct (r_boot v') as [[r f]|] eqn:B; [|reflexivity].
    pose proof (rs_prior _ _ M r f B). unfold unexpected, crash. replace (f =? not_set) with false by lia. reflexivity.
  - inv H. eexists; split; [reflexivity|]. constructor; cbn; try reflexivity; try discriminate; [exact (rs_up _ _ M)|exact (rs_k _ _ M)|exact (rs_reg _ _ M)].
  - inv H. exists s. split; [|exact M]. rewrite <- (rs_up _ _ M). destruct (r_up v') eqn:U; [|reflexivity].
    rewrite (proj1 (rs_reg _ _ M U)), Z.eqb_refl. reflexivity.
  - destruct (r_up v) eqn:U.
    + destruct (coi_up _ _ M U) as [E H0]. rewrite E. destruct ((0 <=? i) && (i <? 31)) eqn:EI; [|discriminate]. inv H.
      eexists; split; [reflexivity|]. apply upd_sim; [exact M|exact U|exact (h_magic _ _ H0)| |exact (proj2 (rs_reg _ _ M U))].
      destruct H0. constructor; cbn; try assumption. intros j Hj. rewrite h_active0 by exact Hj. destruct a.
      * rewrite Z.lor_spec, Z.pow2_bits_eqb by lia. rewrite Z.eqb_sym. destruct (i =? j); [now rewrite orb_true_r|now rewrite orb_false_r].
      * rewrite Z.land_spec. unfold u32. rewrite Z.mod_pow2_bits_low by lia. replace (- 2 ^ i - 1) with (Z.lnot (2 ^ i)) by (unfold Z.lnot; lia).
        rewrite Z.lnot_spec by lia. rewrite Z.pow2_bits_eqb by lia. rewrite Z.eqb_sym. destruct (i =? j); [now rewrite andb_false_r|now rewrite andb_true_r].
    + inv H. rewrite (coi_down _ _ M U). eexists; split; [reflexivity|exact M].
  - inv H. destruct (r_up v) eqn:U.
    + destruct (coi_up _ _ M U) as [E H]. rewrite E. eexists; split; [reflexivity|].
      apply upd_sim; [exact M|exact U|exact (h_magic _ _ H)| |exact (proj2 (rs_reg _ _ M U))].
      destruct H; constructor; cbn; try assumption. intros j _. now rewrite Z.testbit_0_l.
    + rewrite (coi_down _ _ M U). eexists; split; [reflexivity|exact M].
  - destruct (r_up v) eqn:U.
    + destruct (coi_up _ _ M U) as [E H0]. rewrite E. destruct ((0 <=? i) && (i <? 31)) eqn:EI; [|discriminate]. inv H.
      exists s. split; [|exact M]. do 3 f_equal. rewrite (h_active _ _ H0) by lia.
      destruct (Z.testbit (i_sessions (rt_mem s)) i) eqn:T.
      * destruct (Z.land (i_sessions (rt_mem s)) (2 ^ i) =? 0) eqn:Z0; [|reflexivity]. apply Z.eqb_eq in Z0.
        assert (X : Z.testbit (Z.land (i_sessions (rt_mem s)) (2 ^ i)) i = true).
        { rewrite Z.land_spec, T, Z.pow2_bits_eqb by lia. now rewrite Z.eqb_refl. }
        rewrite Z0, Z.testbit_0_l in X. discriminate.
      * assert (X : Z.land (i_sessions (rt_mem s)) (2 ^ i) = 0).
        { apply Z.bits_inj'. intros j Hj. rewrite Z.land_spec, Z.pow2_bits_eqb, Z.testbit_0_l by lia.
          destruct (i =? j) eqn:EJ; [|apply andb_false_r]. apply Z.eqb_eq in EJ. subst j. now rewrite T. }
        rewrite X. reflexivity.
    + inv H. rewrite (coi_down _ _ M U). eexists; split; [reflexivity|exact M].
Qed.
Lemma rt_run_ok : forall ops s v rs v', rsim s v -> Forall rt_op_ok ops ->
  rv_run v ops = Some (rs, v') -> exists s', rt_run s ops = Some (rs, s') /\ rsim s' v'.
Proof.
  induction ops as [|o ops IH]; intros s v rs v' M F H; cbn [rv_run rt_run] in *.
  - inv H. eauto.
  - apply bind_inv in H. destruct H as ((r & v1) & E & H). apply bind_inv in H. destruct H as ((rs1 & v2) & E2 & H). inv H.
    destruct (rt_step_ok _ _ _ _ _ M (Forall_inv F) E) as (s1 & E1 & M1). rewrite E1. cbn [bind].
    destruct (IH _ _ _ _ M1 (Forall_inv_tail F) E2) as (s2 & R & M2). rewrite R. cbn [bind]. eauto.
Qed.

(** ** Collecting *)
Lemma rc_step_ok cfg cap env s st v q o r v' q' : senv_ok env -> rsim s v -> ssim cfg cap st q -> rc_op_ok o ->
  rc_spec cfg cap env v q o = Some (r, v', q') ->
  exists s' st', rc_step cfg env s st o = Some (r, s', st') /\ rsim s' v' /\ ssim cfg cap st' q'.
Proof.
  intros HE M Q K H. destruct o as [o|o|]; cbn [rc_spec rc_step rc_op_ok] in *.
  - apply bind_inv in H. destruct H as ((r1 & v1) & E & H). inv H.
    destruct (rt_step_ok _ _ _ _ _ M K E) as (s' & E1 & M1). rewrite E1. cbn [bind]. eauto.
  - apply bind_inv in H. destruct H as ((r1 & q1) & E & H). inv H.
    destruct (sh_step_ok _ _ _ _ _ _ _ Q K E) as (st' & E1 & M1). rewrite E1. cbn [bind]. eauto.
  - unfold rt_collect.
    assert (X : rv_step v TRead = Some (TInfo (if r_up v then info_of (r_k v) else None), v)) by reflexivity.
    destruct (rt_step_ok _ _ TRead _ _ M I X) as (s1 & E1 & M1). rewrite E1. cbn [bind].
    destruct (if r_up v then info_of (r_k v) else None) as [i|] eqn:EI.
    + apply bind_inv in H. destruct H as ((r1 & q1) & E & H).
      destruct (sh_step_ok _ _ _ _ (SEncode (e_reboot env i)) _ _ Q (eok_reboot env i HE) E) as (st1 & E2 & Q1).
      cbn [sh_step] in E2. apply bind_inv in E2. destruct E2 as ((b & st2) & E2 & X2). inv X2. rewrite E2. cbn [bind].
      assert (U : r_up v = true) by (destruct (r_up v); [reflexivity|discriminate]).
      destruct b; inv H; cbn [negb].
      * assert (C : rv_step v TClear = Some (TOk, upd v (consumed (r_k v)))) by (cbn; rewrite U; reflexivity).
        destruct (rt_step_ok _ _ TClear _ _ M1 I C) as (s2 & E3 & M2). rewrite E3. cbn [bind]. eauto.
      * cbn [bind]. eauto.
    + inv H. cbn [bind]. eauto.
Qed.
Lemma rc_run_ok cfg cap env : senv_ok env -> forall ops s st v q rs v' q', rsim s v -> ssim cfg cap st q -> Forall rc_op_ok ops ->
  rc_spec_run cfg cap env v q ops = Some (rs, v', q') ->
  exists s' st', rc_run cfg env s st ops = Some (rs, s', st') /\ rsim s' v' /\ ssim cfg cap st' q'.
Proof.
  intros HE. induction ops as [|o ops IH]; intros s st v q rs v' q' M Q F H; cbn [rc_spec_run rc_run] in *.
  - inv H. eauto.
  - apply bind_inv in H. destruct H as (((r & v1) & q1) & E & H). apply bind_inv in H. destruct H as (((rs1 & v2) & q2) & E2 & H). inv H.
    destruct (rc_step_ok _ _ _ _ _ _ _ _ _ _ _ HE M Q (Forall_inv F) E) as (s1 & st1 & E1 & M1 & Q1). rewrite E1. cbn [bind].
    destruct (IH _ _ _ _ _ _ _ M1 Q1 (Forall_inv_tail F) E2) as (s2 & st2 & R & M2 & Q2). rewrite R. cbn [bind]. eauto.
Qed.
Lemma rc_spec_run_app cfg cap env a : forall b v q, rc_spec_run cfg cap env v q (a ++ b) =
  do x <- rc_spec_run cfg cap env v q a; let '(rs, v, q) := x in
  do y <- rc_spec_run cfg cap env v q b; let '(rs2, v, q) := y in Some (rs ++ rs2, v, q).
Proof.
  induction a as [|o a IH]; intros b v q; cbn [app rc_spec_run].
  - cbn [bind]. destruct (rc_spec_run cfg cap env v q b) as [[[? ?] ?]|]; reflexivity.
  - destruct (rc_spec cfg cap env v q o) as [[[r v1] q1]|]; cbn [bind]; [|reflexivity]. rewrite IH.
    destruct (rc_spec_run cfg cap env v1 q1 a) as [[[r2 v2] q2]|]; cbn [bind]; [|reflexivity].
    destruct (rc_spec_run cfg cap env v2 q2 b) as [[[r3 v3] q3]|]; reflexivity.
Qed.

(** After any history with a reason pending and room for the largest reboot event, collecting puts
    exactly one event in storage, which reads back as the pending reason, and collecting again adds
    nothing. *)
Lemma collect_once cfg storage env m ops rs v q i :
  senv_ok env -> rinfo_ok m -> 0 < zlen storage <= 2147483648 -> Forall rc_op_ok ops ->
  rc_spec_run cfg (zlen storage) env (start m) (mk_ssv (mk_sev [] None 0) 0) ops = Some (rs, v, q) ->
  v_part (q_store q) = None -> 0 <= used (q_store q) ->
  r_up v = true -> info_of (r_k v) = Some i -> reset_ok i ->
  reboot_worst_size env <= 65532 -> used (q_store q) + 2 + reboot_worst_size env <= zlen storage ->
  exists s0 s' st' ev, es_boot storage (zlen storage) = Some (Some s0) /\
    rc_run cfg env (mk_rt false m None) (mk_sh s0 0 0) (ops ++ [CCollect; CTrack TRead; CCollect]) =
      Some (rs ++ [RCollect 0; RTrack (TInfo None); RCollect 0], s', st') /\
    rc_spec_run cfg (zlen storage) env (start m) (mk_ssv (mk_sev [] None 0) 0) (ops ++ [CCollect; CTrack TRead; CCollect]) =
      Some (rs ++ [RCollect 0; RTrack (TInfo None); RCollect 0], upd v (consumed (r_k v)),
            mk_ssv (mk_sev (v_events (q_store q) ++ [ev]) None (v_reading (q_store q))) (q_missed q)) /\
    cbor_read ev = Some (reboot_item env i, []).
Proof.
  intros HE HM HS F H P HU U EI HI HW HR. destruct (sh_boot_ok cfg storage HS) as (s0 & EB & Q0).
  pose proof (reboot_worst env i HE HI) as WC.
  pose proof (doc_encode cfg (zlen storage) q _ _ (runs_reboot env i) (reboot_doc_ok _ _ HE HI) ltac:(lia) HU P ltac:(lia)) as DE.
  replace (used (q_store q) + 2 + doc_size (reboot_doc env i) <=? zlen storage) with true in DE by lia.
  set (ev := ops_bytes (doc_ops (reboot_doc env i))) in *.
  assert (R : rc_spec_run cfg (zlen storage) env (start m) (mk_ssv (mk_sev [] None 0) 0) (ops ++ [CCollect; CTrack TRead; CCollect]) =
      Some (rs ++ [RCollect 0; RTrack (TInfo None); RCollect 0], upd v (consumed (r_k v)),
            mk_ssv (mk_sev (v_events (q_store q) ++ [ev]) None (v_reading (q_store q))) (q_missed q))).
  { rewrite rc_spec_run_app, H. cbn [bind]. cbn [rc_spec_run rc_spec]. rewrite U, EI, DE. cbn [bind upd r_up r_k].
    cbn [rc_spec rv_step bind upd r_up r_k]. rewrite ?U. cbn [rc_spec rv_step bind upd r_up r_k info_of consumed k_first]. rewrite ?U. reflexivity. }
  assert (F2 : Forall rc_op_ok (ops ++ [CCollect; CTrack TRead; CCollect])).
  { apply Forall_app. split; [exact F|]. repeat (apply Forall_cons; [exact I|]). constructor. }
  destruct (rc_run_ok cfg (zlen storage) env HE _ _ _ _ _ _ _ _ (init_sim m HM) Q0 F2 R) as (s' & st' & R2 & _ & _).
  exists s0, s', st', ev. split; [exact EB|]. split; [exact R2|]. split; [exact R|].
  subst ev. pose proof (doc_cbor_read _ [] (reboot_doc_ok _ _ HE HI)) as D. rewrite app_nil_r, reboot_doc_value in D. exact D.
Qed.

(** ** The first reason wins *)
(** Everything but consuming the reason or replacing the memory. *)
Definition keeps (o : rt_op) : Prop :=
  match o with TClear | TReset (Some _) | TBoot _ (Some _) _ => False | _ => True end.
Lemma first_kept f pc lr : forall ops v rs v', k_first (r_k v) = Some f -> k_pc (r_k v) = pc -> k_lr (r_k v) = lr ->
  Forall keeps ops -> rv_run v ops = Some (rs, v') ->
  k_first (r_k v') = Some f /\ k_pc (r_k v') = pc /\ k_lr (r_k v') = lr.
Proof.
  induction ops as [|o ops IH]; intros v rs v' A B C F H; cbn [rv_run] in H.
  - inv H. auto.
  - apply bind_inv in H. destruct H as ((r & v1) & E & H). apply bind_inv in H. destruct H as ((rs1 & v2) & E2 & H). inversion H; subst v2 rs; clear H.
    pose proof (Forall_inv F) as K. apply (IH v1 rs1 v'); try exact E2; try exact (Forall_inv_tail F); clear IH E2 F;
    (destruct o as [mem|addr load info|reason reg| | | | | | | | | |a i| |i]; cbn [rv_step keeps] in *;
     [destruct mem; [contradiction|]
     |destruct load; [contradiction|]; destruct addr; [unfold boot in E; destruct info as [[? ?]|]; destruct (crash _) in E|]
     |destruct (r_up v)|destruct (r_up v)| |contradiction| |destruct (r_up v)| | | | |destruct (r_up v); [destruct ((0 <=? i) && (i <? 31))|]
     |destruct (r_up v)|destruct (r_up v); [destruct ((0 <=? i) && (i <? 31))|]]); inversion E; subst; clear E; cbn;
    unfold note; cbn; rewrite ?A; cbn; first [assumption|reflexivity].
Qed.
Lemma rv_run_app a : forall b v, rv_run v (a ++ b) =
  do x <- rv_run v a; let (rs, v) := x in do y <- rv_run v b; let (rs2, v) := y in Some (rs ++ rs2, v).
Proof.
  induction a as [|o a IH]; intros b v; cbn [app rv_run].
  - cbn [bind]. destruct (rv_run v b) as [[? ?]|]; reflexivity.
  - destruct (rv_step v o) as [[r v1]|]; cbn [bind]; [|reflexivity]. rewrite IH.
    destruct (rv_run v1 a) as [[r2 v2]|]; cbn [bind]; [|reflexivity].
    destruct (rv_run v2 b) as [[r3 v3]|]; reflexivity.
Qed.
Lemma first_wins m before rs v r pc lr between rs2 v2 :
  rinfo_ok m -> Forall rt_op_ok before -> Forall rt_op_ok between -> Forall keeps between -> is_u16 r ->
  rv_run (start m) before = Some (rs, v) -> r_up v = true -> k_first (r_k v) = None ->
  rv_run (mk_rv true (note (r_k v) r (Some (pc, lr))) (Some (r, r))) between = Some (rs2, v2) ->
  exists s' a, rt_run (mk_rt false m None) (before ++ TMark r (Some (pc, lr)) :: between ++ [TRead]) =
    Some (rs ++ TOk :: rs2 ++ [TInfo a], s') /\
    (if r_up v2 then exists reg cd, a = Some (mk_ri r pc lr reg cd) else a = None).
Proof.
  intros HM F1 F2 KP HR R1 U N R2.
  assert (E : rv_run (start m) (before ++ TMark r (Some (pc, lr)) :: between ++ [TRead]) =
    Some (rs ++ TOk :: rs2 ++ [TInfo (if r_up v2 then info_of (r_k v2) else None)], v2)).
  { rewrite rv_run_app, R1. cbn [bind rv_run rv_step]. rewrite U. unfold or_first. rewrite N. cbn [bind].
    rewrite rv_run_app, R2. cbn [bind rv_run rv_step]. reflexivity. }
  assert (F : Forall rt_op_ok (before ++ TMark r (Some (pc, lr)) :: between ++ [TRead])).
  { apply Forall_app. split; [exact F1|]. apply Forall_cons; [exact HR|]. apply Forall_app. split; [exact F2|].
    apply Forall_cons; [exact I|constructor]. }
  destruct (rt_run_ok _ _ _ _ _ (init_sim m HM) F E) as (s' & E' & _).
  exists s', (if r_up v2 then info_of (r_k v2) else None). split; [exact E'|].
  destruct (r_up v2); [|reflexivity].
  destruct (first_kept r pc lr between (mk_rv true (note (r_k v) r (Some (pc, lr))) (Some (r, r))) rs2 v2) as (A & B & C);
    try (cbn; unfold note; rewrite N; reflexivity); try assumption.
  unfold info_of. rewrite A, B, C. eauto.
Qed.

(** ** The crash count *)
Lemma count_ok m ops rs v : rinfo_ok m -> Forall rt_op_ok ops -> rv_run (start m) ops = Some (rs, v) -> r_up v = true ->
  exists s', rt_run (mk_rt false m None) (ops ++ [TCount]) = Some (rs ++ [TNum (k_crashes (r_k v) mod 256)], s').
Proof.
  intros HM F H U.
  assert (E : rv_run (start m) (ops ++ [TCount]) = Some (rs ++ [TNum (k_crashes (r_k v) mod 256)], v)).
  { rewrite rv_run_app, H. cbn. rewrite U. reflexivity. }
  destruct (rt_run_ok _ _ _ _ _ (init_sim m HM) (proj2 (Forall_app rt_op_ok ops [TCount]) (conj F (Forall_cons _ (I : rt_op_ok TCount) (Forall_nil _)))) E) as (s' & E' & _).
  eauto.
Qed.
(** [n] boots in a row with the reason and without collecting. *)
Fixpoint boots (n : nat) (r : Z) : list rt_op :=
  match n with O => [] | S n => TReset None :: TBoot true None (Some (r, 0)) :: boots n r end.

(** ** Session markers *)
Definition leaves_session (i : Z) (o : rt_op) : Prop :=
  match o with TSession _ j => j <> i | TClearSessions | TReset (Some _) | TBoot _ (Some _) _ => False | _ => True end.
Lemma active_kept i b : forall ops v rs v', k_active (r_k v) i = b ->
  Forall (leaves_session i) ops -> rv_run v ops = Some (rs, v') -> k_active (r_k v') i = b.
Proof.
  induction ops as [|o ops IH]; intros v rs v' A F H; cbn [rv_run] in H.
  - inv H. auto.
  - apply bind_inv in H. destruct H as ((r & v1) & E & H). apply bind_inv in H. destruct H as ((rs1 & v2) & E2 & H). inversion H; subst v2 rs; clear H.
    pose proof (Forall_inv F) as K. apply (IH v1 rs1 v'); try exact E2; try exact (Forall_inv_tail F); clear IH E2 F.
    destruct o as [mem|addr load info|reason reg| | | | | | | | | |a j| |j]; cbn [rv_step leaves_session] in *;
     [destruct mem; [contradiction|]
     |destruct load; [contradiction|]; destruct addr; [unfold boot in E; destruct info as [[? ?]|]; destruct (crash _) in E|]
     |destruct (r_up v)|destruct (r_up v)| |destruct (r_up v)| |destruct (r_up v)| | | | |destruct (r_up v); [destruct ((0 <=? j) && (j <? 31))|]
     |contradiction|destruct (r_up v); [destruct ((0 <=? j) && (j <? 31))|]]; inversion E; subst; clear E; cbn;
    unfold note; cbn; try destruct (k_first (r_k v)); try destruct reg as [[? ?]|]; cbn; try reflexivity.
    all: try (destruct (i =? j) eqn:EJ; [lia|reflexivity]).
Qed.
Lemma session_survives m before rs v i a between rs2 v2 :
  rinfo_ok m -> Forall rt_op_ok before -> Forall rt_op_ok between -> Forall (leaves_session i) between -> 0 <= i < 31 ->
  rv_run (start m) before = Some (rs, v) -> r_up v = true ->
  rv_run (upd v (with_active (r_k v) (fun j => if j =? i then a else k_active (r_k v) j))) between = Some (rs2, v2) -> r_up v2 = true ->
  exists s', rt_run (mk_rt false m None) (before ++ TSession a i :: between ++ [TWasActive i]) =
    Some (rs ++ TOk :: rs2 ++ [TBool a], s').
Proof.
  intros HM F1 F2 KP HI R1 U R2 U2.
  assert (AC : k_active (r_k v2) i = a).
  { apply (active_kept i a between _ _ _) with (2 := KP) (3 := R2). cbn. now rewrite Z.eqb_refl. }
  assert (E : rv_run (start m) (before ++ TSession a i :: between ++ [TWasActive i]) = Some (rs ++ TOk :: rs2 ++ [TBool a], v2)).
  { rewrite rv_run_app, R1. cbn [bind rv_run rv_step]. rewrite U. replace ((0 <=? i) && (i <? 31)) with true by lia. cbn [bind].
    rewrite rv_run_app, R2. cbn [bind rv_run rv_step]. rewrite U2, AC. replace ((0 <=? i) && (i <? 31)) with true by lia. reflexivity. }
  assert (F : Forall rt_op_ok (before ++ TSession a i :: between ++ [TWasActive i])).
  { apply Forall_app. split; [exact F1|]. apply Forall_cons; [exact I|]. apply Forall_app. split; [exact F2|].
    apply Forall_cons; [exact I|constructor]. }
  destruct (rt_run_ok _ _ _ _ _ (init_sim m HM) F E) as (s' & E' & _). eauto.
Qed.
