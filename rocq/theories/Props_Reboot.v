(** C28, C29, C48, C49: reboot tracking. *)
From Verif Require Import Base Cbor CborSpec EventStorage EventStorageSpec SerializerHelper SerializerHelperSpec Reboot RebootSpec RebootProofs.

(** C28: any history of resets (with the memory retained or replaced by anything), boots, recorded
    reasons, reads and clears, starting from any memory, answers every call as specified: the reason
    reported is the first one recorded since the last was consumed. *)
Theorem C28_history_is_as_specified : forall ops m rs v, rinfo_ok m -> Forall rt_op_ok ops ->
  rv_run (start m) ops = Some (rs, v) -> exists s', rt_run (mk_rt false m None) ops = Some (rs, s').
Proof. intros ops m rs v HM F H. destruct (rt_run_ok ops _ _ _ _ (init_sim m HM) F H) as (s' & E & _). eauto. Qed.
Print Assumptions C28_history_is_as_specified.
Example C28_case :
  let junk := mk_rin 7 9 200 3 17 18 19 20 21 in
  let ops := [TBoot true None (Some (7, 5)); TRead; TClear; TMark 0x8001 (Some (100, 200)); TSaved;
              TReset None; TMark 2 None; TBoot true None (Some (8, 6)); TMark 3 (Some (1, 2)); TRead; TReason; TUnexpected] in
  exists v, rv_run (start junk) ops =
    Some ([TOk; TInfo (Some (mk_ri 7 0 0 5 0)); TOk; TOk; TOk; TOk; TOk; TOk; TOk; TInfo (Some (mk_ri 0x8001 100 200 6 1));
           TReasons (Some (3, 0x8001)); TBool true], v).
Proof. eexists. vm_compute. reflexivity. Qed.

(** C28: once a reason is recorded with nothing pending, it is the one reported after anything that
    neither consumes it nor loses the memory, together with the registers recorded with it (or
    nothing is reported because tracking is not initialized). *)
Theorem C28_first_reason_wins : forall m before rs v r pc lr between rs2 v2,
  rinfo_ok m -> Forall rt_op_ok before -> Forall rt_op_ok between -> Forall keeps between -> is_u16 r ->
  rv_run (start m) before = Some (rs, v) -> r_up v = true -> k_first (r_k v) = None ->
  rv_run (mk_rv true (note (r_k v) r (Some (pc, lr))) (Some (r, r))) between = Some (rs2, v2) ->
  exists s' a, rt_run (mk_rt false m None) (before ++ TMark r (Some (pc, lr)) :: between ++ [TRead]) =
    Some (rs ++ TOk :: rs2 ++ [TInfo a], s') /\
    (if r_up v2 then exists reg cd, a = Some (mk_ri r pc lr reg cd) else a = None).
Proof. exact first_wins. Qed.
Print Assumptions C28_first_reason_wins.
Example C28_first_case :
  let before := [TBoot true None None; TClear] in
  let between := [TMark 2 None; TReset None; TBoot true None (Some (5, 9))] in
  Forall keeps between /\
  exists rs v rs2 v2, rv_run (start (mk_rin 0 0 0 0 0 0 0 0 0)) before = Some (rs, v) /\ r_up v = true /\ k_first (r_k v) = None /\
    rv_run (mk_rv true (note (r_k v) 0x8001 (Some (1, 2))) (Some (0x8001, 0x8001))) between = Some (rs2, v2) /\ r_up v2 = true.
Proof.
  split; [repeat (apply Forall_cons; [exact I|]); constructor|]. do 4 eexists. repeat (split; [vm_compute; reflexivity|]). vm_compute. reflexivity.
Qed.

(** C29: the crash count is the number of boots with a crash in effect since it was last cleared,
    modulo 256. *)
Theorem C29_crash_count : forall m ops rs v, rinfo_ok m -> Forall rt_op_ok ops ->
  rv_run (start m) ops = Some (rs, v) -> r_up v = true ->
  exists s', rt_run (mk_rt false m None) (ops ++ [TCount]) = Some (rs ++ [TNum (k_crashes (r_k v) mod 256)], s').
Proof. exact count_ok. Qed.
Print Assumptions C29_crash_count.
Example C29_case :
  let ops := [TBoot true None (Some (7, 0)); TClear] ++ boots 3 0x8006 in
  exists rs v, rv_run (start (mk_rin 0 0 0 0 0 0 0 0 0)) ops = Some (rs, v) /\ r_up v = true /\ k_crashes (r_k v) = 3.
Proof. do 2 eexists. split; [vm_compute; reflexivity|split; reflexivity]. Qed.

(** C29 is not the number of crashes: the count wraps after 256 of them. *)
Theorem C29_count_does_not_wrap_refuted : ~ (forall m ops rs v, rinfo_ok m -> Forall rt_op_ok ops ->
  rv_run (start m) ops = Some (rs, v) -> r_up v = true ->
  exists s', rt_run (mk_rt false m None) (ops ++ [TCount]) = Some (rs ++ [TNum (k_crashes (r_k v))], s')).
Proof.
  intros H. specialize (H (mk_rin 0 0 0 0 0 0 0 0 0) (boots 256 0x8006)).
  destruct (rv_run (start (mk_rin 0 0 0 0 0 0 0 0 0)) (boots 256 0x8006)) as [[rs v]|] eqn:E; [|vm_compute in E; discriminate].
  assert (F : Forall rt_op_ok (boots 256 0x8006)).
  { generalize 256%nat. induction n; cbn [boots]; [constructor|]. apply Forall_cons; [exact I|]. apply Forall_cons; [|exact IHn].
    split; [exact I|]. split; [discriminate|reflexivity]. }
  assert (U : r_up v = true /\ k_crashes (r_k v) = 256).
  { assert (X : option_map (fun x => (r_up (snd x), k_crashes (r_k (snd x)))) (rv_run (start (mk_rin 0 0 0 0 0 0 0 0 0)) (boots 256 0x8006)) = Some (true, 256)) by (vm_compute; reflexivity).
    rewrite E in X. injection X as X1 X2. split; assumption. }
  assert (HM : rinfo_ok (mk_rin 0 0 0 0 0 0 0 0 0)) by (split; [discriminate|reflexivity]).
  destruct U as [U C]. destruct (H rs v HM F eq_refl U) as (s' & X). rewrite C in X.
  destruct (C29_crash_count _ _ _ _ HM F E U) as (s2 & Y). rewrite C in Y. rewrite X in Y.
  injection Y as Y _. apply app_inj_tail in Y. destruct Y as [_ Y]. discriminate.
Qed.
Print Assumptions C29_count_does_not_wrap_refuted.

(** C29 does not count crashes only: an expected reboot is counted while an earlier crash has not
    been collected. *)
Theorem C29_expected_reboots_are_not_counted_refuted :
  ~ (forall m ops rs s r reg, rinfo_ok m -> Forall rt_op_ok ops -> is_u16 r -> crash r = false ->
       rt_run (mk_rt false m None) (ops ++ [TCount; TMark r None; TReset None; TBoot true None (Some (r, reg)); TCount]) = Some (rs, s) ->
       exists n rs0, rs = rs0 ++ [TNum n; TOk; TOk; TOk; TNum n]).
Proof.
  intros H.
  specialize (H (mk_rin 0 0 0 0 0 0 0 0 0) [TBoot true None (Some (0x8001, 0))]).
  destruct (rt_run (mk_rt false (mk_rin 0 0 0 0 0 0 0 0 0) None)
    ([TBoot true None (Some (0x8001, 0))] ++ [TCount; TMark 2 None; TReset None; TBoot true None (Some (2, 0)); TCount])) as [[rs s]|] eqn:E; [|vm_compute in E; discriminate].
  destruct (H rs s 2 0) as (n & rs0 & X).
  - split; [discriminate|reflexivity].
  - apply Forall_cons; [split; [exact I|split; [discriminate|reflexivity]]|constructor].
  - split; [discriminate|reflexivity].
  - reflexivity.
  - exact E.
  - vm_compute in E. injection E as E _. subst rs.
    assert (Y : [TOk; TNum 1; TOk; TOk; TOk; TNum 2] = [TOk] ++ [TNum 1; TOk; TOk; TOk; TNum 2]) by reflexivity.
    rewrite Y in X. apply (f_equal (@rev rt_res)) in X. rewrite !rev_app_distr in X. cbn in X. injection X as X1 X2. congruence.
Qed.
Print Assumptions C29_expected_reboots_are_not_counted_refuted.

(** C48: collecting consumes the pending reason exactly when its event is stored; every call of any
    history of tracking, storage and collection is answered as specified. *)
Theorem C48_collect_is_as_specified : forall cfg storage env ops m rs v q,
  senv_ok env -> rinfo_ok m -> 0 < zlen storage <= 2147483648 -> Forall rc_op_ok ops ->
  rc_spec_run cfg (zlen storage) env (start m) (mk_ssv (mk_sev [] None 0) 0) ops = Some (rs, v, q) ->
  exists s0 s' st', es_boot storage (zlen storage) = Some (Some s0) /\
    rc_run cfg env (mk_rt false m None) (mk_sh s0 0 0) ops = Some (rs, s', st').
Proof.
  intros cfg storage env ops m rs v q HE HM HS F H.
  destruct (SerializerHelperProofs.sh_boot_ok cfg storage HS) as (s0 & EB & Q0).
  destruct (rc_run_ok cfg (zlen storage) env HE ops _ _ _ _ _ _ _ (init_sim m HM) Q0 F H) as (s' & st' & R & _).
  exists s0, s', st'. split; assumption.
Qed.
Print Assumptions C48_collect_is_as_specified.

(** C48: with a reason pending and room for the largest reboot event, collecting adds one event that
    decodes to the pending reason with its registers; reading then finds nothing and collecting again
    adds nothing. *)
Theorem C48_reported_exactly_once : forall cfg storage env m ops rs v q i,
  senv_ok env -> rinfo_ok m -> 0 < zlen storage <= 2147483648 -> Forall rc_op_ok ops ->
  rc_spec_run cfg (zlen storage) env (start m) (mk_ssv (mk_sev [] None 0) 0) ops = Some (rs, v, q) ->
  v_part (q_store q) = None -> 0 <= used (q_store q) ->
  r_up v = true -> info_of (r_k v) = Some i -> reset_ok i ->
  reboot_worst_size env <= 65532 -> used (q_store q) + 2 + reboot_worst_size env <= zlen storage ->
  exists s0 s' st' ev, es_boot storage (zlen storage) = Some (Some s0) /\
    rc_run cfg env (mk_rt false m None) (mk_sh s0 0 0) (ops ++ [CCollect; CTrack TRead; CCollect]) =
      Some (rs ++ [RCollect 0; RTrack (TInfo None); RCollect 0], s', st') /\
    rc_spec_run cfg (zlen storage) env (start m) (mk_ssv (mk_sev [] None 0) 0) (ops ++ [CCollect; CTrack TRead; CCollect]) =
      Some (rs ++ [RCollect 0; RTrack (TInfo None); RCollect 0], upd v (consumed (r_k v)),
            mk_ssv (mk_sev (v_events (q_store q) ++ [ev]) None (v_reading (q_store q))) (q_missed q)) /\
    cbor_read ev = Some (reboot_item env i, []).
Proof. exact collect_once. Qed.
Print Assumptions C48_reported_exactly_once.
Example C48_case :
  let env := mk_senv [] [109; 97; 105; 110] [49; 46; 48] [100; 118; 116] false None 6 (Some 1700000000) in
  let cfg : es_cfg := None in
  let m := mk_rin 0 0 0 0 0 0 0 0 0 in
  let ops := [CTrack (TBoot true None None); CTrack TClear; CTrack (TMark 0x8001 (Some (100, 200))); CTrack (TReset None);
              CTrack (TBoot true None (Some (8, 3)))] in
  senv_ok env /\ Forall rc_op_ok ops /\ reboot_worst_size env <= 65532 /\
  exists rs v q, rc_spec_run cfg 200 env (start m) (mk_ssv (mk_sev [] None 0) 0) ops = Some (rs, v, q) /\
    v_part (q_store q) = None /\ used (q_store q) + 2 + reboot_worst_size env <= 200 /\
    r_up v = true /\ info_of (r_k v) = Some (mk_ri 0x8001 100 200 3 0).
Proof.
  cbv zeta. split; [|split; [|split]].
  - unfold senv_ok; cbn. split; [|split; [lia|split; [exact I|lia]]].
    repeat (apply Forall_cons; [split; [repeat (apply Forall_cons; [unfold is_u8; lia|]); constructor|reflexivity]|]). constructor.
  - repeat (apply Forall_cons; [cbn; try exact I; try (split; [exact I|]); try exact I; unfold is_u16; lia|]). constructor.
  - vm_compute. discriminate.
  - do 3 eexists. split; [vm_compute; reflexivity|]. split; [reflexivity|]. split; [vm_compute; discriminate|]. split; reflexivity.
Qed.

(** C49: whether a metrics session was active survives any reset that retains the memory, whatever
    happens to other sessions and to the reboot reason. *)
Theorem C49_session_marker_survives : forall m before rs v i a between rs2 v2,
  rinfo_ok m -> Forall rt_op_ok before -> Forall rt_op_ok between -> Forall (leaves_session i) between -> 0 <= i < 31 ->
  rv_run (start m) before = Some (rs, v) -> r_up v = true ->
  rv_run (upd v (with_active (r_k v) (fun j => if j =? i then a else k_active (r_k v) j))) between = Some (rs2, v2) -> r_up v2 = true ->
  exists s', rt_run (mk_rt false m None) (before ++ TSession a i :: between ++ [TWasActive i]) =
    Some (rs ++ TOk :: rs2 ++ [TBool a], s').
Proof. exact session_survives. Qed.
Print Assumptions C49_session_marker_survives.
Example C49_case :
  let before := [TBoot true None None; TSession true 3] in
  let between := [TSession false 3; TClear; TReset None; TBoot true None (Some (5, 9))] in
  Forall (leaves_session 4) between /\
  exists rs v rs2 v2, rv_run (start (mk_rin 0 0 0 0 0 0 0 0 0)) before = Some (rs, v) /\ r_up v = true /\
    rv_run (upd v (with_active (r_k v) (fun j => if j =? 4 then true else k_active (r_k v) j))) between = Some (rs2, v2) /\ r_up v2 = true /\
    k_active (r_k v2) 3 = false /\ k_active (r_k v2) 4 = true.
Proof.
  split; [repeat (apply Forall_cons; [first [exact I|discriminate]|]); constructor|]. do 4 eexists. repeat (split; [vm_compute; reflexivity|]). vm_compute. reflexivity.
Qed.
