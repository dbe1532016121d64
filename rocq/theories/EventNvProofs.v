From Coq Require Import Permutation.
From Verif Require Import Base CircularBuffer EventStorage EventStorageSpec EventStorageProofs EventNv EventNvSpec.

Lemma sum_nonneg l : Forall (fun n => 0 <= n) l -> 0 <= sum l.
Proof. induction 1; cbn [sum fold_right]; [lia|]. fold (sum l). lia. Qed.
Lemma pull_ok cfg cap s v : esim cfg cap s v -> forall ps off, Forall (fun n => 0 <= n) ps -> 0 <= off -> off + sum ps < 4294967296 ->
  off <= zlen (message cfg (v_events v) (v_reading v)) ->
  nv_pull s off ps = Some (if off + sum ps <=? zlen (message cfg (v_events v) (v_reading v))
                           then Some (take (sum ps) (drop off (message cfg (v_events v) (v_reading v)))) else None).
Proof.
  intros M. set (m := message cfg (v_events v) (v_reading v)). induction ps as [|n r IH]; intros off P O B L.
  - cbn [nv_pull sum fold_right]. rewrite Z.add_0_r. replace (off <=? zlen m) with true by lia. reflexivity.
  - cbn [nv_pull sum fold_right] in *. fold (sum r) in *. pose proof (Forall_inv P) as N. cbv beta in N. pose proof (Forall_inv_tail P) as PR.
    pose proof (sum_nonneg r PR) as SN. rewrite (es_read_ok cfg cap s v off n M) by lia. cbn [bind]. fold m.
    destruct (off + n <=? zlen m) eqn:E.
    + rewrite u32_in by lia. rewrite IH by (try assumption; lia). cbn [bind]. f_equal.
      replace (off + n + sum r <=? zlen m) with (off + (n + sum r) <=? zlen m) by (now rewrite Z.add_assoc).
      destruct (off + (n + sum r) <=? zlen m); [|reflexivity]. f_equal. rewrite take_plus by lia. rewrite drop_drop by assumption. now rewrite (Z.add_comm n off).
    + f_equal. replace (off + (n + sum r) <=? zlen m) with false by lia. reflexivity.
Qed.
Lemma take_group cfg l k : 0 <= k <= zlen l -> group_msg cfg (take k l) = message cfg l k.
Proof.
  intros H. unfold group_msg, message. rewrite zlen_take. replace (Z.min (Z.max 0 k) (zlen l)) with k by lia.
  rewrite take_take. now rewrite Z.min_id.
Qed.
Lemma offered_bounds cfg cap s v : esim cfg cap s v -> 0 <= offered cfg v <= zlen (v_events v).
Proof.
  intros M. pose proof (m_k _ _ _ _ M). unfold offered. destruct (v_reading v =? 0); [|tauto]. exact (proj1 (batch_bounds cfg (v_events v))).
Qed.

Definition nsim (cfg : es_cfg) (cap : Z) (s : nvs) (w : nvv) : Prop :=
  esim cfg cap (n_es s) (w_ram w) /\ n_q s = map (group_msg cfg) (w_nv w) /\ n_on s = w_on w /\ n_seen s = w_was w.

Lemma has_offered cfg cap s v : esim cfg cap s v -> exists s',
  es_has cfg s = Some (1 <=? offered cfg v, zlen (message cfg (v_events v) (offered cfg v)), s') /\ esim cfg cap s' (reading v (offered cfg v)).
Proof. intros M. exact (es_has_ok cfg cap s v M). Qed.
Lemma mark_sim cfg cap s v : esim cfg cap s v -> esim cfg cap (es_mark s) (mk_sev (drop (v_reading v) (v_events v)) (v_part v) 0).
Proof.
  intros M. destruct (es_step_ok cfg cap s v EMark RUnit _ M I eq_refl) as (s' & E & M'). cbn [es_step] in E. injection E as <-. exact M'.
Qed.
Lemma move_ok cfg cap : forall ws s v nv n, esim cfg cap s v -> Forall (fun w => Forall (fun n => 0 <= n) (fst w) /\ sum (fst w) < 4294967296) ws ->
  exists s' nv' v' n', move cfg ws nv v n = (n', nv', v') /\ esim cfg cap s' v' /\
    nv_save_all cfg ws s (map (group_msg cfg) nv) n = Some (n', s', map (group_msg cfg) nv').
Proof.
  induction ws as [|(ps & ok) r IH]; intros s v nv n M F; pose proof (offered_bounds _ _ _ _ M) as OB; destruct (has_offered _ _ _ _ M) as (s1 & H1 & M1);
    cbn [move nv_save_all]; rewrite H1; cbn [bind].
  - destruct (offered cfg v =? 0) eqn:Z0; replace (1 <=? offered cfg v) with (negb (offered cfg v =? 0)) by lia; rewrite Z0; cbn [negb].
    + exists s1, nv, v, n. split; [reflexivity|]. split; [|reflexivity]. assert (EV : reading v (offered cfg v) = v).
      { unfold offered in *. destruct (v_reading v =? 0) eqn:R0; destruct v as [e p k]; cbn in *; unfold reading; cbn; f_equal; lia. }
      rewrite EV in M1. exact M1.
    + exists s1, nv, (reading v (offered cfg v)), n. split; [reflexivity|]. split; [exact M1|reflexivity].
  - destruct (offered cfg v =? 0) eqn:Z0; replace (1 <=? offered cfg v) with (negb (offered cfg v =? 0)) by lia; rewrite Z0; cbn [negb].
    + exists s1, nv, v, n. split; [reflexivity|]. split; [|reflexivity]. assert (EV : reading v (offered cfg v) = v).
      { unfold offered in *. destruct (v_reading v =? 0) eqn:R0; destruct v as [e p k]; cbn in *; unfold reading; cbn; f_equal; lia. }
      rewrite EV in M1. exact M1.
    + pose proof (Forall_inv F) as (FP & FS). cbn [fst] in *. unfold nv_write. cbn [fst snd].
      set (k := offered cfg v) in *. set (m := message cfg (v_events v) k) in *.
      rewrite (pull_ok cfg cap s1 _ M1 ps 0 FP) by (try lia; apply zlen_nonneg). cbn [reading v_events v_reading]. fold m. cbn [bind].
      pose proof (sum_nonneg ps FP) as SN. rewrite Z.add_0_l.
      destruct (sum ps <=? zlen m) eqn:LE.
      * replace (drop 0 m) with m by reflexivity. rewrite zlen_take. replace (Z.min (Z.max 0 (sum ps)) (zlen m)) with (sum ps) by lia.
        destruct (ok && (sum ps =? zlen m)) eqn:OK.
        -- apply andb_true_iff in OK. destruct OK as (-> & EQ). cbn [bind]. rewrite (take_all (sum ps) m) by lia.
           destruct (IH (es_mark s1) (mk_sev (drop k (v_events v)) (v_part v) 0) (nv ++ [take k (v_events v)]) (n + 1)) as (s2 & nv' & v' & n' & E1 & M2 & E2).
           ++ exact (mark_sim _ _ _ _ M1).
           ++ exact (Forall_inv_tail F).
           ++ exists s2, nv', v', n'. split; [exact E1|]. split; [exact M2|]. rewrite map_app in E2. cbn [map] in E2. rewrite take_group in E2 by exact OB.
              fold m in E2. exact E2.
        -- cbn [bind]. exists s1, nv, (reading v k), n. split; [reflexivity|]. split; [exact M1|reflexivity].
      * cbn [bind]. replace (sum ps =? zlen m) with false by lia. rewrite andb_false_r. exists s1, nv, (reading v k), n. split; [reflexivity|]. split; [exact M1|reflexivity].
Qed.

Lemma reading_reset cfg cap s v : esim cfg cap s v -> esim cfg cap (set_r s 0 0 []) (reading v 0).
Proof.
  intros []. constructor; cbn; try assumption; try reflexivity.
  - pose proof (zlen_nonneg (v_events v)). lia.
  - now rewrite hdr_of_0.
Qed.
Lemma look_ok cfg cap s w : nsim cfg cap s w -> exists s', nv_enabled s = (w_on w, s') /\ nsim cfg cap s' (look w) /\ n_on s' = w_on w.
Proof.
  intros (M & Q & ON & WAS). unfold nv_enabled. rewrite ON, WAS. eexists. split; [reflexivity|]. split; [|reflexivity].
  split; [|split; [exact Q|split; reflexivity]]. cbn [n_es look w_ram]. destruct (w_was w && negb (w_on w)); [apply reading_reset|]; exact M.
Qed.

Lemma nv_step_ok cfg cap s w o r w' : 0 < cap <= 2147483648 -> nsim cfg cap s w -> nv_ok cap o -> nvv_step cfg cap w o = Some (r, w') ->
  exists s', nv_step cfg s o = Some (r, s') /\ nsim cfg cap s' w'.
Proof.
  intros C S0 O H. destruct o as [o| |off n| |ws|on|storage]; cbn [nvv_step nv_step nv_ok] in *.
  - destruct (is_reader o) eqn:RD; [discriminate|]. destruct S0 as (M & Q & ON & WAS).
    destruct (sev_step cfg cap (w_ram w) o) as [(x & v)|] eqn:E; [|discriminate]. cbn [bind] in H. injection H as <- <-.
    destruct (es_step_ok _ _ _ _ _ _ _ M O E) as (e & F & M'). rewrite F. cbn [bind].
    exists (mk_nvs e (n_q s) (n_on s) (n_seen s)). split.
    + f_equal. f_equal. f_equal. destruct o; try reflexivity. destruct rollback; [reflexivity|]. pose proof (m_wip _ _ _ _ M) as W.
      destruct (v_part (w_ram w)); [now destruct W|exact W].
    + split; [exact M'|]. split; [exact Q|]. split; assumption.
  - destruct (look_ok _ _ _ _ S0) as (s1 & E & S1 & ON1). rewrite E. destruct S1 as (M & Q & ON & WAS).
    change (w_on (look w)) with (w_on w) in H. change (w_nv (look w)) with (w_nv w) in *. assert (W : w_on w = true \/ w_on w = false) by (destruct (w_on w); auto).
    pose proof ON as ON2. pose proof WAS as WAS2. cbn [look w_on w_was] in ON2, WAS2. destruct W as [W|W]; rewrite W in H, ON2, WAS2 |- *.
    + injection H as <- <-. rewrite Q. exists s1. split; [|split; [exact M|split; [exact Q|split; assumption]]]. destruct (w_nv w); reflexivity.
    + injection H as <- <-. destruct (has_offered _ _ _ _ M) as (e & F & M'). rewrite F. cbn [bind].
      exists (mk_nvs e (n_q s1) (n_on s1) (n_seen s1)). split; [reflexivity|]. split; [exact M'|split; [exact Q|]]. split; assumption.
  - destruct (look_ok _ _ _ _ S0) as (s1 & E & S1 & ON1). rewrite E. destruct S1 as (M & Q & ON & WAS).
    destruct ((0 <=? off) && (0 <=? n) && (off + n <? 4294967296)) eqn:B; [|discriminate].
    change (w_on (look w)) with (w_on w) in H. change (w_nv (look w)) with (w_nv w) in *. assert (W : w_on w = true \/ w_on w = false) by (destruct (w_on w); auto).
    pose proof ON as ON2. pose proof WAS as WAS2. cbn [look w_on w_was] in ON2, WAS2. destruct W as [W|W]; rewrite W in H, ON2, WAS2 |- *.
    + injection H as <- <-. rewrite Q. exists s1. split; [|split; [exact M|split; [exact Q|split; assumption]]].
      destruct (w_nv w) as [|g gs]; cbn [map andb negb]; [now rewrite andb_false_r|]. rewrite andb_true_r.
      destruct (off + n <=? zlen (group_msg cfg g)) eqn:L; [|reflexivity]. rewrite read_at_some by lia. reflexivity.
    + injection H as <- <-. rewrite (es_read_ok _ _ _ _ _ _ M) by lia. cbn [bind andb negb]. rewrite andb_true_r.
      exists s1. split; [reflexivity|]. split; [exact M|split; [exact Q|split; assumption]].
  - destruct (look_ok _ _ _ _ S0) as (s1 & E & S1 & ON1). rewrite E. destruct S1 as (M & Q & ON & WAS).
    change (w_on (look w)) with (w_on w) in H. change (w_nv (look w)) with (w_nv w) in *. assert (W : w_on w = true \/ w_on w = false) by (destruct (w_on w); auto).
    pose proof ON as ON2. pose proof WAS as WAS2. cbn [look w_on w_was] in ON2, WAS2. destruct W as [W|W]; rewrite W in H, ON2, WAS2 |- *.
    + injection H as <- <-. destruct (has_offered _ _ _ _ M) as (e & F & M'). rewrite F. cbn [bind].
      exists (mk_nvs e (tl (n_q s1)) (n_on s1) (n_seen s1)). split; [reflexivity|]. split; [exact M'|]. split; [|split; assumption].
      cbn [n_q w_nv]. rewrite Q. destruct (w_nv w); reflexivity.
    + injection H as <- <-. exists (mk_nvs (es_mark (n_es s1)) (n_q s1) (n_on s1) (n_seen s1)). split; [reflexivity|].
      split; [exact (mark_sim _ _ _ _ M)|]. split; [exact Q|]. split; assumption.
  - destruct (look_ok _ _ _ _ S0) as (s1 & E & S1 & ON1). rewrite E. destruct S1 as (M & Q & ON & WAS).
    change (w_on (look w)) with (w_on w) in H. change (w_nv (look w)) with (w_nv w) in *. assert (W : w_on w = true \/ w_on w = false) by (destruct (w_on w); auto).
    pose proof ON as ON2. pose proof WAS as WAS2. cbn [look w_on w_was] in ON2, WAS2. destruct W as [W|W]; rewrite W in H, ON2, WAS2 |- *.
    + destruct (move_ok cfg cap ws (n_es s1) (w_ram (look w)) (w_nv w) 0 M O) as (e & nv' & v' & n' & E1 & M2 & E2). rewrite E1 in H.
      injection H as <- <-. rewrite Q, E2. cbn [bind]. exists (mk_nvs e (map (group_msg cfg) nv') (n_on s1) (n_seen s1)). split; [reflexivity|].
      split; [exact M2|]. split; [reflexivity|split; assumption].
    + injection H as <- <-. exists s1. split; [reflexivity|]. split; [exact M|split; [exact Q|split; assumption]].
  - destruct (_ && _) in H; [discriminate|]. injection H as <- <-. eexists. split; [reflexivity|]. destruct S0 as (M & Q & ON & WAS).
    split; [exact M|split; [exact Q|split; [reflexivity|exact WAS]]].
  - injection H as <- <-. destruct (es_boot_ok cfg storage ltac:(rewrite O; exact C)) as (e & E & M). rewrite E. cbn [bind]. rewrite O in M.
    exists (mk_nvs e (n_q s) (n_on s) false). split; [reflexivity|]. destruct S0 as (_ & Q & ON & WAS). split; [exact M|split; [exact Q|split; [exact ON|reflexivity]]].
Qed.
Lemma nv_run_ok cfg cap : 0 < cap <= 2147483648 -> forall ops s w rs w', nsim cfg cap s w -> Forall (nv_ok cap) ops -> nvv_run cfg cap w ops = Some (rs, w') ->
  exists s', nv_run cfg s ops = Some (rs, s') /\ nsim cfg cap s' w'.
Proof.
  intros C. induction ops as [|o r IH]; intros s w rs w' S0 O H; cbn [nvv_run nv_run] in *.
  - injection H as <- <-. exists s. split; [reflexivity|exact S0].
  - destruct (nvv_step cfg cap w o) as [(x & w1)|] eqn:E; [|discriminate]. cbn [bind fst snd] in H.
    destruct (nvv_run cfg cap w1 r) as [(y & w2)|] eqn:E2; [|discriminate]. cbn [bind fst snd] in H. injection H as <- <-.
    destruct (nv_step_ok _ _ _ _ _ _ _ C S0 (Forall_inv O) E) as (s1 & F1 & S1). rewrite F1. cbn [bind fst snd].
    destruct (IH _ _ _ _ S1 (Forall_inv_tail O) E2) as (s2 & F2 & S2). rewrite F2. exists s2. split; [reflexivity|exact S2].
Qed.
Lemma nv_boot_ok cfg storage nv on : 0 < zlen storage <= 2147483648 ->
  exists s, nv_boot storage (map (group_msg cfg) nv) on = Some s /\ nsim cfg (zlen storage) s (nvv_boot nv on).
Proof.
  intros C. destruct (es_boot_ok cfg storage C) as (e & E & M). unfold nv_boot. rewrite E. cbn [bind]. eexists. split; [reflexivity|].
  split; [exact M|]. split; [reflexivity|split; reflexivity].
Qed.
Theorem nv_refines cfg storage nv on ops rs w : 0 < zlen storage <= 2147483648 -> Forall (nv_ok (zlen storage)) ops ->
  nvv_run cfg (zlen storage) (nvv_boot nv on) ops = Some (rs, w) ->
  exists s s', nv_boot storage (map (group_msg cfg) nv) on = Some s /\ nv_run cfg s ops = Some (rs, s').
Proof.
  intros C O H. destruct (nv_boot_ok cfg storage nv on C) as (s & E & M). destruct (nv_run_ok _ _ C _ _ _ _ _ M O H) as (s' & F & _).
  exists s, s'. split; assumption.
Qed.

(** ** What becomes of every event *)
Lemma move_held cfg : forall ws nv v n n' nv' v', move cfg ws nv v n = (n', nv', v') ->
  concat nv' ++ v_events v' = concat nv ++ v_events v /\ v_part v' = v_part v.
Proof.
  induction ws as [|(ps & ok) r IH]; intros nv v n n' nv' v' H; cbn [move] in H.
  - destruct (offered cfg v =? 0); injection H as <- <- <-; split; reflexivity.
  - destruct (offered cfg v =? 0); [injection H as <- <- <-; split; reflexivity|].
    destruct (ok && _); [|injection H as <- <- <-; split; reflexivity].
    apply IH in H. cbn [v_events v_part] in H. destruct H as (H & P). split; [|exact P]. rewrite H, concat_app. cbn [concat]. rewrite app_nil_r, <- app_assoc.
    f_equal. apply take_drop.
Qed.
Lemma sev_writer cfg cap v o x v' : is_reader o = false -> sev_step cfg cap v o = Some (x, v') ->
  v_events v' = v_events v ++ match o, v_part v with EFinish false, Some p => [p] | _, _ => [] end.
Proof.
  intros R H. destruct o; cbn [is_reader sev_step] in *; try discriminate R.
  - destruct (v_part v); [injection H as <- <-; now rewrite app_nil_r|]. destruct (_ <=? _); injection H as <- <-; cbn; now rewrite app_nil_r.
  - destruct (v_part v); [|discriminate]. destruct (_ <=? _); injection H as <- <-; cbn; now rewrite app_nil_r.
  - destruct (v_part v) as [p|]; [|injection H as <- <-; destruct rollback; now rewrite app_nil_r]. destruct rollback; [injection H as <- <-; cbn; now rewrite app_nil_r|].
    destruct (_ && _); [|discriminate]. injection H as <- <-. reflexivity.
  - injection H as <- <-. now rewrite app_nil_r.
  - injection H as <- <-. now rewrite app_nil_r.
Qed.
Lemma look_held w : held (look w) = held w.
Proof. unfold held, look. cbn. destruct (w_was w && negb (w_on w)); reflexivity. Qed.
Lemma held_step cfg cap w o r w' : nvv_step cfg cap w o = Some (r, w') ->
  Permutation (held w ++ went_in w o) (came_out w o ++ held w' ++ lost w o) /\
  ((forall on, o <> NPort on) -> (forall st, o <> NReset st) -> w_on w' = w_on w /\
     (w_on w = true -> held w ++ went_in w o = came_out w o ++ held w')).
Proof.
  intros H.
  assert (D : (forall st, o <> NReset st) -> w_on w = true -> (held w ++ went_in w o = came_out w o ++ held w') /\ ((forall on, o <> NPort on) -> w_on w' = true)).
  { intros NR ON. destruct o as [o| |off n| |ws|on|st]; cbn [nvv_step went_in came_out] in *.
    - destruct (is_reader o) eqn:RD; [discriminate|]. destruct (sev_step cfg cap (w_ram w) o) as [(x & v)|] eqn:E; [|discriminate]. cbn [bind] in H.
      injection H as <- <-. split; [|intros; exact ON]. unfold held. cbn [w_nv w_ram]. rewrite (sev_writer _ _ _ _ _ _ RD E). cbn [app]. now rewrite <- app_assoc.
    - change (w_on (look w)) with (w_on w) in H. rewrite ON in H. injection H as <- <-. rewrite app_nil_r, look_held. split; [reflexivity|intros; exact ON].
    - destruct (_ && _) in H; [|discriminate]. injection H as <- <-. rewrite app_nil_r, look_held. split; [reflexivity|intros; exact ON].
    - cbn zeta in *. change (w_on (look w)) with (w_on w) in *. rewrite ON in *. injection H as <- <-. cbn [look w_nv w_ram w_on]. rewrite app_nil_r.
      split; [|intros; first [exact ON|reflexivity]]. unfold held. cbn [w_nv w_ram reading v_events]. rewrite ON. rewrite andb_false_r. destruct (w_nv w) as [|g gs]; cbn [tl concat app]; [reflexivity|]. now rewrite app_assoc.
    - change (w_on (look w)) with (w_on w) in H. rewrite ON in H. destruct (move cfg ws (w_nv (look w)) (w_ram (look w)) 0) as ((n & nv) & v) eqn:E.
      injection H as <- <-. apply move_held in E. destruct E as (E & P). rewrite app_nil_r. split; [|intros; first [exact ON|reflexivity]].
      unfold held at 2. cbn [w_nv w_ram app]. rewrite E. fold (held (look w)). now rewrite look_held.
    - destruct (_ && _) in H; [discriminate|]. injection H as <- <-. rewrite app_nil_r. split; [reflexivity|]. intros G. now destruct (G on).
    - now destruct (NR st). }
  assert (LN : (forall st, o <> NReset st) -> lost w o = []) by (destruct o; intros G; try reflexivity; now destruct (G storage)).
  split.
  - destruct (w_on w) eqn:ON.
    + destruct o as [o| |off n| |ws|on|st]; try (rewrite LN by discriminate; rewrite (app_nil_r (held w')); destruct D as (D & _); [discriminate|reflexivity|]; rewrite D; apply Permutation_refl).
      cbn [nvv_step went_in came_out lost] in *. injection H as <- <-. unfold held. cbn [w_nv w_ram v_events app]. rewrite !app_nil_r.
      apply Permutation_refl.
    + unfold held at 1. rewrite <- app_assoc.
      destruct o as [o| |off n| |ws|on|st]; cbn [nvv_step went_in came_out lost] in *.
      * destruct (is_reader o) eqn:RD; [discriminate|]. destruct (sev_step cfg cap (w_ram w) o) as [(x & v)|] eqn:E; [|discriminate]. cbn [bind] in H.
        injection H as <- <-. unfold held. cbn [w_nv w_ram]. rewrite (sev_writer _ _ _ _ _ _ RD E). rewrite app_nil_r. apply Permutation_refl.
      * change (w_on (look w)) with (w_on w) in H. rewrite ON in H. injection H as <- <-. unfold held. cbn [w_nv w_ram look reading v_events app]. rewrite !app_nil_r.
        destruct (_ && _); apply Permutation_refl.
      * destruct (_ && _) in H; [|discriminate]. injection H as <- <-. rewrite !app_nil_r. rewrite look_held. apply Permutation_refl.
      * cbn zeta in *. change (w_on (look w)) with (w_on w) in *. rewrite ON in *. injection H as <- <-. unfold held. cbn [w_nv look w_ram v_events]. rewrite !app_nil_r.
        set (v := if w_was w && negb (w_on w) then reading (w_ram w) 0 else w_ram w). assert (EV : v_events (w_ram w) = v_events v) by (unfold v; destruct (_ && _); reflexivity).
        rewrite EV. rewrite <- (take_drop (v_reading v) (v_events v)) at 1. rewrite !app_assoc. apply Permutation_app_tail. apply Permutation_app_comm.
      * change (w_on (look w)) with (w_on w) in H. rewrite ON in H. injection H as <- <-. rewrite !app_nil_r. rewrite look_held. apply Permutation_refl.
      * destruct (_ && _) in H; [discriminate|]. injection H as <- <-. rewrite !app_nil_r. apply Permutation_refl.
      * injection H as <- <-. unfold held. cbn [w_nv w_ram v_events app]. rewrite !app_nil_r. apply Permutation_refl.
  - intros NP NR. split; [|intros ON; destruct (D NR ON) as (E & _); exact E]. destruct (w_on w) eqn:ON; [destruct (D NR eq_refl) as (_ & E); exact (E NP)|].
    destruct o as [o| |off n| |ws|on|st]; cbn [nvv_step] in H.
    + destruct (is_reader o); [discriminate|]. destruct (sev_step cfg cap (w_ram w) o) as [(x & v)|]; [|discriminate]. cbn [bind] in H. injection H as <- <-. exact ON.
    + change (w_on (look w)) with (w_on w) in H. rewrite ON in H. injection H as <- <-. first [exact ON|reflexivity].
    + destruct (_ && _) in H; [|discriminate]. injection H as <- <-. exact ON.
    + cbn zeta in H. change (w_on (look w)) with (w_on w) in H. rewrite ON in H. injection H as <- <-. first [exact ON|reflexivity].
    + change (w_on (look w)) with (w_on w) in H. rewrite ON in H. injection H as <- <-. exact ON.
    + now destruct (NP on).
    + now destruct (NR st).
Qed.

Lemma flow_all cfg cap : forall ops w rs w', nvv_run cfg cap w ops = Some (rs, w') ->
  Permutation (held w ++ flow went_in cfg cap w ops) (flow came_out cfg cap w ops ++ held w' ++ flow lost cfg cap w ops).
Proof.
  induction ops as [|o r IH]; intros w rs w' H; cbn [nvv_run flow] in *.
  - injection H as <- <-. rewrite !app_nil_r. apply Permutation_refl.
  - destruct (nvv_step cfg cap w o) as [(x & w1)|] eqn:E; [|discriminate]. cbn [bind fst snd] in *.
    destruct (nvv_run cfg cap w1 r) as [(y & w2)|] eqn:E2; [|discriminate]. cbn [bind fst snd] in H. injection H as <- <-.
    specialize (IH _ _ _ E2). destruct (held_step _ _ _ _ _ _ E) as (P & _).
    rewrite app_assoc. eapply Permutation_trans; [apply Permutation_app_tail; exact P|]. rewrite <- !app_assoc. apply Permutation_app_head.
    eapply Permutation_trans; [apply Permutation_app_head; apply Permutation_app_comm|]. rewrite app_assoc.
    eapply Permutation_trans; [apply Permutation_app_tail; exact IH|]. rewrite <- !app_assoc. do 2 apply Permutation_app_head. apply Permutation_app_comm.
Qed.
Lemma flow_order cfg cap : forall ops w rs w', nvv_run cfg cap w ops = Some (rs, w') -> w_on w = true ->
  Forall steady ops ->
  w_on w' = true /\ held w ++ flow went_in cfg cap w ops = flow came_out cfg cap w ops ++ held w'.
Proof.
  induction ops as [|o r IH]; intros w rs w' H ON F; cbn [nvv_run flow] in *.
  - injection H as <- <-. split; [exact ON|]. now rewrite app_nil_r.
  - destruct (nvv_step cfg cap w o) as [(x & w1)|] eqn:E; [|discriminate]. cbn [bind fst snd] in *.
    destruct (nvv_run cfg cap w1 r) as [(y & w2)|] eqn:E2; [|discriminate]. cbn [bind fst snd] in H. injection H as <- <-.
    assert (NP : forall on, o <> NPort on) by (intros b ->; exact (Forall_inv F)).
    assert (NR : forall st, o <> NReset st) by (intros b ->; exact (Forall_inv F)). destruct (held_step _ _ _ _ _ _ E) as (_ & Q). destruct (Q NP NR) as (ON1 & P). rewrite ON in ON1.
    destruct (IH _ _ _ E2 ON1 (Forall_inv_tail F)) as (ON2 & R). split; [exact ON2|]. rewrite app_assoc, (P ON), <- !app_assoc. f_equal. exact R.
Qed.

(** ** Reading out *)
Lemma message_small cfg l k : 0 <= k <= zlen l -> cost l <= 2147483648 -> zlen (message cfg l k) < 4294967296.
Proof.
  intros K C. rewrite message_len by exact K. pose proof (hdr_of_len cfg k). pose proof (cost_take_drop k l). pose proof (cost_nonneg (drop k l)). lia.
Qed.
Lemma move_small cfg : forall ws nv v n n' nv' v', move cfg ws nv v n = (n', nv', v') -> 0 <= v_reading v <= zlen (v_events v) -> cost (v_events v) <= 2147483648 ->
  Forall (small cfg) nv -> Forall (small cfg) nv'.
Proof.
  induction ws as [|(ps & ok) r IH]; intros nv v n n' nv' v' H R C F; cbn [move] in H.
  - destruct (offered cfg v =? 0); injection H as <- <- <-; exact F.
  - destruct (offered cfg v =? 0) eqn:Z0; [injection H as <- <- <-; exact F|].
    destruct (ok && _); [|injection H as <- <- <-; exact F].
    assert (K : 0 <= offered cfg v <= zlen (v_events v)).
    { unfold offered. destruct (v_reading v =? 0); [|exact R]. exact (proj1 (batch_bounds cfg (v_events v))). }
    pose proof (cost_take_drop (offered cfg v) (v_events v)) as CT. pose proof (cost_nonneg (take (offered cfg v) (v_events v))).
    refine (IH _ _ _ _ _ _ H _ _ _).
    + cbn. pose proof (zlen_nonneg (drop (offered cfg v) (v_events v))). lia.
    + cbn. lia.
    + apply Forall_app. split; [exact F|]. apply Forall_cons; [|apply Forall_nil]. unfold small. rewrite take_group by exact K. now apply message_small.
Qed.
Lemma small_step cfg cap s w o r w' : nsim cfg cap s w -> Forall (small cfg) (w_nv w) -> nvv_step cfg cap w o = Some (r, w') -> Forall (small cfg) (w_nv w').
Proof.
  intros S0 F H. destruct (look_ok _ _ _ _ S0) as (s1 & _ & (M & _) & _). destruct o as [o| |off n| |ws|on|st]; cbn [nvv_step] in H.
  - destruct (is_reader o); [discriminate|]. destruct (sev_step cfg cap (w_ram w) o) as [(x & v)|]; [|discriminate]. cbn [bind] in H. injection H as <- <-. exact F.
  - destruct (w_on (look w)); injection H as <- <-; exact F.
  - destruct (_ && _) in H; [|discriminate]. injection H as <- <-. exact F.
  - cbn zeta in H. destruct (w_on (look w)); injection H as <- <-; [|exact F]. cbn. destruct (w_nv w); [exact F|]. exact (Forall_inv_tail F).
  - destruct (w_on (look w)); [|injection H as <- <-; exact F]. destruct (move cfg ws (w_nv (look w)) (w_ram (look w)) 0) as ((n & nv) & v) eqn:E. injection H as <- <-.
    cbn [w_nv]. destruct (esim_sz _ _ _ _ M) as (_ & ? & ? & ? & _). apply (move_small _ _ _ _ _ _ _ _ E); [exact (m_k _ _ _ _ M)|lia|exact F].
  - destruct (_ && _) in H; [discriminate|]. injection H as <- <-. exact F.
  - injection H as <- <-. exact F.
Qed.
Lemma small_run cfg cap : 0 < cap <= 2147483648 -> forall ops s w rs w', nsim cfg cap s w -> Forall (nv_ok cap) ops -> Forall (small cfg) (w_nv w) ->
  nvv_run cfg cap w ops = Some (rs, w') -> Forall (small cfg) (w_nv w').
Proof.
  intros C. induction ops as [|o r IH]; intros s w rs w' S0 O F H; cbn [nvv_run] in *.
  - injection H as <- <-. exact F.
  - destruct (nvv_step cfg cap w o) as [(x & w1)|] eqn:E; [|discriminate]. cbn [bind fst snd] in H.
    destruct (nvv_run cfg cap w1 r) as [(y & w2)|] eqn:E2; [|discriminate]. cbn [bind fst snd] in H. injection H as <- <-.
    destruct (nv_step_ok _ _ _ _ _ _ _ C S0 (Forall_inv O) E) as (s1 & _ & S1).
    exact (IH _ _ _ _ S1 (Forall_inv_tail O) (small_step _ _ _ _ _ _ _ S0 F E) E2).
Qed.
Lemma nvv_run_app cfg cap : forall a b w, nvv_run cfg cap w (a ++ b) =
  do x <- nvv_run cfg cap w a; do y <- nvv_run cfg cap (snd x) b; Some (fst x ++ fst y, snd y).
Proof.
  induction a as [|o r IH]; intros b w; cbn [nvv_run app].
  - cbn [bind fst snd app]. destruct (nvv_run cfg cap w b) as [(?, ?)|]; reflexivity.
  - destruct (nvv_step cfg cap w o) as [(x & w1)|]; [|reflexivity]. cbn [bind fst snd]. rewrite IH.
    destruct (nvv_run cfg cap w1 r) as [(y & w2)|]; [|reflexivity]. cbn [bind fst snd]. destruct (nvv_run cfg cap w2 b) as [(z & w3)|]; reflexivity.
Qed.
Lemma offered_reading cfg v : offered cfg (reading v (offered cfg v)) = offered cfg v.
Proof.
  unfold offered at 1. cbn. destruct (offered cfg v =? 0) eqn:E; [|reflexivity]. unfold offered in *. destruct (v_reading v =? 0) eqn:R; [reflexivity|lia].
Qed.
Lemma drain_ok cfg cap : forall gs w, w_on w = true -> w_nv w = gs -> Forall (small cfg) gs ->
  exists w', nvv_run cfg cap w (drain (map (group_msg cfg) gs)) = Some (drained (1 <=? offered cfg (w_ram w)) (map (group_msg cfg) gs), w') /\
    w_nv w' = [] /\ v_events (w_ram w') = v_events (w_ram w).
Proof.
  induction gs as [|g gs IH]; intros w ON NV F.
  - destruct w as [nv v on was]. cbn in ON, NV. subst. eexists. split; [reflexivity|]. split; [reflexivity|]. cbn. rewrite andb_false_r. reflexivity.
  - destruct w as [nv v on was]. cbn in ON, NV. subst. pose proof (Forall_inv F) as G. unfold small in G. pose proof (zlen_nonneg (group_msg cfg g)).
    destruct (IH (mk_nvv gs (reading v (offered cfg v)) true true) eq_refl eq_refl (Forall_inv_tail F)) as (w' & R & N & V).
    exists w'. split; [|split; [exact N|exact V]]. cbn [w_ram] in R. rewrite offered_reading in R. unfold drain, drained in *. cbn [map flat_map].
    assert (E1 : nvv_step cfg cap (mk_nvv (g :: gs) v true was) NHas = Some (NRHas true (zlen (group_msg cfg g)), mk_nvv (g :: gs) v true true)).
    { unfold nvv_step, look. cbn [w_on w_nv w_ram w_was negb]. rewrite andb_false_r. reflexivity. }
    assert (E2 : nvv_step cfg cap (mk_nvv (g :: gs) v true true) (NRead 0 (zlen (group_msg cfg g))) = Some (NRRead (Some (group_msg cfg g)), mk_nvv (g :: gs) v true true)).
    { unfold nvv_step, look. cbn [w_on w_nv w_ram w_was negb andb]. change (0 <=? 0) with true. replace (0 <=? zlen (group_msg cfg g)) with true by lia. rewrite Z.add_0_l.
      replace (zlen (group_msg cfg g) <? 4294967296) with true by lia. rewrite Z.leb_refl. cbn [andb negb]. change (drop 0 (group_msg cfg g)) with (group_msg cfg g).
      rewrite take_all by lia. reflexivity. }
    assert (E3 : nvv_step cfg cap (mk_nvv (g :: gs) v true true) NMark = Some (NRMark (1 <=? offered cfg v), mk_nvv gs (reading v (offered cfg v)) true true)) by reflexivity.
    cbn [app nvv_run]. rewrite E1. cbn [bind fst snd]. rewrite E2. cbn [bind fst snd]. rewrite E3. cbn [bind fst snd]. rewrite R. reflexivity.
Qed.

(** A port that takes everything empties the RAM. *)
Lemma move_everything cfg : forall n v nv c, zlen (v_events v) <= Z.of_nat n -> 0 <= v_reading v <= zlen (v_events v) -> cost (v_events v) <= 2147483648 ->
  exists ws gs c' v', move cfg ws nv v c = (c', nv ++ gs, v') /\ v_events v' = [] /\ v_reading v' = 0 /\ concat gs = v_events v /\
    Forall (fun w => Forall (fun n => 0 <= n) (fst w) /\ sum (fst w) < 4294967296) ws /\ ws = takes_all cfg gs /\ c' = c + zlen gs.
Proof.
  induction n as [|n IH]; intros v nv c L R C.
  - exists [], [], c, v. assert (EV : v_events v = []) by (destruct (v_events v) as [|e l]; [reflexivity|rewrite zlen_cons in L; pose proof (zlen_nonneg l); lia]).
    rewrite EV in *. change (zlen []) with 0 in *. cbn [move]. assert (V0 : v_reading v = 0) by lia.
    assert (O : offered cfg v = 0).
    { unfold offered. rewrite V0, EV. change (0 =? 0) with true. cbv iota. pose proof (batch_bounds cfg []) as (B & _). change (zlen []) with 0 in B. lia. }
    rewrite O. change (0 =? 0) with true. cbv iota. rewrite app_nil_r. split; [reflexivity|]. split; [first [exact EV|reflexivity]|]. split; [exact V0|]. split; [reflexivity|].
    split; [apply Forall_nil|]. split; [reflexivity|]. unfold zlen. cbn [length]. lia.
  - set (k := offered cfg v). assert (K : 0 <= k <= zlen (v_events v)).
    { unfold k, offered. destruct (v_reading v =? 0); [|exact R]. exact (proj1 (batch_bounds cfg (v_events v))). }
    destruct (k =? 0) eqn:K0.
    + assert (EV : v_events v = [] /\ v_reading v = 0).
      { unfold k, offered in K0. destruct (v_reading v =? 0) eqn:V0; [|lia]. split; [|lia]. destruct (v_events v) as [|e l]; [reflexivity|].
        pose proof (proj2 (batch_bounds cfg (e :: l))) as B. rewrite zlen_cons in B. pose proof (zlen_nonneg l). lia. }
      destruct EV as (EV & V0). exists [], [], c, v. cbn [move]. fold k. rewrite K0. rewrite app_nil_r. split; [reflexivity|]. split; [exact EV|]. split; [exact V0|].
      split; [now rewrite EV|]. split; [apply Forall_nil|]. split; [reflexivity|]. unfold zlen. cbn [length]. lia.
    + pose proof (cost_take_drop k (v_events v)) as CT. pose proof (cost_nonneg (take k (v_events v))). pose proof (zlen_drop k (v_events v)) as ZD.
      destruct (IH (mk_sev (drop k (v_events v)) (v_part v) 0) (nv ++ [take k (v_events v)]) (c + 1)) as (ws & gs & c' & v' & E & EV & V0 & CC & FW & WS & CN).
      * cbn. lia.
      * cbn. pose proof (zlen_nonneg (drop k (v_events v))). lia.
      * cbn. lia.
      * cbn in CC. exists (([zlen (message cfg (v_events v) k)], true) :: ws), (take k (v_events v) :: gs), c', v'.
        pose proof (message_small cfg (v_events v) k K C) as MS. pose proof (zlen_nonneg (message cfg (v_events v) k)).
        cbn [move]. fold k. rewrite K0. cbn [sum fold_right andb]. rewrite Z.add_0_r, Z.eqb_refl. rewrite <- app_assoc in E.
        split; [exact E|]. split; [exact EV|]. split; [exact V0|]. split; [cbn [concat]; rewrite CC; apply take_drop|]. split.
        { apply Forall_cons; [|exact FW]. cbn [fst sum fold_right]. split; [apply Forall_cons; [lia|apply Forall_nil]|lia]. }
        split; [|rewrite zlen_cons; lia]. unfold takes_all in *. cbn [map]. rewrite take_group by exact K. now rewrite WS.
Qed.

Theorem nothing_lost cfg storage nv on ops rs w : 0 < zlen storage <= 2147483648 -> Forall (nv_ok (zlen storage)) ops -> Forall (small cfg) nv ->
  nvv_run cfg (zlen storage) (nvv_boot nv on) ops = Some (rs, w) -> w_on w = true ->
  exists s s' old new,
    nv_boot storage (map (group_msg cfg) nv) on = Some s /\
    nv_run cfg s (ops ++ NPersist (takes_all cfg new) :: drain (map (group_msg cfg) (old ++ new))) =
      Some (rs ++ NRSaved (zlen new) :: drained false (map (group_msg cfg) (old ++ new)), s') /\
    Permutation (concat nv ++ flow went_in cfg (zlen storage) (nvv_boot nv on) ops)
                (flow came_out cfg (zlen storage) (nvv_boot nv on) ops ++ concat (old ++ new) ++ flow lost cfg (zlen storage) (nvv_boot nv on) ops) /\
    (on = true -> Forall steady ops ->
     concat nv ++ flow went_in cfg (zlen storage) (nvv_boot nv on) ops = flow came_out cfg (zlen storage) (nvv_boot nv on) ops ++ concat (old ++ new)).
Proof.
  intros C O SM H ON. set (cap := zlen storage) in *. destruct (nv_boot_ok cfg storage nv on C) as (s & EB & SB). fold cap in SB.
  destruct (nv_run_ok _ _ C _ _ _ _ _ SB O H) as (s1 & _ & (M & _)). pose proof (small_run _ _ C _ _ _ _ _ SB O SM H) as SMW.
  destruct (esim_sz _ _ _ _ M) as (_ & ? & ? & ? & _).
  destruct (move_everything cfg (length (v_events (w_ram w))) (w_ram w) (w_nv w) 0) as (ws & gs & c' & v' & E & EV & V0 & CC & FW & WS & CN).
  { unfold zlen. lia. } { exact (m_k _ _ _ _ M). } { lia. }
  pose proof (move_small _ _ _ _ _ _ _ _ E (m_k _ _ _ _ M) ltac:(lia) SMW) as SM2. subst ws c'. rewrite Z.add_0_l in E.
  destruct (drain_ok cfg cap (w_nv w ++ gs) (mk_nvv (w_nv w ++ gs) v' true true) eq_refl eq_refl SM2) as (w2 & D & _ & _).
  assert (OF : offered cfg v' = 0).
  { unfold offered. rewrite V0, EV. change (0 =? 0) with true. cbv iota. pose proof (batch_bounds cfg []) as (B & _). change (zlen []) with 0 in B. lia. }
  cbn [w_ram] in D. rewrite OF in D. change (1 <=? 0) with false in D.
  assert (R : nvv_run cfg cap (nvv_boot nv on) (ops ++ NPersist (takes_all cfg gs) :: drain (map (group_msg cfg) (w_nv w ++ gs))) =
              Some (rs ++ NRSaved (zlen gs) :: drained false (map (group_msg cfg) (w_nv w ++ gs)), w2)).
  { assert (E1 : nvv_step cfg cap w (NPersist (takes_all cfg gs)) = Some (NRSaved (zlen gs), mk_nvv (w_nv w ++ gs) v' true true)).
    { unfold nvv_step, look. cbn [w_on w_nv w_ram w_was]. rewrite ON. cbn [negb]. rewrite andb_false_r. rewrite E. reflexivity. }
    rewrite nvv_run_app, H. cbn [bind fst snd nvv_run]. rewrite E1. cbn [bind fst snd]. rewrite D. reflexivity. }
  assert (O2 : Forall (nv_ok cap) (ops ++ NPersist (takes_all cfg gs) :: drain (map (group_msg cfg) (w_nv w ++ gs)))).
  { apply Forall_app. split; [exact O|]. apply Forall_cons; [exact FW|]. unfold drain. apply Forall_app. split; [|repeat constructor].
    apply Forall_forall. intros x X. apply in_flat_map in X. destruct X as (m & _ & [<-|[<-|[<-|[]]]]); exact I. }
  destruct (nv_run_ok _ _ C _ _ _ _ _ SB O2 R) as (s2 & R2 & _). exists s, s2, (w_nv w), gs. split; [exact EB|]. split; [exact R2|].
  assert (HW : concat (w_nv w ++ gs) = held w) by (rewrite concat_app, CC; reflexivity). rewrite HW.
  assert (HB : held (nvv_boot nv on) = concat nv) by (unfold held; cbn; apply app_nil_r).
  split.
  - pose proof (flow_all _ _ _ _ _ _ H) as P. rewrite HB in P. exact P.
  - intros ON0 FO. destruct (flow_order _ _ _ _ _ _ H ON0 FO) as (_ & P). rewrite HB in P. exact P.
Qed.
