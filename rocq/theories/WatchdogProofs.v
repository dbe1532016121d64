From Verif Require Import Base Watchdog WatchdogSpec.

Definition chan_ok (past : list (Z * wd_op)) (i : nat) (c : wchan) : Prop :=
  (wc_state c =? 1) = running i past /\ wc_fed c = u32 (last_fed i past).
(** Channels [k], [k+1], ... are as the history says. *)
Fixpoint chans_ok (past : list (Z * wd_op)) (k : nat) (w : wd) : Prop :=
  match w with
  | [] => True
  | c :: r => chan_ok past k c /\ chans_ok past (S k) r
  end.

Lemma chans_get past : forall w k i c, chans_ok past k w -> nth_error w i = Some c -> chan_ok past (k + i) c.
Proof.
  induction w as [|c0 r IH]; intros k i c H E; [destruct i; discriminate|].
  destruct H as [H0 H]. destruct i as [|i]; cbn in E.
  - injection E as <-. now rewrite Nat.add_0_r.
  - replace (k + S i)%nat with (S k + i)%nat by lia. now apply IH.
Qed.
Lemma chans_all past : forall w k, (forall i c, nth_error w i = Some c -> chan_ok past (k + i) c) -> chans_ok past k w.
Proof.
  induction w as [|c r IH]; intros k H; cbn; [exact I|split].
  - specialize (H 0%nat c eq_refl). now rewrite Nat.add_0_r in H.
  - apply IH. intros i c0 E. specialize (H (S i) c0 E). now replace (S k + i)%nat with (k + S i)%nat by lia.
Qed.

Lemma upd_ok : forall w i f, (i < length w)%nat ->
  exists w', wd_upd w i f = Some w' /\ length w' = length w /\
    forall j, nth_error w' j = if Nat.eqb j i then option_map f (nth_error w i) else nth_error w j.
Proof.
  induction w as [|c r IH]; intros i f L; cbn in L; [lia|].
  destruct i as [|i]; cbn.
  - eexists; split; [reflexivity|split; [reflexivity|]]. intros [|j]; reflexivity.
  - destruct (IH i f) as (w' & E & Ln & G); [lia|]. rewrite E; cbn.
    eexists; split; [reflexivity|split; [cbn; lia|]]. intros [|j]; [reflexivity|apply G].
Qed.

Lemma upd_chans past past' w i f :
  (i < length w)%nat -> chans_ok past 0 w ->
  (forall c, chan_ok past i c -> chan_ok past' i (f c)) ->
  (forall j c, j <> i -> chan_ok past j c -> chan_ok past' j c) ->
  exists w', wd_upd w i f = Some w' /\ length w' = length w /\ chans_ok past' 0 w'.
Proof.
  intros L H Hi Hj. destruct (upd_ok w i f L) as (w' & E & Ln & G).
  exists w'; split; [exact E|split; [exact Ln|]].
  apply chans_all. intros j c Ej. cbn. rewrite G in Ej.
  destruct (Nat.eqb_spec j i).
  - subst j. destruct (nth_error w i) as [c0|] eqn:E0; [|discriminate]. injection Ej as <-.
    apply Hi. apply (chans_get _ _ 0%nat i _ H E0).
  - apply Hj; [assumption|]. apply (chans_get _ _ 0%nat j _ H Ej).
Qed.

Lemma expired_iff timeout past i c t :
  0 <= timeout -> chan_ok past i c -> last_fed i past <= t ->
  (running i past = true -> last_fed i past / 4294967296 = t / 4294967296) ->
  wd_expired timeout c (u32 t) = overdue timeout past t i.
Proof.
  intros HT [E1 E2] L S. unfold wd_expired, overdue. rewrite E1.
  destruct (running i past); cbn [andb]; [|reflexivity].
  specialize (S eq_refl). rewrite E2. f_equal. unfold u32, u64.
  change (2 ^ 32) with 4294967296. change (2 ^ 64) with 18446744073709551616.
  pose proof (Z.mod_pos_bound t 4294967296). pose proof (Z.mod_pos_bound (last_fed i past) 4294967296).
  pose proof (Z.div_mod t 4294967296). pose proof (Z.div_mod (last_fed i past) 4294967296).
  replace (t mod 4294967296 - last_fed i past mod 4294967296) with (t - last_fed i past) by lia.
  apply Z.mod_small. lia.
Qed.

Lemma count_iff timeout past t : forall w k,
  0 <= timeout -> chans_ok past k w ->
  (forall i, (k <= i < k + length w)%nat -> last_fed i past <= t /\
     (running i past = true -> last_fed i past / 4294967296 = t / 4294967296)) ->
  0 <= wd_count timeout w (u32 t) /\
  (0 <? wd_count timeout w (u32 t)) = existsb (overdue timeout past t) (seq k (length w)).
Proof.
  induction w as [|c r IH]; intros k HT H C; cbn; [split; [lia|reflexivity]|].
  destruct H as [H0 H]. destruct (IH (S k) HT H) as [I1 I2].
  { intros i Hi. apply C. cbn; lia. }
  destruct (C k) as [C1 C2]; [cbn; lia|].
  rewrite (expired_iff timeout past k c t HT H0 C1 C2). rewrite <- I2.
  destruct (overdue timeout past t k); cbn [orb]; split; lia.
Qed.

Definition newest (past : list (Z * wd_op)) (t : Z) : Prop :=
  match past with [] => 0 <= t | (t0, _) :: _ => t0 <= t end.
Fixpoint sorted (past : list (Z * wd_op)) : Prop :=
  match past with [] => True | (t, _) :: r => newest r t /\ 0 <= t /\ sorted r end.
Lemma fed_le i : forall past t, sorted past -> newest past t -> 0 <= t -> last_fed i past <= t.
Proof.
  induction past as [|[t0 o] r IH]; intros t H N P; [exact P|].
  cbn in H, N. destruct H as (H1 & H2 & H3). specialize (IH t0 H3 H1 H2).
  destruct o; cbn; try destruct (Nat.eqb _ _); lia.
Qed.

Lemma wd_run_ok timeout n (HT : 0 <= timeout) : forall ops past w,
  length w = n -> sorted past -> chans_ok past 0 w -> ops_fine n past ops ->
  exists w', wd_run timeout w ops = Some (answers timeout n past ops, w').
Proof.
  induction ops as [|[t o] r IH]; intros past w Ln S C H; cbn [wd_run answers].
  - eauto.
  - cbn in H. destruct H as [(P & Ch & T & Ep) H].
    assert (S' : sorted ((t, o) :: past)).
    { cbn. split; [|split; [exact P|exact S]]. destruct past as [|[t0 o0] p]; [exact P|exact T]. }
    assert (N : newest past t) by (destruct past as [|[t0 o0] p]; [exact P|exact T]).
    assert (X : exists w', wd_step timeout w (u32 t) o =
       Some (match o with WCheck => if any_overdue timeout n past t then WPanic else WRefresh | _ => WDone end, w')
       /\ length w' = n /\ chans_ok ((t, o) :: past) 0 w').
    { destruct o as [i|i|i| |]; cbn [wd_step]; cbn in Ch.
      - destruct (upd_chans past ((t, WStart i) :: past) w i (fun _ => mk_wc (u32 t) 1)) as (w' & E & L & O);
          [lia|exact C| | |].
        + intros c _. split; cbn; rewrite Nat.eqb_refl; reflexivity.
        + intros j c D [A B]. split; cbn; destruct (Nat.eqb_spec j i); (contradiction || assumption).
        + rewrite E; cbn. eexists; split; [reflexivity|split; [lia|exact O]].
      - destruct (upd_chans past ((t, WFeed i) :: past) w i (fun c => mk_wc (u32 t) (wc_state c))) as (w' & E & L & O);
          [lia|exact C| | |].
        + intros c [A B]. split; cbn; [exact A|rewrite Nat.eqb_refl; reflexivity].
        + intros j c D [A B]. split; cbn; [exact A|destruct (Nat.eqb_spec j i); [contradiction|assumption]].
        + rewrite E; cbn. eexists; split; [reflexivity|split; [lia|exact O]].
      - destruct (upd_chans past ((t, WStop i) :: past) w i (fun c => mk_wc (wc_fed c) 0)) as (w' & E & L & O);
          [lia|exact C| | |].
        + intros c [A B]. split; cbn; [rewrite Nat.eqb_refl; reflexivity|exact B].
        + intros j c D [A B]. split; cbn; [destruct (Nat.eqb_spec j i); [contradiction|assumption]|exact B].
        + rewrite E; cbn. eexists; split; [reflexivity|split; [lia|exact O]].
      - destruct (count_iff timeout past t w 0 HT C) as [_ E].
        { intros i Hi. split; [apply fed_le; assumption|]. intros R. apply Ep; [reflexivity|lia|exact R]. }
        rewrite E, Ln. eexists; split; [reflexivity|split; [exact Ln|]].
        apply chans_all. intros j c Ej. exact (chans_get _ _ _ _ _ C Ej).
      - eexists; split; [reflexivity|split; [exact Ln|]].
        apply chans_all. intros j c Ej. exact (chans_get _ _ _ _ _ C Ej). }
    destruct X as (w' & E & L & O). rewrite E; cbn [bind].
    destruct (IH _ _ L S' O H) as (w2 & E2). rewrite E2; cbn [bind]. eauto.
Qed.

Lemma init_chans n k : chans_ok [] k (wd_init n).
Proof. revert k; induction n; intros k; cbn; [exact I|split; [split; reflexivity|apply IHn]]. Qed.

Lemma wd_boot_ok timeout n ops : 0 <= timeout -> ops_fine n [] ops ->
  exists w', wd_run timeout (wd_init n) ops = Some (answers timeout n [] ops, w').
Proof.
  intros HT H. apply wd_run_ok; [exact HT|apply repeat_length|exact I|apply init_chans|exact H].
Qed.

(** ** Across a wrap of the counter *)
Lemma wrap_false_alarm timeout past i c t :
  timeout < 4294967296 -> chan_ok past i c -> running i past = true ->
  u32 t < u32 (last_fed i past) -> wd_expired timeout c (u32 t) = true.
Proof.
  intros HT [E1 E2] R L. unfold wd_expired. rewrite E1, R, E2; cbn [andb].
  unfold u64. change (2 ^ 64) with 18446744073709551616.
  assert (B : is_u32 (u32 t)) by (unfold is_u32, u32; apply Z.mod_pos_bound; reflexivity).
  assert (B2 : is_u32 (u32 (last_fed i past))) by (unfold is_u32, u32; apply Z.mod_pos_bound; reflexivity).
  unfold is_u32 in B, B2.
  replace (u32 t - u32 (last_fed i past)) with
    (u32 t - u32 (last_fed i past) + 18446744073709551616 + (-1) * 18446744073709551616) by lia.
  rewrite Z.mod_add by lia. rewrite Z.mod_small by lia. lia.
Qed.

(** For every timeout of at least a millisecond there is a history with a check one millisecond after
    a feed that panics: the counter wrapped in between. *)
Lemma wrap_run timeout : 1 <= timeout < 4294967296 ->
  wd_run timeout (wd_init 1) [(4294967295, WStart 0); (4294967296, WCheck)] =
    Some ([WDone; WPanic], [mk_wc 4294967295 1]) /\
  any_overdue timeout 1 [(4294967295, WStart 0)] 4294967296 = false.
Proof.
  intros H. split.
  - cbn [wd_run wd_step wd_init repeat wd_upd bind]. change (u32 4294967295) with 4294967295.
    cbn [wd_count].
    rewrite (wrap_false_alarm timeout [(4294967295, WStart 0)] 0 (mk_wc 4294967295 1) 4294967296);
      [reflexivity|lia|split; reflexivity|reflexivity|reflexivity].
  - cbn. unfold overdue; cbn. change (4294967296 - 4294967295) with 1.
    destruct (timeout <? 1) eqn:E; [lia|reflexivity].
Qed.
(** And a channel that was not fed for 49.7 days and is not noticed. *)
Lemma wrap_missed timeout : 0 <= timeout < 4294967296 ->
  wd_run timeout (wd_init 1) [(0, WStart 0); (4294967296, WCheck)] = Some ([WDone; WRefresh], [mk_wc 0 1]) /\
  any_overdue timeout 1 [(0, WStart 0)] 4294967296 = true.
Proof.
  intros H. split.
  - cbn [wd_run wd_step wd_init repeat wd_upd bind]. change (u32 0) with 0. change (u32 4294967296) with 0.
    cbn [wd_count]. unfold wd_expired; cbn [wc_state wc_fed]. change (u64 (0 - 0)) with 0.
    replace (timeout <? 0) with false by lia. reflexivity.
  - cbn. unfold overdue; cbn. change (4294967296 - 0) with 4294967296.
    destruct (timeout <? 4294967296) eqn:E; [reflexivity|lia].
Qed.

Lemma overdue_persists timeout i t past : forall later t',
  overdue timeout past t i = true -> t <= t' ->
  Forall (fun x => channel_of (snd x) <> Some i) later ->
  overdue timeout (later ++ past) t' i = true.
Proof.
  intros later t' H L F. apply andb_true_iff in H as [R O].
  assert (X : running i (later ++ past) = running i past /\ last_fed i (later ++ past) = last_fed i past).
  { induction later as [|[t0 o] r IH]; [split; reflexivity|]. inversion F; subst. cbn in H1.
    destruct (IH H2) as [A B]. destruct o as [j|j|j| |]; cbn in *; try destruct (Nat.eqb_spec i j);
      try (subst; congruence); split; assumption. }
  destruct X as [A B]. unfold overdue. rewrite A, B, R; cbn. lia.
Qed.
