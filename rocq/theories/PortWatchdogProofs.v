(** Proofs about the software watchdogs. *)
From Verif Require Import Base PortWatchdog PortWatchdogSpec.

Definition live (w : watch) (t : timer) : Prop :=
  t_set t = true /\ t_lim t = limit w /\ t_cnt t = elapsed w /\ 0 <= elapsed w < limit w.
Definition rel (p : port) (w : watch) (t : timer) : Prop :=
  t_run t = on w /\ (on w = true -> ever w = true /\ live w t) /\
  match p with
  | Zephyr _ => t_mem t = after w /\ 1 <= after w /\ (on w = true -> limit w = after w)
  | Nrf5 _ => grants p (default p) (after w) /\ ever w = t_set t /\ (ever w = true -> live w t /\ limit w < 2 ^ 24)
  | Emlib _ _ | S32k _ _ _ _ => no_default p \/ grants p (default p) (after w)
  | Lptim _ => grants p (default p) (after w) /\ ever w = t_set t
  | Da1468x _ => ever w = true /\ live w t /\ t_mem t = t_lim t /\ after w = limit w
  end.

(** * The timeouts granted *)
Lemma em_loop_spec : forall fuel k ms, 0 <= k -> 
  (k = 0 \/ 4 * 2 ^ (k - 1) <= ms) ->
  let r := em_loop fuel k ms in
  k <= r <= k + Z.of_nat fuel /\ (r = 0 \/ 4 * 2 ^ (r - 1) <= ms) /\ (r < k + Z.of_nat fuel -> ms < 4 * 2 ^ r).
Proof.
  induction fuel as [|fuel IH]; intros k ms K H; cbn [em_loop].
  - cbn zeta. split; [lia|]. split; [exact H|lia].
  - assert (E : 1000 * 2 ^ (3 + k) / 1000 / 2 = 4 * 2 ^ k).
    { rewrite (Z.mul_comm 1000), Z.div_mul by lia. rewrite Z.pow_add_r by lia. change (2 ^ 3) with 8.
      replace (8 * 2 ^ k) with (4 * 2 ^ k * 2) by lia. apply Z.div_mul. lia. }
    rewrite E. destruct (Z.gtb_spec (4 * 2 ^ k) ms) as [C|C].
    + cbn zeta. split; [lia|]. split; [exact H|]. intros _. exact C.
    + specialize (IH (k + 1) ms ltac:(lia)). replace (k + 1 - 1) with k in IH by lia.
      specialize (IH ltac:(right; lia)). cbn zeta in *. destruct IH as (A & B & D).
      split; [lia|]. split; [exact B|]. intros L. apply D. lia.
Qed.
Lemma em_update_ok : forall secs locked t ms, 0 <= ms ->
  (exists rv, rv <> 0 /\ em_update locked t ms = (rv, t) /\ refuses (Emlib secs locked) ms) \/
  (exists l, em_update locked t ms = (0, mk_t true true 0 l 0) /\ ~ refuses (Emlib secs locked) ms /\ grants (Emlib secs locked) ms l /\ 1 <= l).
Proof.
  intros secs locked t ms H. unfold em_update. change (1000 * 2 ^ (3 + 15) / 1000 / 2) with 131072.
  destruct (Z.gtb_spec ms 131072) as [C|C]; [left; exists (-1); cbn; split; [lia|]; split; [reflexivity|]; right; lia|].
  destruct locked; [left; exists (-2); cbn; split; [lia|]; split; [reflexivity|]; left; reflexivity|].
  right. pose proof (em_loop_spec 16 0 ms ltac:(lia) ltac:(left; reflexivity)) as (A & B & D).
  unfold em_persel. set (r := em_loop 16 0 ms) in *. cbn zeta. change (0 + Z.of_nat 16) with 16 in *.
  exists (4 * 2 ^ (if r =? 0 then 0 else r - 1)).
  assert (K : 0 <= (if r =? 0 then 0 else r - 1) <= 15) by (destruct (Z.eqb_spec r 0); lia).
  split; [|split; [|split]].
  - f_equal. f_equal. rewrite Z.pow_add_r by lia. change (2 ^ 3) with 8.
    replace (8 * 2 ^ (if r =? 0 then 0 else r - 1)) with (4 * 2 ^ (if r =? 0 then 0 else r - 1) * 2) by lia. apply Z.div_mul. lia.
  - cbn. intros [X|X]; [discriminate|lia].
  - cbn [grants]. eexists. split; [exact K|]. split; [reflexivity|].
    destruct (Z.eqb_spec r 0) as [E|E].
    + right. split; [reflexivity|]. rewrite E in D. specialize (D ltac:(lia)). change (2 ^ 0) with 1 in D. lia.
    + left. destruct B as [B|B]; [lia|]. split; [exact B|].
      destruct (Z.eq_dec r 16) as [F|F].
      * rewrite F in *. change (2 ^ (16 - 1)) with 32768 in *. lia.
      * specialize (D ltac:(lia)). replace (2 ^ r) with (2 * 2 ^ (r - 1)) in D by (rewrite <- Z.pow_succ_r by lia; f_equal; lia). lia.
  - pose proof (Z.pow_pos_nonneg 2 (if r =? 0 then 0 else r - 1) ltac:(lia) ltac:(lia)). lia.
Qed.

Lemma s32_update_ok : forall secs pcs div2 freq t ms, 0 <= ms -> 0 <= pcs <= 7 -> 0 <= div2 <= 7 -> 0 <= freq < 2 ^ 32 ->
  let p := S32k secs pcs div2 freq in
  (exists rv, rv <> 0 /\ s32_update pcs div2 freq t ms = (rv, t) /\ refuses p ms) \/
  (exists l, s32_update pcs div2 freq t ms = (0, mk_t true true 0 l 0) /\ ~ refuses p ms /\ grants p ms l /\ 1 <= l).
Proof.
  intros secs pcs div2 freq t ms H P D F p. unfold s32_update.
  destruct ((pcs =? 1) || (pcs =? 2) || (pcs =? 3)) eqn:EP; cbn [negb].
  2:{ left. exists (-1). split; [lia|]. split; [reflexivity|]. left. apply Bool.orb_false_elim in EP. destruct EP as [EP E3].
      apply Bool.orb_false_elim in EP. destruct EP as [E1 E2]. lia. }
  assert (P3 : 1 <= pcs <= 3).
  { apply Bool.orb_true_iff in EP. destruct EP as [EP|EP]; [apply Bool.orb_true_iff in EP; destruct EP as [EP|EP]|]; lia. }
  destruct (Z.eqb_spec div2 0) as [E2|E2]; [left; exists (-2); split; [lia|]; split; [reflexivity|]; right; left; exact E2|].
  destruct (Z.eqb_spec freq 0) as [E3|E3]; [left; exists (-3); split; [lia|]; split; [reflexivity|]; right; right; left; exact E3|].
  rewrite Z.shiftr_div_pow2 by lia. fold (hertz div2 freq).
  assert (HZ : 0 <= hertz div2 freq) by (apply Z.div_pos; [lia|apply Z.pow_pos_nonneg; lia]).
  cbn zeta. pose proof (Z.div_mod (ms * hertz div2 freq) 1000 ltac:(lia)) as DM.
  pose proof (Z.mod_pos_bound (ms * hertz div2 freq) 1000 ltac:(lia)) as MB.
  assert (NN : 0 <= ms * hertz div2 freq) by nia.
  pose proof (Z.div_pos (ms * hertz div2 freq) 1000 NN ltac:(lia)).
  change (2 ^ 32) with 4294967296 in *.
  destruct (Z.gtb_spec (ms * hertz div2 freq / 1000) (4294967296 - 1)) as [C|C].
  - left. exists (-4). split; [lia|]. split; [reflexivity|]. right. right. right. change (2 ^ 32) with 4294967296. lia.
  - right. eexists. split; [reflexivity|]. split; [|split].
    + cbn [refuses p]. change (2 ^ 32) with 4294967296. lia.
    + cbn [grants p]. lia.
    + lia.
Qed.

Lemma lptim_update_ok : forall secs t ms, t_set t = true -> 4 <= ms ->
  (exists rv, rv <> 0 /\ lptim_update t ms = Some (rv, t) /\ refuses (Lptim secs) ms) \/
  (exists l, lptim_update t ms = Some (0, mk_t true true 0 l 0) /\ ~ refuses (Lptim secs) ms /\ grants (Lptim secs) ms l /\ 1 <= l).
Proof.
  intros secs t ms S H. unfold lptim_update. change ((65535 + 1) / (32000 / 128) * 1000) with 262000. change (32000 / 128) with 250.
  destruct (Z.gtb_spec ms 262000) as [C|C]; [left; exists (-1); split; [lia|]; split; [reflexivity|]; cbn; lia|].
  right. rewrite S. cbn [negb]. rewrite u32_id by (unfold is_u32; lia).
  pose proof (Z.div_mod (ms * 250) 1000 ltac:(lia)). pose proof (Z.mod_pos_bound (ms * 250) 1000 ltac:(lia)).
  eexists. split; [reflexivity|]. cbn [refuses grants]. split; [lia|]. split; lia.
Qed.

Lemma da_update_ok : forall most t ms, is_u32 ms -> 1 <= most <= 255 ->
  (exists rv, rv <> 0 /\ da_update most t ms = (rv, t) /\ refuses (Da1468x most) ms) \/
  (exists l, da_update most t ms = (0, mk_t true (t_run t) 0 l l) /\ ~ refuses (Da1468x most) ms /\ grants (Da1468x most) ms l /\ 1 <= l).
Proof.
  intros most t ms U M. unfold da_update. unfold is_u32 in U. cbn zeta.
  assert (UB : 0 <= u32 (1000 * ms) < 2 ^ 32) by (apply Z.mod_pos_bound; lia).
  assert (UE : exists q, 1000 * ms = u32 (1000 * ms) + 2 ^ 32 * q /\ 0 <= q).
  { exists (1000 * ms / 2 ^ 32). unfold u32. pose proof (Z.div_mod (1000 * ms) (2 ^ 32) ltac:(lia)).
    split; [lia|]. apply Z.div_pos; lia. }
  destruct UE as (q & UE & Q). change (2 ^ 32) with 4294967296 in *.
  pose proof (Z.div_mod (u32 (1000 * ms)) 10240 ltac:(lia)) as DM. pose proof (Z.mod_pos_bound (u32 (1000 * ms)) 10240 ltac:(lia)).
  pose proof (Z.div_pos (u32 (1000 * ms)) 10240 ltac:(lia) ltac:(lia)).
  destruct (Z.gtb_spec (u32 (1000 * ms)) ms) as [C|C].
  - rewrite (u32_id (_ / 10240 + 1)) by (unfold is_u32; lia).
    destruct (Z.leb_spec (u32 (1000 * ms) / 10240 + 1) most) as [L|L].
    + right. assert (q = 0) by lia. subst q. rewrite Z.mul_0_r, Z.add_0_r in UE.
      eexists. split; [reflexivity|]. rewrite (u8_id (_ / 10240 + 1)) by (unfold is_u8; lia). cbn [refuses grants]. split; [lia|]. split; lia.
    + left. exists (-1). split; [lia|]. split; [reflexivity|]. cbn [refuses]. right. lia.
  - left. exists (-1). split; [lia|]. split; [reflexivity|]. cbn [refuses]. destruct (Z.eq_dec ms 0); [left; assumption|]. right. lia.
Qed.

Lemma nrf_grants : forall p ms, 125 <= ms < 125 * 2 ^ 24 -> 1 <= ms / 125 mod 2 ^ 24 < 2 ^ 24 /\ grants (Nrf5 p) ms (ms / 125 mod 2 ^ 24).
Proof.
  intros p ms H. change (2 ^ 24) with 16777216 in *.
  pose proof (Z.div_mod ms 125 ltac:(lia)). pose proof (Z.mod_pos_bound ms 125 ltac:(lia)).
  rewrite Z.mod_small by lia. cbn [grants]. lia.
Qed.
Lemma grants_one : forall p ms l l', grants p ms l -> grants p ms l' -> l = l'.
Proof.
  intros [secs|n|secs locked|secs pcs div2 freq|secs|most] ms l l'; cbn [grants]; intros G G'; try lia.
  destruct G as (k & K & E & G), G' as (k' & K' & E' & G').
  assert (k = k'); [|subst; reflexivity].
  assert (X : forall a b, 0 <= a -> 0 <= b -> a < b -> 2 * 2 ^ a <= 2 ^ b).
  { intros a b A B L. rewrite <- Z.pow_succ_r by lia. apply Z.pow_le_mono_r; lia. }
  assert (Y : forall a, 0 <= a -> 1 <= 2 ^ a) by (intros a A; pose proof (Z.pow_pos_nonneg 2 a ltac:(lia) A); lia).
  pose proof (Y k ltac:(lia)). pose proof (Y k' ltac:(lia)).
  destruct (Z.lt_trichotomy k k') as [L|[L|L]]; [pose proof (X k k' ltac:(lia) ltac:(lia) L); lia|exact L|pose proof (X k' k ltac:(lia) ltac:(lia) L); lia].
Qed.

(** * One call *)
Definition call (p : port) (t : timer) (o : w_op) : option (Z * timer) :=
  match o with WEnable => wd_enable p t | WDisable => wd_disable p t | WFeed => wd_feed p t | WUpdate ms => wd_update p t ms | WTicks _ => None end.
Definition answers (p : port) (w : watch) (t : timer) (o : w_op) : Prop :=
  exists rv t', call p t o = Some (rv, t') /\
  (rv = 0 /\ (exists w', does p w o w' /\ rel p w' t') \/ rv <> 0 /\ refused p o /\ t' = t).


Ltac done0 := left; split; [reflexivity|]; eexists; split.

Lemma z_ok : forall secs w t o, config (Zephyr secs) -> rel (Zephyr secs) w t -> proper (Zephyr secs) w o -> (forall n, o <> WTicks n) ->
  answers (Zephyr secs) w t o.
Proof.
  intros secs w t o C (R & L & M & A & LA) P N. destruct o; cbn [proper] in P; unfold answers; cbn [call wd_enable wd_disable wd_feed wd_update].
  - exists 0, (z_start t). split; [reflexivity|]. done0; [apply d_enable; cbn; tauto|].
    unfold rel, live, z_start. cbn. rewrite M. intuition lia.
  - eexists 0, _. split; [reflexivity|]. done0; [apply d_disable; exact I|].
    unfold rel. cbn. intuition discriminate.
  - exists 0, (z_start t). split; [reflexivity|]. done0; [apply d_feed|].
    destruct (L P) as (E & S & LI & CN & B). unfold rel, live, z_start. cbn. rewrite M, (LA P), P. intuition lia.
  - destruct P as (U & P & MS). destruct (L P) as (E & _). eexists 0, _. split; [reflexivity|]. done0.
    + apply (d_update _ _ ms ms); [cbn; tauto|reflexivity].
    + unfold rel, live, z_start. cbn. rewrite P, E. intuition lia.
  - exfalso. exact (N _ eq_refl).
Qed.

Lemma n_ok : forall d w t o, config (Nrf5 d) -> rel (Nrf5 d) w t -> proper (Nrf5 d) w o -> (forall n, o <> WTicks n) ->
  answers (Nrf5 d) w t o.
Proof.
  intros d w t o C (R & L & G & EV & LV) P N. destruct o; cbn [proper] in P; unfold answers; cbn [call wd_enable wd_disable wd_feed wd_update].
  - rewrite <- EV, P. unfold nrf_update. cbn [t_set negb t_run t_cnt]. eexists 0, _. split; [reflexivity|].
    cbn [config] in C. destruct (nrf_grants d d C) as (B & G'). rewrite (grants_one _ _ _ _ G' G) in *.
    done0; [apply d_enable; cbn; tauto|]. unfold rel, live. cbn [on limit elapsed after ever t_set t_run t_cnt t_lim t_mem]. intuition lia.
  - rewrite <- EV, P. cbn [negb]. eexists 0, _. split; [reflexivity|]. done0; [apply d_disable; exact I|].
    destruct (LV P) as ((S & LI & CN & B) & U). unfold rel, live. cbn [on limit elapsed after ever t_set t_run t_cnt t_lim t_mem]. intuition (try discriminate; lia).
  - rewrite <- EV, P. cbn [negb]. eexists 0, _. split; [reflexivity|]. done0; [apply d_feed|].
    destruct (LV P) as ((S & LI & CN & B) & U). unfold rel, live. cbn [on limit elapsed after ever t_set t_run t_cnt t_lim t_mem]. intuition lia.
  - destruct P as (U & P & E0 & MS). unfold nrf_update. rewrite <- EV, P. cbn [negb]. eexists 0, _. split; [reflexivity|].
    destruct (nrf_grants d ms MS) as (B & G'). destruct (LV P) as ((S & LI & CN & B') & U'). done0.
    + eapply d_update; [cbn; tauto|exact G'].
    + unfold rel, live. cbn [on limit elapsed after ever t_set t_run t_cnt t_lim t_mem remembers]. intuition lia.
  - exfalso. exact (N _ eq_refl).
Qed.

Lemma e_ok : forall secs locked w t o, config (Emlib secs locked) -> rel (Emlib secs locked) w t -> proper (Emlib secs locked) w o -> (forall n, o <> WTicks n) ->
  answers (Emlib secs locked) w t o.
Proof.
  intros secs locked w t o C (R & L & G) P N. cbn [config] in C. destruct o; cbn [proper] in P; unfold answers; cbn [call wd_enable wd_disable wd_feed wd_update].
  - rewrite u32_id by (unfold is_u32; lia). replace (secs * 1000) with (default (Emlib secs locked)) by (cbn; lia).
    destruct (em_update_ok secs locked t (default (Emlib secs locked)) ltac:(cbn; lia)) as [(rv & NZ & E & RF)|(l & E & NR & G' & B)]; rewrite E; eexists _, _; (split; [reflexivity|]).
    + right. split; [exact NZ|]. split; [exact RF|reflexivity].
    + destruct G as [G|G]; [contradiction|]. rewrite (grants_one _ _ _ _ G' G) in *. done0; [apply d_enable; exact NR|].
      unfold rel, live. cbn [on limit elapsed after ever t_set t_run t_cnt t_lim t_mem]. intuition lia.
  - destruct locked; eexists _, _; (split; [reflexivity|]).
    + right. split; [lia|]. split; [exact I|reflexivity].
    + done0; [apply d_disable; exact I|]. unfold rel. cbn [on limit elapsed after ever t_set t_run t_cnt t_lim t_mem]. intuition discriminate.
  - eexists 0, _. split; [reflexivity|]. done0; [apply d_feed|]. destruct (t_run t) eqn:RT.
    + symmetry in R. destruct (L R) as (E & S & LI & CN & B). unfold rel, live. cbn [on limit elapsed after ever t_set t_run t_cnt t_lim t_mem]. rewrite R. intuition lia.
    + unfold rel. cbn [on limit elapsed after ever]. rewrite <- R. intuition discriminate.
  - destruct P as (U & P). unfold is_u32 in U. destruct (L P) as (EV & _).
    destruct (em_update_ok secs locked t ms ltac:(lia)) as [(rv & NZ & E & RF)|(l & E & NR & G' & B)]; rewrite E; eexists _, _; (split; [reflexivity|]).
    + right. split; [exact NZ|]. split; [exact RF|reflexivity].
    + done0; [apply (d_update _ _ ms l); assumption|].
      unfold rel, live. cbn [on limit elapsed after ever t_set t_run t_cnt t_lim t_mem remembers]. intuition lia.
  - exfalso. exact (N _ eq_refl).
Qed.

Lemma s_ok : forall secs pcs div2 freq w t o, let p := S32k secs pcs div2 freq in
  config p -> rel p w t -> proper p w o -> (forall n, o <> WTicks n) -> answers p w t o.
Proof.
  intros secs pcs div2 freq w t o p C (R & L & G) P N. cbn [config p] in C. destruct C as (C & CP & CD & CF).
  destruct o; cbn [proper p] in P; unfold answers; cbn [call wd_enable wd_disable wd_feed wd_update p].
  - rewrite u32_id by (unfold is_u32; lia). replace (secs * 1000) with (default p) by (cbn; lia).
    destruct (s32_update_ok secs pcs div2 freq t (default p) ltac:(cbn; lia) CP CD CF) as [(rv & NZ & E & RF)|(l & E & NR & G' & B)]; rewrite E; eexists _, _; (split; [reflexivity|]).
    + right. split; [exact NZ|]. split; [exact RF|reflexivity].
    + destruct G as [G|G]; [contradiction|]. rewrite (grants_one _ _ _ _ G' G) in *. done0; [apply d_enable; exact NR|].
      unfold rel, live. cbn [on limit elapsed after ever t_set t_run t_cnt t_lim t_mem p]. intuition lia.
  - eexists 0, _. split; [reflexivity|]. done0; [apply d_disable; exact I|].
    unfold rel. cbn [on limit elapsed after ever t_set t_run t_cnt t_lim t_mem]. intuition discriminate.
  - eexists 0, _. split; [reflexivity|]. done0; [apply d_feed|]. destruct (L P) as (E & S & LI & CN & B).
    unfold rel, live. cbn [on limit elapsed after ever t_set t_run t_cnt t_lim t_mem]. rewrite P. intuition lia.
  - destruct P as (U & P). unfold is_u32 in U. destruct (L P) as (EV & _).
    destruct (s32_update_ok secs pcs div2 freq t ms ltac:(lia) CP CD CF) as [(rv & NZ & E & RF)|(l & E & NR & G' & B)]; rewrite E; eexists _, _; (split; [reflexivity|]).
    + right. split; [exact NZ|]. split; [exact RF|reflexivity].
    + done0; [apply (d_update _ _ ms l); assumption|].
      unfold rel, live. cbn [on limit elapsed after ever t_set t_run t_cnt t_lim t_mem remembers p]. intuition lia.
  - exfalso. exact (N _ eq_refl).
Qed.

Lemma l_ok : forall secs w t o, config (Lptim secs) -> rel (Lptim secs) w t -> proper (Lptim secs) w o -> (forall n, o <> WTicks n) ->
  answers (Lptim secs) w t o.
Proof.
  intros secs w t o C (R & L & G & EV) P N. cbn [config] in C. destruct o; cbn [proper] in P; unfold answers; cbn [call wd_enable wd_disable wd_feed wd_update].
  - rewrite u32_id by (unfold is_u32; lia). replace (secs * 1000) with (default (Lptim secs)) by (cbn; lia).
    destruct (lptim_update_ok secs (mk_t true false 0 0 0) (default (Lptim secs)) eq_refl ltac:(cbn; lia)) as [(rv & NZ & E & RF)|(l & E & NR & G' & B)].
    + exfalso. cbn in RF. lia.
    + rewrite E. cbn [bind snd]. eexists _, _. split; [reflexivity|]. rewrite (grants_one _ _ _ _ G' G) in *. done0; [apply d_enable; exact NR|].
      unfold rel, live. cbn [on limit elapsed after ever t_set t_run t_cnt t_lim t_mem]. intuition lia.
  - rewrite <- EV, P. cbn [negb]. eexists 0, _. split; [reflexivity|]. done0; [apply d_disable; exact I|].
    unfold rel. cbn [on limit elapsed after ever t_set t_run t_cnt t_lim t_mem]. intuition (try discriminate).
  - rewrite <- EV, P. cbn [negb]. eexists 0, _. split; [reflexivity|]. done0; [apply d_feed|].
    unfold rel, live. cbn [on limit elapsed after ever t_set t_run t_cnt t_lim t_mem].
    split; [exact R|]. split; [|split; [exact G|exact P]]. intros O. destruct (L O) as (E & S & LI & CN & B). intuition lia.
  - destruct P as (U & P & MS). destruct (L P) as (E1 & S & _).
    destruct (lptim_update_ok secs t ms S MS) as [(rv & NZ & E & RF)|(l & E & NR & G' & B)]; rewrite E; eexists _, _; (split; [reflexivity|]).
    + right. split; [exact NZ|]. split; [exact RF|reflexivity].
    + done0; [apply (d_update _ _ ms l); assumption|].
      unfold rel, live. cbn [on limit elapsed after ever t_set t_run t_cnt t_lim t_mem remembers]. intuition lia.
  - exfalso. exact (N _ eq_refl).
Qed.

Lemma d_ok : forall most w t o, config (Da1468x most) -> rel (Da1468x most) w t -> proper (Da1468x most) w o -> (forall n, o <> WTicks n) ->
  answers (Da1468x most) w t o.
Proof.
  intros most w t o C (R & L & EV & (S & LI & CN & B) & ML & AL) P N. cbn [config] in C.
  destruct o; cbn [proper] in P; unfold answers; cbn [call wd_enable wd_disable wd_feed wd_update].
  - eexists 0, _. split; [reflexivity|]. done0; [apply d_enable; cbn; tauto|].
    unfold rel, live. cbn [on limit elapsed after ever t_set t_run t_cnt t_lim t_mem]. intuition lia.
  - eexists 0, _. split; [reflexivity|]. done0; [apply d_disable; exact I|].
    unfold rel, live. cbn [on limit elapsed after ever t_set t_run t_cnt t_lim t_mem]. intuition (try discriminate; lia).
  - eexists 0, _. split; [reflexivity|]. done0; [apply d_feed|].
    unfold rel, live. cbn [on limit elapsed after ever t_set t_run t_cnt t_lim t_mem]. intuition lia.
  - destruct P as (U & _).
    destruct (da_update_ok most t ms U C) as [(rv & NZ & E & RF)|(l & E & NR & G' & B')]; rewrite E; eexists _, _; (split; [reflexivity|]).
    + right. split; [exact NZ|]. split; [exact RF|reflexivity].
    + done0; [apply (d_update _ _ ms l); assumption|].
      unfold rel, live. cbn [on limit elapsed after ever t_set t_run t_cnt t_lim t_mem remembers]. intuition lia.
  - exfalso. exact (N _ eq_refl).
Qed.

Lemma call_ok : forall p w t o, config p -> rel p w t -> proper p w o -> (forall n, o <> WTicks n) -> answers p w t o.
Proof.
  intros [secs|d|secs locked|secs pcs div2 freq|secs|most] w t o; [apply z_ok|apply n_ok|apply e_ok|apply s_ok|apply l_ok|apply d_ok].
Qed.

(** * Time *)
Lemma due_ok : forall p w t, rel p w t -> on w = true -> due p t = limit w - elapsed w.
Proof.
  intros p w t (R & L & X) O. destruct (L O) as (E & S & LI & CN & B). unfold due. rewrite LI, CN.
  destruct p; try lia. destruct X as (_ & _ & X). destruct (X E) as (_ & U). change (2 ^ 24) with 16777216 in *.
  rewrite Z.mod_small by lia. destruct (Z.eqb_spec (limit w - elapsed w) 0); lia.
Qed.
Lemma quiet_rel : forall p w t n, rel p w t -> on w = true -> 0 <= n < limit w - elapsed w ->
  rel p (mk_w true (limit w) (elapsed w + n) (after w) (ever w)) (mk_t (t_set t) (t_run t) (t_cnt t + n) (t_lim t) (t_mem t)).
Proof.
  intros p w t n (R & L & X) O N. destruct (L O) as (E & S & LI & CN & B).
  unfold rel, live in *. destruct p; cbn [on limit elapsed after ever t_set t_run t_cnt t_lim t_mem] in *; intuition lia.
Qed.

Lemma proper_dec : forall p w o, {proper p w o} + {~ proper p w o}.
Proof.
  intros p w o.
  assert (BB : forall a b : bool, {a = b} + {a <> b}) by (decide equality).
  assert (ZZ : forall a b, {a <= b} + {~ a <= b}) by (intros; apply Z_le_dec).
  assert (ZL : forall a b, {a < b} + {~ a < b}) by (intros; apply Z_lt_dec).
  assert (ZE : forall a b : Z, {a = b} + {a <> b}) by (intros; apply Z.eq_dec).
  assert (AND : forall P Q : Prop, {P} + {~ P} -> {Q} + {~ Q} -> {P /\ Q} + {~ (P /\ Q)}) by (intros ? ? [] []; [left|right|right|right]; tauto).
  destruct o, p; cbn [proper]; unfold is_u32; repeat apply AND; try match goal with |- context [match ?b with true => _ | false => _ end] => destruct b end; auto.
Qed.

Lemma run_call : forall p t o r, (forall n, o <> WTicks n) ->
  wd_run p t (o :: r) = do x <- call p t o; let (rv, t) := (x : Z * timer) in do rs <- wd_run p t r; Some (WRet rv :: rs).
Proof. intros p t o r N. destruct o; try reflexivity. exfalso. exact (N _ eq_refl). Qed.

Lemma run_plays : forall p ops w t, config p -> rel p w t -> plays p w ops (wd_run p t ops).
Proof.
  intros p. induction ops as [|o r IH]; intros w t C R; [apply p_end|].
  destruct (proper_dec p w o) as [P|P]; [|apply p_improper; exact P].
  assert (D : {n | o = WTicks n} + {forall n, o <> WTicks n}) by (destruct o; [right|right|right|right|left; eexists; reflexivity]; discriminate).
  destruct D as [(n & E)|N].
  - subst o. cbn [wd_run]. unfold wd_adv. cbn [proper] in P. pose proof R as (RR & L & _). destruct (on w) eqn:O.
    + destruct (L eq_refl) as (EV & S & _). rewrite RR, S. cbn [andb]. rewrite (due_ok p w t R O).
      destruct (Z.leb_spec (limit w - elapsed w) n) as [F|F].
      * apply p_fires; assumption.
      * apply p_quiet; try assumption. apply IH; [exact C|]. pose proof (quiet_rel p w t n R O ltac:(lia)) as Q. rewrite RR, S in Q. exact Q.
    + rewrite RR. cbn [andb]. apply p_off; try assumption. apply IH; [exact C|]. rewrite <- RR. destruct t; exact R.
  - rewrite run_call by exact N. destruct (call_ok p w t o C R P N) as (rv & t' & E & [(Z0 & w' & D & R')|(NZ & RF & T)]); rewrite E; cbn [bind].
    + subst rv. apply (p_does p w o w'); try assumption. apply IH; assumption.
    + subst t'. apply p_refused; try assumption. apply IH; assumption.
Qed.

Lemma at_boot_rel : forall p w, config p -> at_boot p w -> rel p w (wd_boot p).
Proof.
  intros p w C (E & S & X). unfold rel, live.
  destruct p; cbn [wd_boot config t_set t_run t_cnt t_lim t_mem no_default starts_with] in *.
  - destruct X as (O & EV), S as [[]|S]. cbn [grants default] in S. rewrite O, u32_id by (unfold is_u32; lia).
    intuition (try discriminate; lia).
  - destruct X as (O & EV), S as [[]|S]. rewrite O, EV. intuition discriminate.
  - destruct X as (O & EV). rewrite O. intuition discriminate.
  - destruct X as (O & EV). rewrite O. intuition discriminate.
  - destruct X as (O & EV). rewrite O, EV. destruct S as [S|S]; [exfalso; cbn in S; lia|]. intuition discriminate.
  - destruct X as (O & EV & LM), S as [[]|S]. rewrite O, EV. intuition lia.
Qed.

Lemma boots : forall p, config p -> exists w, at_boot p w.
Proof.
  intros p C. unfold at_boot.
  assert (K : exists l, no_default p \/ starts_with p l).
  { destruct p; cbn [no_default starts_with config] in *.
    - eexists. right. reflexivity.
    - eexists. right. apply (nrf_grants ms ms C).
    - destruct (em_update_ok secs locked (mk_t true true 0 0 0) (default (Emlib secs locked)) ltac:(cbn; lia)) as [(rv & _ & _ & RF)|(l & _ & _ & G & _)]; [exists 0; left; exact RF|exists l; right; exact G].
    - destruct C as (C & CP & CD & CF).
      destruct (s32_update_ok secs pcs div2 freq (mk_t true true 0 0 0) (default (S32k secs pcs div2 freq)) ltac:(cbn; lia) CP CD CF) as [(rv & _ & _ & RF)|(l & _ & _ & G & _)]; [exists 0; left; exact RF|exists l; right; exact G].
    - destruct (lptim_update_ok secs (mk_t true true 0 0 0) (default (Lptim secs)) eq_refl ltac:(cbn; lia)) as [(rv & _ & _ & RF)|(l & _ & _ & G & _)]; [exists 0; left; exact RF|exists l; right; exact G].
    - eexists. right. reflexivity. }
  destruct K as (l & K).
  destruct p; try (exists (mk_w false 0 0 l false); cbn [elapsed after on ever limit]; auto; fail).
  exists (mk_w true most 0 l true). cbn [elapsed after on ever limit]. auto 6.
Qed.

Theorem follows : forall p, config p ->
  (exists w, at_boot p w) /\ (forall w ops, at_boot p w -> plays p w ops (wd_run p (wd_boot p) ops)).
Proof.
  intros p C. split; [apply boots; exact C|]. intros w ops B. apply run_plays; [exact C|]. apply at_boot_rel; assumption.
Qed.

(** * A life *)
Lemma run_fed : forall p l ns m w t, config p -> rel p w t -> on w = true -> elapsed w = 0 -> limit w = l ->
  Forall (fun n => 0 <= n < l) ns -> 0 <= m ->
  wd_run p t (List.concat (List.map (fun n => [WTicks n; WFeed]) ns) ++ [WTicks m]) =
  Some (List.concat (List.map (fun _ => [WQuiet; WRet 0]) ns) ++ [if l <=? m then WFired l else WQuiet]).
Proof.
  intros p l. induction ns as [|n ns IH]; intros m w t C R O E0 LM F M.
  - cbn [List.map List.concat app wd_run]. unfold wd_adv. pose proof R as (RR & L & _). destruct (L O) as (EV & S & _).
    rewrite RR, O, S, (due_ok p w t R O), E0, LM, Z.sub_0_r. cbn [andb]. destruct (l <=? m); reflexivity.
  - apply Forall_cons_iff in F. destruct F as (N & F).
    cbn [List.map List.concat app]. cbn [wd_run]. unfold wd_adv. pose proof R as (RR & L & _). destruct (L O) as (EV & S & _).
    rewrite RR, O, S, (due_ok p w t R O), E0, LM, Z.sub_0_r. cbn [andb]. destruct (Z.leb_spec l n) as [X|X]; [lia|].
    pose proof (quiet_rel p w t n R O ltac:(lia)) as Q. rewrite RR, O, S in Q.
    set (w1 := mk_w true (limit w) (elapsed w + n) (after w) (ever w)) in *. set (t1 := mk_t true true (t_cnt t + n) (t_lim t) (t_mem t)) in *.
    assert (P : proper p w1 WFeed) by (cbn [proper]; destruct p; first [reflexivity|exact EV]).
    destruct (call_ok p w1 t1 WFeed C Q P ltac:(discriminate)) as (rv & t' & E & [(Z0 & w' & D & R')|(NZ & [] & _)]).
    cbn [call] in E. rewrite E. cbn [bind]. subst rv. inversion D; subst w'. cbn [on limit elapsed after ever w1] in R'.
    rewrite (IH m _ t' C R' eq_refl eq_refl LM F M). reflexivity.
Qed.

Theorem fed : forall p l ns m, config p -> ~ no_default p -> starts_with p l -> Forall (fun n => 0 <= n < l) ns -> 0 <= m ->
  wd_run p (wd_boot p) (life ns m) = Some (lived ns (if l <=? m then WFired l else WQuiet)).
Proof.
  intros p l ns m C ND SW F M. unfold life, lived.
  assert (B : exists w, at_boot p w /\ after w = l).
  { unfold at_boot. destruct p; try (exists (mk_w false 0 0 l false); cbn [elapsed after on ever limit]; auto; fail).
    exists (mk_w true most 0 l true). cbn [elapsed after on ever limit]. auto 7. }
  destruct B as (w & B & A). pose proof (at_boot_rel p w C B) as R. rewrite run_call by discriminate.
  assert (P : proper p w WEnable) by (destruct B as (E0 & _ & X); cbn [proper]; destruct p; first [exact I|exact E0|apply X]).
  destruct (call_ok p w (wd_boot p) WEnable C R P ltac:(discriminate)) as (rv & t' & E & [(Z0 & w' & D & R')|(NZ & RF & _)]); [|contradiction].
  rewrite E. cbn [bind]. subst rv. inversion D; subst w'. rewrite A in R'.
  rewrite (run_fed p l ns m _ t' C R' eq_refl eq_refl eq_refl F M). reflexivity.
Qed.
