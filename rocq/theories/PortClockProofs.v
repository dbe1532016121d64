(** Proofs about the clocks and heartbeat timers of the ports. *)
From Verif Require Import Base PortMetrics PortMetricsProofs PortClock PortClockSpec.

Lemma u32_delta a b : 0 <= b - a < 2^32 -> u32 (b mod 2^32 - a mod 2^32) = b - a.
Proof. intros H. unfold u32. rewrite <- Zminus_mod. apply Z.mod_small. exact H. Qed.

(** ** FreeRTOS *)
Lemma conv_close hz t : 0 < hz -> 0 <= t -> ms_close hz t (t * (65536000 / hz) / 65536).
Proof.
  intros Hh Ht. unfold ms_close.
  pose proof (Z.mul_div_le 65536000 hz Hh) as A. pose proof (Z.mul_succ_div_gt 65536000 hz Hh) as B.
  set (k := 65536000 / hz) in *.
  pose proof (Z.mul_div_le (t * k) 65536 ltac:(lia)) as C. pose proof (Z.mul_succ_div_gt (t * k) 65536 ltac:(lia)) as D.
  set (m := t * k / 65536) in *. split; nia.
Qed.
Lemma conv_exact hz t : 0 < hz -> 0 <= t -> (hz | 65536000) -> ms_exact hz t (t * (65536000 / hz) / 65536).
Proof.
  intros Hh Ht (q & Q). unfold ms_exact.
  replace (65536000 / hz) with q by (rewrite Q; rewrite Z.div_mul; lia).
  pose proof (Z.mul_div_le (t * q) 65536 ltac:(lia)) as C. pose proof (Z.mul_succ_div_gt (t * q) 65536 ltac:(lia)) as D.
  set (m := t * q / 65536) in *. split; nia.
Qed.

Lemma fclock_run_eq hz : 0 < hz -> forall l p, 0 <= p -> slow (2^32) p l ->
  Forall (fun t => t * (65536000 / hz) < 2^64) l -> Forall (fun t => t < 2^64) l ->
  fclock_run hz (mk_fc p (p mod 2^32)) (map (fun t => t mod 2^32) l) = map (fun t => t * (65536000 / hz) / 65536) l.
Proof.
  intros Hh. induction l as [|t l IH]; intros p Hp S F G; [reflexivity|].
  destruct S as (S1 & S2). inversion F as [|x y F1 F2]; subst. inversion G as [|x y G1 G2]; subst.
  cbn [map fclock_run]. unfold fclock_ms. cbn [fc_elapsed fc_last].
  rewrite u32_delta by lia. replace (p + (t - p)) with t by lia.
  rewrite (u64_small t) by lia. change (1000 * 65536) with 65536000.
  assert (0 <= 65536000 / hz) by (apply Z.div_pos; lia).
  rewrite u64_small by (split; [nia|exact F1]).
  rewrite IH by (try lia; assumption). reflexivity.
Qed.

Lemma slow_nonneg lim : forall l p, 0 <= p -> slow lim p l -> Forall (fun t => 0 <= t) l.
Proof.
  induction l as [|t l IH]; intros p Hp S; [constructor|]. destruct S as (S1 & S2).
  constructor; [lia|]. apply (IH t); [lia|exact S2].
Qed.

Lemma fclock_ok hz l : 0 < hz -> slow (2^32) 0 l -> Forall (fun t => t * (65536000 / hz) < 2^64) l -> Forall (fun t => t < 2^64) l ->
  Forall2 (ms_close hz) l (fclock_run hz fclock_init (map (fun t => t mod 2^32) l)) /\
  ((hz | 65536000) -> Forall2 (ms_exact hz) l (fclock_run hz fclock_init (map (fun t => t mod 2^32) l))).
Proof.
  intros Hh S F G. change fclock_init with (mk_fc 0 (0 mod 2^32)).
  rewrite (fclock_run_eq hz Hh l 0 ltac:(lia) S F G).
  pose proof (slow_nonneg _ l 0 ltac:(lia) S) as P. clear S F G.
  split.
  - induction P as [|t l P1 P IH]; cbn [map]; constructor; [now apply conv_close|exact IH].
  - intros Q. induction P as [|t l P1 P IH]; cbn [map]; constructor; [now apply conv_exact|exact IH].
Qed.

Lemma scaled_slow k : 0 <= k -> forall l p, 0 <= p -> slow (2^32) p l -> Forall (fun t => t * k < 2^64) l ->
  slow (2^64) (p * k / 65536) (map (fun t => t * k / 65536) l).
Proof.
  intros Hk. induction l as [|t l IH]; intros p Hp S F; [exact I|]. destruct S as (S1 & S2).
  inversion F as [|x y F1 F2]; subst. cbn [map slow]. split; [|apply IH; [lia|assumption|assumption]].
  assert (A : p * k / 65536 <= t * k / 65536) by (apply Z.div_le_mono; nia).
  assert (B : t * k / 65536 < 2^64) by (apply Z.div_lt_upper_bound; lia).
  assert (D : 0 <= p * k / 65536) by (apply Z.div_pos; nia). lia.
Qed.
(** The time never goes back. *)
Lemma fclock_monotone hz l : 0 < hz -> slow (2^32) 0 l -> Forall (fun t => t * (65536000 / hz) < 2^64) l -> Forall (fun t => t < 2^64) l ->
  slow (2^64) 0 (fclock_run hz fclock_init (map (fun t => t mod 2^32) l)).
Proof.
  intros Hh S F G. change fclock_init with (mk_fc 0 (0 mod 2^32)).
  rewrite (fclock_run_eq hz Hh l 0 ltac:(lia) S F G).
  assert (K : 0 <= 65536000 / hz) by (apply Z.div_pos; lia).
  exact (scaled_slow _ K l 0 ltac:(lia) S F).
Qed.

Lemma f_period_ok w hz p : 0 < hz -> (hz | 1000) -> 0 <= p < 2^32 -> p * hz < 2^w -> f_period w hz p = Some (p * hz).
Proof.
  intros Hh (q & Q) Hp Hw. unfold f_period.
  replace (1000 / hz) with q by (rewrite Q; rewrite Z.div_mul; lia).
  assert (Hq : 0 < q) by nia.
  replace (q =? 0) with false by (symmetry; apply Z.eqb_neq; lia).
  rewrite u64_small by lia. f_equal. rewrite Q. replace (p * (q * hz)) with (p * hz * q) by lia.
  rewrite Z.div_mul by lia. apply uw_small. nia.
Qed.

(** ** nRF5 *)
Lemma cnt_diff_ok a b : 0 <= b - a < 2^24 -> cnt_diff (b mod 2^24) (a mod 2^24) = b - a.
Proof. intros H. unfold cnt_diff, uw. rewrite <- Zminus_mod. apply Z.mod_small. exact H. Qed.

Definition nclock_at (c : nclock) (t : Z) : Prop := nc_ticks c = t /\ nc_last c = t mod 2^24.

Lemma nclock_update_ok c t t' : nclock_at c t -> 0 <= t -> 0 <= t' - t < 2^24 -> t' < 2^64 -> nclock_at (nclock_update c (t' mod 2^24)) t'.
Proof.
  intros (A & B) H0 H1 H2. unfold nclock_at, nclock_update. cbn [nc_ticks nc_last]. rewrite A, B, cnt_diff_ok by lia.
  split; [|reflexivity]. rewrite u64_small; lia.
Qed.

Lemma ntimer_clock : forall cnts s t, nclock_at (nt_clock s) t -> 0 <= t -> slow (2^24) t cnts -> Forall (fun t => t < 2^64) cnts ->
  nclock_at (nt_clock (snd (ntimer_run s (map (fun c => c mod 2^24) cnts)))) (last cnts t).
Proof.
  induction cnts as [|c cnts IH]; intros s t A H0 S F; [exact A|].
  destruct S as (S1 & S2). inversion F as [|x y F1 F2]; subst. cbn [map ntimer_run].
  destruct (ntimer_fire s (c mod 2^24)) as [b s1] eqn:E.
  assert (A1 : nclock_at (nt_clock s1) c).
  { unfold ntimer_fire in E. pose proof (nclock_update_ok (nt_clock s) t c A H0 S1 F1).
    destruct (nt_interval s =? 0); injection E as <- <-; assumption. }
  specialize (IH s1 c A1 ltac:(lia) S2 F2).
  destruct (ntimer_run s1 (map (fun c => c mod 2^24) cnts)) as [bs s2]. cbn [snd] in *.
  replace (last (c :: cnts) t) with (last cnts c); [exact IH|]. clear. revert c t.
  induction cnts as [|x l IH]; intros c t; [reflexivity|]. change (last (x :: l) c = last (x :: l) t).
  destruct l; [reflexivity|]. cbn [last] in *. destruct l; [reflexivity|]. exact (IH c t).
Qed.

Lemma slow_last lim : forall l p, 0 <= p -> slow lim p l -> 0 <= last l p.
Proof.
  induction l as [|x l IH]; intros p Hp S; [exact Hp|]. destruct S as (S1 & S2).
  specialize (IH x ltac:(lia) S2). destruct l; [cbn; lia|].
  change (0 <= last (z :: l) p). replace (last (z :: l) p) with (last (z :: l) x); [exact IH|].
  clear. revert z. induction l as [|y l IH]; intros z; [reflexivity|]. exact (IH y).
Qed.

(** The time is right at any moment less than 2^24 ticks after the timer last fired. *)
Lemma nclock_ok presc cnts now s : 0 <= presc < 32768 -> nt_clock s = nclock_init -> slow (2^24) 0 cnts ->
  0 <= now - last cnts 0 < 2^24 -> 1000 * now < 2^64 -> Forall (fun t => t < 2^64) cnts ->
  exists ms, nclock_ms presc (nt_clock (snd (ntimer_run s (map (fun c => c mod 2^24) cnts)))) (now mod 2^24) = Some ms /\
    ms_exact (32768 / (presc + 1)) now ms.
Proof.
  intros Hp Hs S Hn Hb F.
  assert (A0 : nclock_at (nt_clock s) 0) by (rewrite Hs; split; reflexivity).
  destruct (ntimer_clock cnts s 0 A0 ltac:(lia) S F) as (A & B).
  pose proof (slow_last _ cnts 0 ltac:(lia) S) as L.
  assert (P : 0 < 32768 / (presc + 1)) by (apply Z.div_str_pos; lia).
  unfold nclock_ms. rewrite A, B, cnt_diff_ok by lia.
  replace (32768 / (presc + 1) =? 0) with false by (symmetry; apply Z.eqb_neq; lia).
  replace (last cnts 0 + (now - last cnts 0)) with now by lia.
  rewrite (u64_small now) by lia. rewrite u64_small by lia.
  eexists. split; [reflexivity|]. unfold ms_exact.
  pose proof (Z.mul_div_le (1000 * now) _ P). pose proof (Z.mul_succ_div_gt (1000 * now) _ P). lia.
Qed.

Lemma ntimer_every k : 0 < k -> forall cnts s n, nt_interval s = k -> nt_elapsed s = n -> 0 <= n -> n + zlen cnts < 2^32 ->
  fst (ntimer_run s cnts) = every k (n + 1) (length cnts).
Proof.
  intros Hk. induction cnts as [|c cnts IH]; intros s n I E H0 H; [reflexivity|]. rewrite zlen_cons in H.
  pose proof (zlen_nonneg cnts). cbn [ntimer_run length every]. unfold ntimer_fire. rewrite I.
  replace (k =? 0) with false by (symmetry; apply Z.eqb_neq; lia).
  rewrite E, (u32_small (n + 1)) by lia.
  specialize (IH (mk_nt (nclock_update (nt_clock s) c) (n + 1) k) (n + 1) eq_refl eq_refl ltac:(lia) ltac:(lia)).
  destruct (ntimer_run (mk_nt (nclock_update (nt_clock s) c) (n + 1) k) cnts) as [bs s2]. cbn [fst] in *. now rewrite IH.
Qed.
Lemma ntimer_always : forall cnts s, nt_interval s = 0 -> fst (ntimer_run s cnts) = repeat true (length cnts).
Proof.
  induction cnts as [|c cnts IH]; intros s I; [reflexivity|]. cbn [ntimer_run length repeat]. unfold ntimer_fire. rewrite I.
  change (0 =? 0) with true. cbv iota.
  specialize (IH (mk_nt (nclock_update (nt_clock s) c) (nt_elapsed s) 0) eq_refl).
  destruct (ntimer_run (mk_nt (nclock_update (nt_clock s) c) (nt_elapsed s) 0) cnts) as [bs s2]. cbn [fst] in *. now rewrite IH.
Qed.

(** The heartbeat comes with the timer, or with every so many minutes. *)
Lemma ntimer_ok to_ticks max c p s start : 30 <= p -> p * 1000 < 2^32 -> ntimer_boot to_ticks max c p = (s, start) ->
  (to_ticks (p * 1000) <= max /\ start = to_ticks (p * 1000) /\
     forall cnts, fst (ntimer_run s cnts) = repeat true (length cnts)) \/
  (max < to_ticks (p * 1000) /\ start = to_ticks 60000 /\
     exists minutes, 0 < minutes /\ Z.abs (60 * minutes - p) <= 30 /\
       forall cnts, zlen cnts < 2^32 -> fst (ntimer_run s cnts) = every minutes 1 (length cnts)).
Proof.
  intros H0 H1 E. unfold ntimer_boot in E. rewrite (u32_small (p * 1000)) in E by lia.
  destruct (max <? to_ticks (p * 1000)) eqn:K.
  - right. apply Z.ltb_lt in K. injection E as <- <-. split; [exact K|]. split; [reflexivity|].
    assert (R : rounded_div p 60 = (p + 30) / 60) by reflexivity.
    pose proof (Z.mul_div_le (p + 30) 60 ltac:(lia)) as A. pose proof (Z.mul_succ_div_gt (p + 30) 60 ltac:(lia)) as B.
    exists ((p + 30) / 60). split; [lia|]. split; [lia|].
    intros cnts L. rewrite R, u32_small by lia. apply (ntimer_every ((p + 30) / 60) ltac:(lia) cnts _ 0); cbn [nt_interval nt_elapsed]; lia.
  - left. apply Z.ltb_ge in K. injection E as <- <-. split; [exact K|]. split; [reflexivity|].
    intros cnts. now apply ntimer_always.
Qed.

(** ** The others *)
Lemma d_ms_ok time : 0 <= time < 2^32 -> ms_exact 1600 time (d_ms true time).
Proof.
  intros H. unfold d_ms, ms_exact. rewrite u64_small by lia.
  pose proof (Z.mul_div_le (time * 625) 1000 ltac:(lia)). pose proof (Z.mul_succ_div_gt (time * 625) 1000 ltac:(lia)).
  split; lia.
Qed.
Lemma periods_ok hz p : 0 <= p < 2^32 -> 0 <= hz -> e_period p = p * 1000000 /\ (p * hz < 2^32 -> m_period hz p = p * hz).
Proof.
  intros H Hh. unfold e_period, m_period. split; [apply u64_small; lia|]. intros K. apply u32_small. nia.
Qed.
