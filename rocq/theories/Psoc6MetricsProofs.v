(** Proofs about the metrics of the PSoC 6 port. *)
From Verif Require Import Base Metrics MetricsSpec MetricsBuiltin MetricsBuiltinSpec ConnTime ConnTimeSpec ConnTimeProofs Psoc6Metrics Psoc6MetricsSpec.

Definition wcm_distinct (k : ckeys6) : Prop := NoDup [k6_connecting k; k6_connected k; k6_connects k; k6_reconnects k; k6_failures k; k6_disconnects k].
Ltac distinct N := unfold wcm_distinct in N;
  repeat match goal with Q : NoDup (_ :: _) |- _ => inversion Q; clear Q; subst end;
  repeat match goal with Q : ~ In _ (_ :: _) |- _ => apply not_in_cons in Q; destruct Q end.

Lemma wcm_connecting defs timers k h d : mdefs_ok defs -> wcm_distinct k -> get defs (k6_connecting k) = Some d -> md_type d = MTimer -> md_session d = h ->
  says_time defs timers h (wcm_ops k) wlan_next one_attempt trying wlan0 (k6_connecting k).
Proof.
  intros MD N G T S. apply (timer_boot _ _ _ _ d); try assumption; try reflexivity; distinct N.
  - intros e now. destruct e; cbn [wcm_ops]; keyed.
  - intros s e now A. destruct e; cbn -[Z.eqb] in *; eqbs; try reflexivity; exact A.
Qed.
Lemma wcm_connected defs timers k h d : mdefs_ok defs -> wcm_distinct k -> get defs (k6_connected k) = Some d -> md_type d = MTimer -> md_session d = h ->
  says_time defs timers h (wcm_ops k) wlan_next (fun _ _ => True) online6 wlan0 (k6_connected k).
Proof.
  intros MD N G T S. apply (timer_boot _ _ _ _ d); try assumption; try reflexivity; distinct N.
  - intros e now. destruct e; cbn [wcm_ops]; keyed.
  - intros s e now A. destruct e; cbn -[Z.eqb] in *; eqbs; try reflexivity; exact A.
Qed.
Definition count_key (k : ckeys6) (e : wcm_evt) (x : Z) : Prop :=
  match e with WConnected => x = k6_connects k | WReconnected => x = k6_reconnects k | WFailed => x = k6_failures k | WDisconnected => x = k6_disconnects k | _ => False end.
Lemma wcm_count defs timers k h d e x : mdefs_ok defs -> wcm_distinct k -> count_key k e x -> get defs x = Some d -> md_type d = MUnsigned -> md_session d = h ->
  says_count defs timers h (wcm_ops k) wlan_next (fun _ _ => True) (fun _ => is_evt e) wlan0 x.
Proof.
  intros MD N CK G T S. apply (count_boot _ _ _ _ d); try assumption; distinct N.
  - intros e' now. destruct e; try contradiction; cbn in CK; subst x; destruct e'; cbn [wcm_ops]; keyed.
  - intros s e' now _. destruct e; try contradiction; cbn in CK; subst x; destruct e'; cbn -[Z.eqb] in *; eqbs; reflexivity.
Qed.
Lemma wcm_all defs timers k h l : mdefs_ok defs -> wcm_distinct k ->
  is_timer defs h (k6_connecting k) -> is_timer defs h (k6_connected k) ->
  (forall x, In x [k6_connects k; k6_reconnects k; k6_failures k; k6_disconnects k] -> is_counter defs h x) ->
  others [k6_connecting k; k6_connected k; k6_connects k; k6_reconnects k; k6_failures k; k6_disconnects k] l -> in_order 0 l ->
  reports defs timers h (wcm_ops k) l (k6_connected k) (shows (time_while wlan_next online6 wlan0 0 0 l)) /\
  (always wlan_next one_attempt wlan0 (events l) ->
   reports defs timers h (wcm_ops k) l (k6_connecting k) (shows (time_while wlan_next trying wlan0 0 0 l))) /\
  reports defs timers h (wcm_ops k) l (k6_connects k) (counted (times_that wlan_next (fun _ => is_evt WConnected) wlan0 0 l)) /\
  reports defs timers h (wcm_ops k) l (k6_reconnects k) (counted (times_that wlan_next (fun _ => is_evt WReconnected) wlan0 0 l)) /\
  reports defs timers h (wcm_ops k) l (k6_failures k) (counted (times_that wlan_next (fun _ => is_evt WFailed) wlan0 0 l)) /\
  reports defs timers h (wcm_ops k) l (k6_disconnects k) (counted (times_that wlan_next (fun _ => is_evt WDisconnected) wlan0 0 l)).
Proof.
  intros MD N (d1 & G1 & T1 & S1) (d2 & G2 & T2 & S2) CT OT IO.
  split; [|split; [intros A|]].
  - exact (reports_time _ _ _ _ _ _ _ _ _ _ l MD (wcm_connected defs timers k h d2 MD N G2 T2 S2) OT ltac:(cbn; auto 10) IO (always_true _ _ _)).
  - exact (reports_time _ _ _ _ _ _ _ _ _ _ l MD (wcm_connecting defs timers k h d1 MD N G1 T1 S1) OT ltac:(cbn; auto 10) IO A).
  - assert (C : forall e x, count_key k e x -> reports defs timers h (wcm_ops k) l x (counted (times_that wlan_next (fun _ => is_evt e) wlan0 0 l))).
    { intros e x CK. assert (I1 : In x [k6_connects k; k6_reconnects k; k6_failures k; k6_disconnects k]) by (destruct e; cbn in CK; subst; cbn; tauto).
      destruct (CT x I1) as (d & G & T & S).
      exact (reports_count _ _ _ _ _ _ _ _ _ _ l MD (wcm_count defs timers k h d e x MD N CK G T S) OT ltac:(cbn in *; tauto) (always_true _ _ _)). }
    repeat split; apply C; reflexivity.
Qed.

(** ** At a heartbeat *)
Lemma collects_nth k : forall l last pre x post, l = pre ++ x :: post ->
  nth_error (collects6 k last l) (length pre) = Some (fst (collect6 k (fold_left (fun b x => match s_stat x with Some p => p | None => b end) pre last) x)).
Proof.
  intros l last pre. revert l last. induction pre as [|y pre IH]; intros l last x post ->; cbn [app length collects6].
  - cbn [fold_left]. destruct (collect6 k last x). reflexivity.
  - destruct (collect6 k last y) as [ops last'] eqn:E. cbn [nth_error fold_left]. rewrite (IH _ last' x post eq_refl). do 3 f_equal.
    unfold collect6 in E. destruct (s_stat y) as [[tx rx]|]; injection E as _ <-; reflexivity.
Qed.
Lemma collect_says k last x : keys_ok6 k -> let ops := fst (collect6 k last x) in
  last_set (k6_total k) ops = Some (u32 (h_limit x - h_base x)) /\
  last_set (k6_minfree k) ops = Some (u32 (u32 (h_limit x - h_base x) - h_arena x)) /\
  last_set (k6_free k) ops = Some (u32 (u32 (h_limit x - h_base x) - h_used x)) /\
  last_set (k6_signal k) ops = match s_ap x with Some p => Some (fst p) | None => None end /\
  last_set (k6_channel k) ops = match s_ap x with Some p => Some (u32 (snd p)) | None => None end /\
  last_set (k6_tx k) ops = match s_stat x with Some p => Some (u32 (snd p - snd last)) | None => None end /\
  last_set (k6_rx k) ops = None.
Proof.
  intros N. unfold keys_ok6 in N. distinct N. unfold collect6. cbv zeta.
  destruct (s_stat x) as [[tx rx]|], (s_ap x) as [[sg ch]|]; cbn -[Z.eqb u32]; eqbs; unfold u32; rewrite ?Z.mod_mod by lia; repeat split.
Qed.
