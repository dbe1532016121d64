(** C30: the task watchdog. *)
From Verif Require Import Base Watchdog WatchdogSpec WatchdogProofs.

(** C30: as long as no running channel is checked across a wrap of the 32-bit millisecond counter,
    a check panics exactly when some running channel has not been started or fed within the timeout,
    and otherwise refreshes the hardware watchdog. *)
Theorem C30_fires_exactly_when_overdue : forall timeout n ops, 0 <= timeout -> ops_fine n [] ops ->
  exists w', wd_run timeout (wd_init n) ops = Some (answers timeout n [] ops, w').
Proof. exact wd_boot_ok. Qed.
Print Assumptions C30_fires_exactly_when_overdue.
Example C30_case :
  let ops := [(10, WStart 0%nat); (20, WStart 1%nat); (900, WFeed 0%nat); (1020, WCheck); (1021, WCheck);
              (1030, WStop 1%nat); (1031, WCheck); (1901, WCheck); (1902, WFeed 0%nat); (1903, WCheck)] in
  ops_fine 2 [] ops /\
  answers 1000 2 [] ops = [WDone; WDone; WDone; WRefresh; WPanic; WDone; WRefresh; WPanic; WDone; WRefresh].
Proof.
  split; [|reflexivity]. cbn [ops_fine].
  repeat match goal with
  | |- _ /\ _ => split
  | |- True => exact I
  | |- op_fine _ _ _ _ => unfold op_fine; cbn [channel_of]; split; [lia|split; [first [exact I|lia]|split; [first [exact I|lia]|]]]
  | |- _ = WCheck -> _ => first [discriminate|intros _ [|[|i]] Hi R; [reflexivity|reflexivity|lia]]
  end.
Qed.

(** C30: an overdue channel stays overdue, however much time passes and whatever happens to the other
    channels, until it is fed, started or stopped. *)
Theorem C30_overdue_until_fed : forall timeout i t past later t',
  overdue timeout past t i = true -> t <= t' ->
  Forall (fun x => channel_of (snd x) <> Some i) later ->
  overdue timeout (later ++ past) t' i = true.
Proof. exact overdue_persists. Qed.
Print Assumptions C30_overdue_until_fed.
Example C30_overdue_case :
  overdue 1000 [(5, WStart 3%nat)] 1006 3 = true /\
  Forall (fun x : Z * wd_op => channel_of (snd x) <> Some 3%nat) [(1010, WCheck); (1009, WFeed 2%nat)].
Proof. split; [reflexivity|]. repeat constructor; discriminate. Qed.

(** C30 does not hold across a wrap of the counter: with any timeout, a channel started one
    millisecond ago makes a check panic, and one started 49.7 days ago goes unnoticed. *)
Theorem C30_across_a_wrap_refuted : forall timeout, 1 <= timeout < 4294967296 ->
  (exists w', wd_run timeout (wd_init 1) [(4294967295, WStart 0); (4294967296, WCheck)] = Some ([WDone; WPanic], w') /\
     any_overdue timeout 1 [(4294967295, WStart 0)] 4294967296 = false) /\
  (exists w', wd_run timeout (wd_init 1) [(0, WStart 0); (4294967296, WCheck)] = Some ([WDone; WRefresh], w') /\
     any_overdue timeout 1 [(0, WStart 0)] 4294967296 = true).
Proof.
  intros timeout H. split; eexists; [exact (wrap_run timeout H)|].
  apply wrap_missed. destruct H; split; [|assumption]. now apply Z.le_trans with (m := 1).
Qed.
Print Assumptions C30_across_a_wrap_refuted.
