(** Properties C24-C26: the RAM log. *)
From Coq Require Import String Sorted FinFun.
From Verif Require Import Base CircularBuffer CircularBufferProofs Log LogSpec LogHistoryProofs.

(** Every call of every history from boot answers as the specification says: the logs held are a
    function of the logs accepted, reads and uploads are positions in that list. *)
Theorem C24_log_answers_as_specified max ts_enabled storage min ops rs h :
  0 < zlen storage < 2147483648 -> 4 <= max <= 255 -> Forall (log_op_ok ts_enabled) ops ->
  hist_run max (zlen storage) (hist_init min) ops = Some (rs, h) ->
  exists s s', log_boot storage (zlen storage) min = Some (Some s) /\ log_run max ts_enabled s ops = Some (rs, s').
Proof.
  intros HC HM HO H. destruct (log_history max ts_enabled storage min ops rs h HC HM HO H) as (s & s' & E1 & E2 & _). eauto.
Qed.
Print Assumptions C24_log_answers_as_specified.

(** The buffer's bytes parse as logs: level, type, time and text of the most recent logs accepted, in
    order, without a gap, up to the last one; and it holds as many of them as fit. *)
Theorem C24_buffer_holds_the_most_recent_logs max ts_enabled storage min ops rs h :
  0 < zlen storage < 2147483648 -> 4 <= max <= 255 -> Forall (log_op_ok ts_enabled) ops ->
  hist_run max (zlen storage) (hist_init min) ops = Some (rs, h) ->
  exists s s' logs gone,
    log_boot storage (zlen storage) min = Some (Some s) /\ log_run max ts_enabled s ops = Some (rs, s') /\
    parse_logs (Z.to_nat (zlen storage)) (content (lg_cb s')) = Some logs /\
    accepted max ops rs = gone ++ map fst logs /\ hrooms (map fst logs) <= zlen storage /\
    (forall older e, gone = older ++ [e] -> zlen storage < hrooms (e :: map fst logs)).
Proof.
  intros HC HM HO H. destruct (log_history max ts_enabled storage min ops rs h HC HM HO H) as (s & s' & E1 & E2 & E3).
  destruct (grun max (zlen storage) ops ltac:(lia) _ _ _ (ginv_init _ min) H) as (_ & S & _). cbn [hist_init h_saved app] in S.
  destruct (fit_suffix (zlen storage) (h_saved h)) as (gone & EG & _).
  assert (MF : forall n m l i, map fst (flagged n m i l) = l).
  { intros n m l. induction l as [|e l IH]; intros i; cbn [flagged map fst]; [reflexivity|]. now rewrite IH. }
  exists s, s', (flagged (h_next h) (h_sent h) (first (zlen storage) (h_saved h)) (fit (zlen storage) (h_saved h))), gone.
  rewrite MF, <- S. split; [exact E1|]. split; [exact E2|]. split; [exact E3|]. split; [exact EG|].
  split; [apply fit_fits; lia|]. intros older e EO. apply (fit_longest _ (h_saved h) _ e older); [|reflexivity].
  rewrite EG at 1. rewrite EO, <- app_assoc. reflexivity.
Qed.
Print Assumptions C24_buffer_holds_the_most_recent_logs.

(** Five logs into 24 bytes: the first is read, the second lost, the last is cut to 8 bytes (minus
    the timestamp). *)
Definition c24_ops : list log_op :=
  [LSave 1 0 None (str "hello"); LSave 0 0 None (str "debug"); LRead; LSave 2 0 (Some 66051) (str "ab"); LSave 3 1 None [1; 2; 255; 4];
   LSave 2 0 (Some 7) (str "sixteen bytes"); LRecorded; LDropped; LRead; LRead].
Example C24_case : (do s <- log_boot (fill 24 0) 24 1; do s <- s; do x <- log_run 8 true s c24_ops;
     Some (fst x, parse_logs 24 (content (lg_cb (snd x)))))
  = Some ([RSaved true; RSaved false; RLog (Some (mk_rlog 1 0 0 (str "hello"))); RSaved true; RSaved true; RSaved true;
           RCount 4; RCount 0; RLog (Some (mk_rlog 2 0 66051 (str "ab"))); RLog (Some (mk_rlog 3 1 0 [1; 2; 255; 4]))],
          Some [(mk_hlog 2 0 (Some 66051) (str "ab"), (true, false)); (mk_hlog 3 1 None [1; 2; 255; 4], (true, false));
                (mk_hlog 2 0 (Some 7) (str "sixt"), (false, false))])
  /\ option_map fst (hist_run 8 24 (hist_init 1) c24_ops) = (do s <- log_boot (fill 24 0) 24 1; do s <- s; option_map fst (log_run 8 true s c24_ops)).
Proof. split; vm_compute; reflexivity. Qed.

(** The recorded count is the number of logs accepted; the dropped count is the number refused for
    lack of room plus the number evicted that were never read nor uploaded (both modulo 2^32). *)
Theorem C25_log_counters_exact max ts_enabled storage min ops rs h :
  0 < zlen storage < 2147483648 -> 4 <= max <= 255 -> Forall (log_op_ok ts_enabled) ops ->
  hist_run max (zlen storage) (hist_init min) ops = Some (rs, h) ->
  exists s s' lost,
    log_boot storage (zlen storage) min = Some (Some s) /\
    log_run max ts_enabled s (ops ++ [LRecorded; LDropped]) =
      Some (rs ++ [RCount (zlen (accepted max ops rs) mod 4294967296);
                   RCount ((refused min ops rs + zlen lost) mod 4294967296)], s') /\
    NoDup lost /\
    (forall i, In i lost <-> 0 <= i < first (zlen storage) (accepted max ops rs) /\ ~ In i (h_reads h) /\ ~ In i (h_ups h)).
Proof.
  intros HC HM HO H.
  destruct (grun max (zlen storage) ops ltac:(lia) _ _ _ (ginv_init _ min) H) as (_ & S & L & _). cbn [hist_init h_saved h_min h_lost app] in S, L.
  assert (H2 : hist_run max (zlen storage) h [LRecorded; LDropped] = Some ([RCount (wrap32 (zlen (h_saved h))); RCount (wrap32 (h_lost h))], h)) by reflexivity.
  pose proof (hist_run_app _ _ _ _ _ _ _ _ _ H H2) as HA.
  assert (HO2 : Forall (log_op_ok ts_enabled) (ops ++ [LRecorded; LDropped])) by (apply Forall_app; split; [exact HO|repeat constructor]).
  destruct (log_history max ts_enabled storage min _ _ h HC HM HO2 HA) as (s & s' & E1 & E2 & _).
  exists s, s', (filter (untouched h) (zrange 0 (first (zlen storage) (h_saved h)))). split; [exact E1|]. split.
  - rewrite E2. rewrite S. unfold wrap32. do 6 f_equal. unfold gone_count at 2 in L. change (zrange 0 _) with (@nil Z) in L. change (zlen (filter _ [])) with 0 in L.
    unfold gone_count in L. rewrite S in L. f_equal. f_equal. lia.
  - split.
    + apply NoDup_filter. unfold zrange. apply Injective_map_NoDup; [intros a b; lia|apply seq_NoDup].
    + intros i. rewrite filter_In, In_zrange, <- S. unfold untouched. rewrite andb_true_iff, !negb_true_iff, <- !not_true_iff_false, !mem_In. tauto.
Qed.
Print Assumptions C25_log_counters_exact.

(** One log read and evicted, one lost, one refused for its size, one uploaded and evicted. *)
Example C25_case : (do s <- log_boot (fill 10 0) 10 0; do s <- s;
    option_map fst (log_run 20 false s [LSave 1 0 None [65; 66; 67]; LRead; LSave 1 0 None [68; 69; 70]; LSave 1 0 None [71; 72; 73]; LSave 1 0 None [74; 75; 76];
                                  LSave 1 0 None [65; 65; 65; 65; 65; 65; 65; 65; 65]; LRead; LRead; LRead; LTrigger None; LSave 1 0 None [81]; LMarkSent; LSave 1 0 None [82; 83; 84; 85]; LRecorded; LDropped]))
  = Some [RSaved true; RLog (Some (mk_rlog 1 0 0 [65; 66; 67])); RSaved true; RSaved true; RSaved true; RSaved false;
          RLog (Some (mk_rlog 2 0 0 (str "... 2 messages dropp"%string))); RLog (Some (mk_rlog 1 0 0 [71; 72; 73])); RLog (Some (mk_rlog 1 0 0 [74; 75; 76]));
          RDone; RSaved false; RDone; RSaved true; RCount 5; RCount 3].
Proof. vm_compute. reflexivity. Qed.

(** The reads return, apart from notices of lost logs, accepted logs with their content: at most once
    each, oldest first, and a log is skipped only if it is gone from the buffer. *)
Theorem C26_each_log_read_at_most_once_in_order max ts_enabled storage min ops rs h :
  0 < zlen storage < 2147483648 -> 4 <= max <= 255 -> Forall (log_op_ok ts_enabled) ops ->
  hist_run max (zlen storage) (hist_init min) ops = Some (rs, h) ->
  exists s s' idx,
    log_boot storage (zlen storage) min = Some (Some s) /\ log_run max ts_enabled s ops = Some (rs, s') /\
    reads_logs max (accepted max ops rs) (returned rs) idx /\ StronglySorted Z.lt idx /\
    (forall i j, In j idx -> 0 <= i < j -> ~ In i idx -> i < first (zlen storage) (accepted max ops rs)).
Proof.
  intros HC HM HO H. destruct (log_history max ts_enabled storage min ops rs h HC HM HO H) as (s & s' & E1 & E2 & E3).
  destruct (grun max (zlen storage) ops ltac:(lia) _ _ _ (ginv_init _ min) H) as (G & S & _ & new & R & RL). cbn [hist_init h_saved h_reads app] in *.
  exists s, s', new. split; [exact E1|]. split; [exact E2|]. rewrite <- S, <- R. rewrite <- R in RL. split; [exact RL|]. split; [apply G|].
  intros i j Hj Hi Hn. destruct (Z.lt_ge_cases i (first (zlen storage) (h_saved h))) as [X|X]; [exact X|]. exfalso. apply Hn.
  apply (i_reads _ _ G). apply (i_reads' _ _ G) in Hj. lia.
Qed.
Print Assumptions C26_each_log_read_at_most_once_in_order.

(** The contract of the reads is needed: once an upload is marked as done for a log not yet read,
    evicting that log makes the read position wrap around zero, and no later read finds the logs
    that are waiting. *)
Theorem C26_uploaded_then_evicted_blocks_reads_refuted : ~ (forall max storage s text rs s',
  log_boot storage (zlen storage) 0 = Some (Some s) -> 4 <= max <= 255 -> bytes text -> 2 + zlen text <= zlen storage ->
  log_run max false s [LSave 1 0 None text; LTrigger None; LMarkSent; LSave 1 0 None text; LRead] = Some (rs, s') ->
  last rs RDone <> RLog None).
Proof.
  intros H. destruct (log_boot (fill 10 0) 10 0) as [[s|]|] eqn:E; [|vm_compute in E; discriminate..].
  pose proof E as E0. vm_compute in E. injection E as <-.
  pose proof (fun rs s' => H 20 (fill 10 0) _ [65; 66; 67; 68] rs s' E0) as X. vm_compute in X.
  refine (X _ _ _ _ _ eq_refl eq_refl).
  - split; discriminate.
  - repeat constructor; discriminate.
  - discriminate.
Qed.
Print Assumptions C26_uploaded_then_evicted_blocks_reads_refuted.

Example C26_case : (do s <- log_boot (fill 16 0) 16 0; do s <- s;
    option_map fst (log_run 20 false s [LSave 1 0 None [65]; LSave 2 0 None [66]; LRead; LSave 3 0 None [67; 68; 69; 70]; LRead; LSave 4 0 None [71; 72; 73; 74];
                                       LSave 5 0 None [75; 76; 77; 78]; LRead; LRead; LRead; LRead]))
  = Some [RSaved true; RSaved true; RLog (Some (mk_rlog 1 0 0 [65])); RSaved true; RLog (Some (mk_rlog 2 0 0 [66])); RSaved true; RSaved true;
          RLog (Some (mk_rlog 2 0 0 (str "... 1 messages dropp"%string))); RLog (Some (mk_rlog 4 0 0 [71; 72; 73; 74])); RLog (Some (mk_rlog 5 0 0 [75; 76; 77; 78])); RLog None].
Proof. vm_compute. reflexivity. Qed.
