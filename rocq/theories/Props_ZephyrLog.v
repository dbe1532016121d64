(** C96: the Zephyr log backends *)
From Coq Require Import String.
From Verif Require Import Base CircularBuffer CircularBufferProofs Log LogSpec LogHistoryProofs ZephyrLog ZephyrLogSpec ZephyrLogProofs Props_Log.

(** A history of messages, with other threads and interrupts logging and the log being used in the middle of them, is
    for the log the calls that [amounts] says: one line a message, or its pieces, and nothing from those that
    came in the middle. *)
Theorem C96_messages_are_saves : forall cfg tse m h, 4 <= cfg -> Forall (message_ok cfg m) h -> noticed m false h ->
  exists ops, amounts cfg m false h ops /\
    forall l, match log_run cfg tse l ops with
              | Some (rs, l') => exists s, zl_run cfg tse m (zl_boot l) h = Some (rs, s) /\ z_log s = l'
              | None => zl_run cfg tse m (zl_boot l) h = None
              end.
Proof. exact from_boot. Qed.
Print Assumptions C96_messages_are_saves.

(** So the buffer holds the most recent of these lines that fit (C24). *)
Theorem C96_buffer_holds_the_lines : forall cfg tse m h, 4 <= cfg <= 255 -> Forall (message_ok cfg m) h -> noticed m false h ->
  exists ops, amounts cfg m false h ops /\
    forall storage min rs hi, 0 < zlen storage < 2147483648 -> Forall (log_op_ok tse) ops ->
      hist_run cfg (zlen storage) (hist_init min) ops = Some (rs, hi) ->
      exists l s logs gone,
        log_boot storage (zlen storage) min = Some (Some l) /\ zl_run cfg tse m (zl_boot l) h = Some (rs, s) /\
        parse_logs (Z.to_nat (zlen storage)) (content (lg_cb (z_log s))) = Some logs /\
        accepted cfg ops rs = (gone ++ map fst logs)%list /\ hrooms (map fst logs) <= zlen storage /\
        (forall older e, gone = (older ++ [e])%list -> zlen storage < hrooms (e :: map fst logs)).
Proof.
  intros cfg tse m h C OK N. destruct (from_boot cfg tse m h ltac:(lia) OK N) as (ops & AM & A). exists ops. split; [exact AM|].
  intros storage min rs hi S LO H.
  destruct (C24_buffer_holds_the_most_recent_logs cfg tse storage min ops rs hi S C LO H) as (l & l' & logs & gone & B & R & P & AC & F & G).
  specialize (A l). rewrite R in A. destruct A as (s & E & L). exists l, s, logs, gone. rewrite L. auto 7.
Qed.
Print Assumptions C96_buffer_holds_the_lines.

(** Immediate mode: an empty message reads out of the buffer ([save_length - 1] wraps, B:199-200). *)
Theorem C96_empty_message_refuted : forall cfg tse l z ts, zl_run cfg tse Immediate (zl_boot l) [ZMessage false z ts []] = None.
Proof. reflexivity. Qed.
Print Assumptions C96_empty_message_refuted.

(** Minimal mode: a message longer than the buffer is read past its end, where logs may be longer than 128 (M:46-51). *)
Theorem C96_long_message_refuted : ~ (forall cfg tse l items, 4 <= cfg <= 255 -> lg_min l <= 1 ->
  zl_run cfg tse Minimal (zl_boot l) [ZMessage false 1 None items] <> None).
Proof.
  intros H. destruct (log_boot (fill 300 0) 300 0) as [[l|]|] eqn:E; [|discriminate..].
  refine (H 255 false l (List.map Ch (fill 129 65)) ltac:(lia) _ _); inversion E; subst l; vm_compute; [discriminate|reflexivity].
Qed.
Print Assumptions C96_long_message_refuted.

(** "Strip EOL characters at end of log since we are storing _lines_" (B:197): not in deferred mode. *)
Theorem C96_deferred_lines_refuted : ~ (forall t ps, pieces t ps -> Forall (fun p => forall body c, p = (body ++ [c])%list -> ~ eol c) ps).
Proof.
  intros H. specialize (H [65; 13; 10] [[65; 13; 10]]). assert (P : pieces [65; 13; 10] [[65; 13; 10]]) by (apply pc_last; vm_compute; discriminate).
  specialize (H P). apply Forall_inv in H. apply (H [65; 13] 10 eq_refl). right. reflexivity.
Qed.
Print Assumptions C96_deferred_lines_refuted.

(** Deferred mode keeps a message whole, in pieces: false, with timestamps each piece of 128 is cut to 124. *)
Theorem C96_deferred_whole_refuted : ~ (forall cfg t ts ops rs, 128 <= cfg <= 255 ->
  tells cfg Deferred false 3 ts (List.map Ch t) ops -> List.Forall (eq (RSaved true)) rs -> List.length rs = List.length ops ->
  List.concat (List.map l_text (accepted cfg ops rs)) = t).
Proof.
  intros H.
  specialize (H 128 (fill 200 65) (Some 7) [LSave 1 0 (Some 7) (fill 128 65); LSave 1 0 (Some 7) (fill 72 65)] [RSaved true; RSaved true] ltac:(lia)).
  assert (E : List.concat (List.map l_text (accepted 128 [LSave 1 0 (Some 7) (fill 128 65); LSave 1 0 (Some 7) (fill 72 65)] [RSaved true; RSaved true])) = fill 200 65).
  { apply H; [|repeat constructor|reflexivity]. exists [fill 128 65; fill 72 65]. split; [|repeat constructor].
    change (chars (List.map Ch (fill 200 65))) with (fill 128 65 ++ fill 72 65)%list.
    apply pc_more; [reflexivity|discriminate|]. apply pc_last. vm_compute. discriminate. }
  apply (f_equal zlen) in E. vm_compute in E. discriminate.
Qed.
Print Assumptions C96_deferred_whole_refuted.

(** What another thread logs in the middle of a message is lost: whatever it is, the history is as without it. *)
Theorem C96_message_within_kept_refuted : forall cfg tse m l z ts a b isr z', 
  zl_run cfg tse m (zl_boot l) [ZMessage false z ts (a ++ Inner isr z' :: b)] = zl_run cfg tse m (zl_boot l) [ZMessage false z ts (a ++ b)].
Proof.
  intros cfg tse m l z ts a b isr z'. cbn [zl_run zl_step]. unfold z_message. cbn [zl_boot z_busy].
  replace ((match m with Immediate => false | _ => false end) || false) with false by (destruct m; reflexivity). cbv iota.
  set (s := match m with Minimal => _ | _ => _ end). assert (B : z_busy s = true) by (unfold s; destruct m; reflexivity). clearbody s.
  enough (E : forall idx, z_items cfg tse m s (map_level z) ts idx (a ++ Inner isr z' :: b) = z_items cfg tse m s (map_level z) ts idx (a ++ b)) by (rewrite E; reflexivity).
  revert s B. induction a as [|i a IH]; intros s B idx.
  - cbn [app z_items]. rewrite B. reflexivity.
  - cbn [app]. destruct i as [c|o|isr2 z2]; cbn [z_items].
    + destruct m.
      * unfold imm_char. destruct (idx <? 128); cbn [bind]; [|apply IH; exact B].
        destruct (put (z_buf s) idx c) as [b'|]; cbn [bind]; [|reflexivity]. apply IH. exact B.
      * unfold def_char, def_flush, z_save.
        destruct (z_off s =? 128); cbn [bind].
        -- destruct (read_at (z_buf s) 0 (z_off s)) as [text|]; cbn [bind]; [|reflexivity].
           destruct (log_step cfg tse (z_log s) (LSave (map_level z) 0 ts text)) as [[r l']|]; cbn [bind fst snd]; [|reflexivity].
           destruct (put _ _ c) as [b'|]; cbn [bind]; [|reflexivity]. rewrite IH by exact B. reflexivity.
        -- destruct (put _ _ c) as [b'|]; cbn [bind]; [|reflexivity]. rewrite IH by exact B. reflexivity.
      * unfold min_char. destruct (idx <? 127); cbn [bind]; [|apply IH; exact B].
        destruct (put (z_buf s) idx c) as [b'|]; cbn [bind]; [|reflexivity]. apply IH. exact B.
    + destruct (log_step cfg tse (z_log s) o) as [[r l']|]; cbn [bind]; [|reflexivity]. rewrite IH by exact B. reflexivity.
    + rewrite B. apply IH. exact B.
Qed.
Print Assumptions C96_message_within_kept_refuted.

(** A notice of dropped messages before any message stops the device (B:212); after one it is a log for each part Zephyr
    hands over, with a level read from a stack frame that is gone (B:124-134). *)
Theorem C96_notice_first_refuted : forall cfg tse l junk ts parts, zl_run cfg tse Deferred (zl_boot l) [ZDropped junk ts parts] = None.
Proof. reflexivity. Qed.
Print Assumptions C96_notice_first_refuted.

Definition c96_log : list item :=
  (List.map Ch (str "<err> main: no") ++ [Inner false 3; Use LRead; Inner true 1] ++ List.map Ch (str " space") ++ [Ch 13; Ch 10])%list.
Example C96_case :
  (do s <- log_boot (fill 64 0) 64 0; do s <- s;
   do x <- zl_run 40 true Immediate (zl_boot s) [ZMessage false 1 None c96_log; ZMessage true 1 None (List.map Ch (str "isr")); ZMessage false 3 (Some 5) [Ch 13; Ch 10]; ZUse LRead; ZUse LRead; ZUse LRead];
   Some (fst x)) =
   Some [RLog None; RSaved true; RSaved true; RLog (Some (mk_rlog 3 0 0 (str "<err> main: no space"))); RLog (Some (mk_rlog 1 0 5 [13])); RLog None] /\
  (do s <- log_boot (fill 64 0) 64 0; do s <- s;
   do x <- zl_run 40 true Deferred (zl_boot s) [ZMessage false 1 None c96_log; ZDropped 7 None [str "--- "; str "3"; str " messages dropped"]; ZUse LRead; ZUse LRead];
   Some (fst x)) =
   Some [RLog None; RSaved true; RSaved true; RSaved true; RSaved true; RLog (Some (mk_rlog 3 0 0 (str "<err> main: no space" ++ [13; 10])%list)); RLog (Some (mk_rlog 7 0 0 (str "--- ")))] /\
  (do s <- log_boot (fill 300 0) 300 0; do s <- s;
   do x <- zl_run 128 true Minimal (zl_boot s) [ZMessage false 1 None c96_log; ZMessage false 1 None []; ZMessage false 1 None (List.map Ch (fill 200 66)); ZUse LRead; ZUse LRead];
   Some (fst x)) =
   Some [RLog None; RSaved true; RSaved true; RLog (Some (mk_rlog 1 0 0 (str "<err> main: no space" ++ [13; 10])%list)); RLog (Some (mk_rlog 1 0 0 (fill 127 66 ++ [0])%list))].
Proof. repeat split; vm_compute; reflexivity. Qed.
