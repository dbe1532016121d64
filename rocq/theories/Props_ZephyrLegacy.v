(** C114: the log backend for Zephyr up to 3.1 without CONFIG_LOG2 *)
From Coq Require Import String.
From Verif Require Import Base CircularBuffer CircularBufferProofs Log LogSpec LogHistoryProofs ZephyrLog ZephyrLogSpec ZephyrLegacy ZephyrLegacySpec ZephyrLegacyProofs Props_Log.

(** Any history of messages, cut off messages, notices of dropped messages and panics, with the log being used in the
    middle of them, is for the log the calls that [comes_to] says. *)
Theorem C114_messages_are_saves : forall cfg tse h, 0 <= cfg ->
  exists ops, comes_to cfg Nobody [] h ops /\
    forall l, match log_run cfg tse l ops with
              | Some (rs, l') => exists s, ll_run cfg tse (ll_boot l) h = Some (rs, s) /\ ll_log s = l'
              | None => ll_run cfg tse (ll_boot l) h = None
              end.
Proof. exact legacy_from_boot. Qed.
Print Assumptions C114_messages_are_saves.

(** So nothing runs over the buffers, and the log holds the most recent of these lines that fit (C24). *)
Theorem C114_buffer_holds_the_lines : forall cfg tse h, 4 <= cfg <= 255 ->
  exists ops, comes_to cfg Nobody [] h ops /\
    forall storage min rs hi, 0 < zlen storage < 2147483648 -> Forall (log_op_ok tse) ops ->
      hist_run cfg (zlen storage) (hist_init min) ops = Some (rs, hi) ->
      exists l s logs gone,
        log_boot storage (zlen storage) min = Some (Some l) /\ ll_run cfg tse (ll_boot l) h = Some (rs, s) /\
        parse_logs (Z.to_nat (zlen storage)) (content (lg_cb (ll_log s))) = Some logs /\
        accepted cfg ops rs = (gone ++ map fst logs)%list /\ hrooms (map fst logs) <= zlen storage /\
        (forall older e, gone = (older ++ [e])%list -> zlen storage < hrooms (e :: map fst logs)).
Proof.
  intros cfg tse h C. destruct (legacy_from_boot cfg tse h ltac:(lia)) as (ops & AM & A). exists ops. split; [exact AM|].
  intros storage min rs hi S LO H.
  destruct (C24_buffer_holds_the_most_recent_logs cfg tse storage min ops rs hi S C LO H) as (l & l' & logs & gone & B & R & P & AC & F & G).
  specialize (A l). rewrite R in A. destruct A as (s & E & L). exists l, s, logs, gone. rewrite L. auto 7.
Qed.
Print Assumptions C114_buffer_holds_the_lines.

(** A message of up to 128 characters is one log, with its level. *)
Theorem C114_short_message : forall cfg tse l z ts t, 0 <= cfg -> z <> 0 -> zlen t <= 128 ->
  match log_run cfg tse l [LSave (severity z) 0 ts t] with
  | Some (rs, l') => exists s, ll_run cfg tse (ll_boot l) [LPut true false z ts (List.map LCh t)] = Some (rs, s) /\ ll_log s = l'
  | None => ll_run cfg tse (ll_boot l) [LPut true false z ts (List.map LCh t)] = None
  end.
Proof. exact short_message. Qed.
Print Assumptions C114_short_message.

(** What comes in interrupts, those of a panic included, leaves the log as it was. *)
Theorem C114_nothing_from_interrupts : forall cfg tse l h, 0 <= cfg -> Forall in_interrupt h ->
  exists s, ll_run cfg tse (ll_boot l) h = Some ([], s) /\ ll_log s = l.
Proof. exact interrupts_save_nothing. Qed.
Print Assumptions C114_nothing_from_interrupts.

(** So a panic in a fault handler, which flushes the message being written (L:126-128), loses it: whatever the text, with
    all the room for it, no log is saved. *)
Theorem C114_flushed_at_panic_refuted : ~ (forall cfg tse l z t junk, 128 <= cfg <= 255 -> z <> 0 -> 0 < zlen t <= 128 ->
  log_step cfg tse l (LSave (severity z) 0 None t) <> None ->
  exists b s, ll_run cfg tse (ll_boot l) [LPut false false z None (List.map LCh t); LPanic true junk None] = Some ([RSaved b], s)).
Proof.
  intros H. destruct (log_boot (fill 64 0) 64 0) as [[l|]|] eqn:E; [|discriminate..].
  destruct (H 128 false l 1 [65] 0 ltac:(lia) ltac:(lia) ltac:(vm_compute; split; [reflexivity|discriminate])) as (b & s & R).
  - inversion E; subst l. vm_compute. discriminate.
  - inversion E; subst l. vm_compute in R. discriminate.
Qed.
Print Assumptions C114_flushed_at_panic_refuted.

(** A panic outside an interrupt after the messages, or a notice, saves a log whose level is read where the level of the last
    message was on the stack (L:76-78, L:104-105). *)
Theorem C114_levels_refuted : ~ (forall cfg tse storage min l h rs s r, log_boot storage (zlen storage) min = Some (Some l) ->
  ll_run cfg tse (ll_boot l) h = Some (rs, s) -> In (RLog (Some r)) rs -> 0 <= r_level r <= 3).
Proof.
  intros H.
  assert (G : match log_boot (fill 64 0) (zlen (fill 64 0)) 0 with
              | Some (Some l) => match ll_run 80 false (ll_boot l) [LPut true false 1 None []; LOther LRead; LPanic false 77 None; LOther LRead] with
                                 | Some (rs, _) => last rs RDone = RLog (Some (mk_rlog 5 0 0 [])) | None => False end
              | _ => False end) by (vm_compute; reflexivity).
  destruct (log_boot (fill 64 0) (zlen (fill 64 0)) 0) as [[l|]|] eqn:E; [|contradiction..].
  destruct (ll_run 80 false (ll_boot l) _) as [[rs s]|] eqn:R; [|contradiction].
  destruct (exists_last (l := rs)) as (rs' & x & EQ); [intros ->; discriminate|]. rewrite EQ, last_last in G. subst rs x.
  specialize (H 80 false _ _ l _ _ s (mk_rlog 5 0 0 []) E R). cbn [r_level] in H. enough (0 <= 5 <= 3) by lia. apply H. apply in_or_app. right. left. reflexivity.
Qed.
Print Assumptions C114_levels_refuted.

(** Messages without a level are left out (L:102), but not in immediate mode (L:122-123): they become debug logs. *)
Theorem C114_no_level_left_out_refuted : ~ (forall cfg tse l isr ts text, 4 <= cfg <= 255 ->
  option_map fst (ll_run cfg tse (ll_boot l) [LSync isr 0 ts text]) = Some []).
Proof.
  intros H. destruct (log_boot (fill 64 0) 64 0) as [[l|]|] eqn:E; [|discriminate..].
  specialize (H 80 false l false None [65] ltac:(lia)). inversion E; subst l. vm_compute in H. discriminate.
Qed.
Print Assumptions C114_no_level_left_out_refuted.

Definition c114_text : list litem := (List.map LCh (str "<wrn> main: ") ++ [LUses LRead] ++ List.map LCh (str "late"))%list.
Example C114_case :
  (do s <- log_boot (fill 300 0) 300 0; do s <- s;
   do x <- ll_run 128 false (ll_boot s)
     [LDrop false 7 None [str "--- "]; LPut true false 2 None c114_text; LPut true true 1 None (List.map LCh (str "isr")); LPut true false 0 None (List.map LCh (str "none"));
      LPut true false 3 None (List.map LCh (fill 130 66)); LPut false false 1 None (List.map LCh (str "cut")); LPanic false 7 None;
      LOther LRead; LOther LRead; LOther LRead; LOther LRead; LOther LRead];
   Some (fst x)) =
   Some [RSaved true; RLog (Some (mk_rlog 3 0 0 (str "--- "))); RSaved true; RSaved true; RSaved true; RSaved true;
         RLog (Some (mk_rlog 2 0 0 (str "<wrn> main: late"))); RLog (Some (mk_rlog 1 0 0 (fill 128 66))); RLog (Some (mk_rlog 1 0 0 [66; 66]));
         RLog (Some (mk_rlog 3 0 0 (str "cut"))); RLog None].
Proof. vm_compute. reflexivity. Qed.
