From Verif Require Import Base Conc ConcSpec Metrics MetricsSpec MetricsProofs LockConc LockConcSpec LockConcProofs.

Theorem metrics_calls_ok defs timers (body : mop -> prog mstate mres) sched : mdefs_ok defs ->
  (forall o, arg_ok o -> lock_free (body o)) ->
  (forall o s, arg_ok o -> solo (body o) s = me_step defs timers s o) ->
  starts_only arg_ok sched ->
  exists m a, mach_run (me_code body) (start_mach (ms_init defs)) sched = Some m /\ no_deadlock m /\
    linearizes (am_step defs timers) (am_init defs) (m_hist m) a /\
    (m_owner m = None -> forall j d v, get defs j = Some d -> get a j = Some v -> item_of defs (m_shared m) j = Some (a_item d v)).
Proof.
  intros D HF HS HL.
  destruct (locked mstate mop mres (list aval) unit (fun _ => tt) (fun _ => None) body (am_step defs timers) (mrel defs) arg_ok HF)
    with (s0 := ms_init defs) (v0 := am_init defs) (sched := sched) as (m & a & E & ND & L & SM).
  - intros o _. clear. induction (body o); cbn [keeps]; auto.
  - discriminate.
  - intros s a o R HO _. destruct (arg_ok_some defs timers a o HO) as ((r & a') & EA).
    destruct (me_step_ok defs timers o D s a r a' R EA) as (s' & ES & R'). exists r, s', a'. rewrite HS by exact HO. auto.
  - apply me_init_ok. exact D.
  - exact HL.
  - exists m, a. split; [exact E|]. split; [exact ND|]. split; [exact L|]. intros EO j d v Hd Hv.
    pose proof (SM EO) as R. eapply item_of_rel; eassumption.
Qed.

(** The bodies of the model are such. *)
Lemma me_body_free defs timers o : lock_free (me_body defs timers o).
Proof.
  destruct o; cbn; auto. intros [i|]; cbn; auto. destruct (md_type (mi_def i)), (mi_place i); cbn; auto.
Qed.
Lemma me_body_solo defs timers o s : solo (me_body defs timers o) s = me_step defs timers s o.
Proof.
  destruct o as [| | |key amount| | | | | | | | | | | |]; try (cbn [me_body solo]; destruct (me_step _ _ _ _) as [(x & s')|]; reflexivity).
  cbn [me_body me_step pbind solo]. unfold me_add. destruct (me_find defs s key) as [f|]; [|reflexivity]. cbn [bind].
  destruct f as [i|]; [|reflexivity]. destruct (md_type (mi_def i)), (mi_place i) as [k|k]; try reflexivity; cbn [pbind solo].
  all: destruct (get (ms_vals s) k) as [raw|]; [|reflexivity]; cbn [bind pbind solo].
  all: destruct (zset (ms_vals s) k _) as [v|]; [|reflexivity]; cbn [bind pbind solo].
  all: destruct (me_flag_set (set_vals s v) k) as [s'|]; reflexivity.
Qed.
