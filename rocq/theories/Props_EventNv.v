(** C64: events in RAM and in non-volatile storage. *)
From Coq Require Import Permutation.
From Verif Require Import Base EventStorage EventStorageSpec EventStorageProofs EventNv EventNvSpec EventNvProofs.

(** From boot on, every call of every history -- events written, messages read and marked, events moved
    to the port in any pieces with any failures, the port switched, the device reset -- answers as the
    specification (one queue of groups in the port, one queue of events in RAM) says. *)
Theorem C64_two_storages_are_two_queues : forall cfg storage nv on ops rs w,
  0 < zlen storage <= 2147483648 -> Forall (nv_ok (zlen storage)) ops ->
  nvv_run cfg (zlen storage) (nvv_boot nv on) ops = Some (rs, w) ->
  exists s s', nv_boot storage (map (group_msg cfg) nv) on = Some s /\ nv_run cfg s ops = Some (rs, s').
Proof. exact nv_refines. Qed.
Print Assumptions C64_two_storages_are_two_queues.

(** After any history that leaves the port enabled, moving everything to a port that accepts it and
    reading out gives messages that hold, each once, all the events that were in the port at first or
    committed since and were not marked read before, except those in RAM when the device was reset; in
    the order of their commits if the port was never switched and the device never reset.  Failed writes
    lose nothing. *)
Theorem C64_every_event_once : forall cfg storage nv on ops rs w,
  0 < zlen storage <= 2147483648 -> Forall (nv_ok (zlen storage)) ops -> Forall (small cfg) nv ->
  nvv_run cfg (zlen storage) (nvv_boot nv on) ops = Some (rs, w) -> w_on w = true ->
  exists s s' old new,
    nv_boot storage (map (group_msg cfg) nv) on = Some s /\
    nv_run cfg s (ops ++ NPersist (takes_all cfg new) :: drain (map (group_msg cfg) (old ++ new))) =
      Some (rs ++ NRSaved (zlen new) :: drained false (map (group_msg cfg) (old ++ new)), s') /\
    Permutation (concat nv ++ flow went_in cfg (zlen storage) (nvv_boot nv on) ops)
                (flow came_out cfg (zlen storage) (nvv_boot nv on) ops ++ concat (old ++ new) ++ flow lost cfg (zlen storage) (nvv_boot nv on) ops) /\
    (on = true -> Forall steady ops ->
     concat nv ++ flow went_in cfg (zlen storage) (nvv_boot nv on) ops = flow came_out cfg (zlen storage) (nvv_boot nv on) ops ++ concat (old ++ new)).
Proof. exact nothing_lost. Qed.
Print Assumptions C64_every_event_once.

Definition commit (d : list Z) : list nv_op := [NEvent EBegin; NEvent (EAppend d); NEvent (EFinish false)].
(** Batches of at most 4 bytes; three events; the second write fails, is done again in two pieces, and
    the port holds a message from before; one event is lost at a reset. *)
Example C64_case : (do s <- nv_boot (fill 20 170) [[7; 7; 7]] true;
    option_map fst (nv_run (Some 4) s
     (commit [1; 2] ++ commit [3] ++ commit [4; 5] ++ [NPersist [([3; 1], true); ([2], false)]] ++ commit [6] ++
      [NHas; NRead 1 2; NMark; NPersist [([1; 1], true); ([1], true)]] ++ commit [9] ++ [NReset (fill 20 1); NHas; NRead 0 4; NMark; NRead 1 1; NMark; NHas; NMark; NHas])))
  = Some [NREvent (RSpace 18) false; NREvent (ROk true) false; NREvent RUnit true; NREvent (RSpace 14) false; NREvent (ROk true) false; NREvent RUnit true;
          NREvent (RSpace 11) false; NREvent (ROk true) false; NREvent RUnit true; NRSaved 1; NREvent (RSpace 14) false; NREvent (ROk true) false; NREvent RUnit true;
          NRHas true 3; NRRead (Some [7; 7]); NRMark true; NRSaved 2; NREvent (RSpace 18) false; NREvent (ROk true) false; NREvent RUnit true; NRNone;
          NRHas true 4; NRRead (Some [130; 1; 2; 3]); NRMark false; NRRead (Some [5]); NRMark false; NRHas true 1; NRMark false; NRHas false 0].
Proof. vm_compute. reflexivity. Qed.

(** What is not true.  When the port is switched on while a message is read from RAM, the rest of the
    bytes comes from the port's message ... *)
Theorem C64_one_message_is_read_refuted : ~ (forall cfg storage q s ops rs n a d1 d2 d s1 s2,
  nv_boot storage q false = Some s ->
  nv_run cfg s (ops ++ [NHas; NRead 0 a; NPort true; NRead a (n - a)]) = Some (rs ++ [NRHas true n; NRRead (Some d1); NRNone; NRRead (Some d2)], s1) ->
  nv_run cfg s (ops ++ [NHas; NRead 0 n]) = Some (rs ++ [NRHas true n; NRRead (Some d)], s2) -> d1 ++ d2 = d).
Proof.
  intros H. destruct (nv_boot (fill 20 0) [[9; 9; 9]] false) as [s|] eqn:E; [|vm_compute in E; discriminate].
  pose proof E as E0. vm_compute in E. injection E as <-.
  pose proof (fun s1 s2 => H None (fill 20 0) [[9; 9; 9]] _ (commit [1; 2; 3]) [NREvent (RSpace 18) false; NREvent (ROk true) false; NREvent RUnit true] 3 1 [1] [9; 9] [1; 2; 3] s1 s2 E0) as X. clear H E0. vm_compute in X. specialize (X _ _ eq_refl eq_refl). discriminate X.
Qed.
Print Assumptions C64_one_message_is_read_refuted.

(** ... and marking it as read removes the port's message, which nobody read. *)
Theorem C64_only_read_messages_leave_refuted : ~ (forall cfg storage m s d rs s',
  nv_boot storage [m] false = Some s ->
  nv_run cfg s (commit d ++ [NHas; NRead 0 (zlen d); NPort true; NMark; NHas]) = Some (rs, s') ->
  get rs 4 = Some (NRRead (Some d)) -> last rs NRNone = NRHas true (zlen m)).
Proof.
  intros H. destruct (nv_boot (fill 20 0) [[9; 9; 9]] false) as [s|] eqn:E; [|vm_compute in E; discriminate].
  pose proof E as E0. vm_compute in E. injection E as <-.
  pose proof (fun rs s' => H None (fill 20 0) [9; 9; 9] _ [1; 2; 3] rs s' E0) as X. clear H E0. vm_compute in X. specialize (X _ _ eq_refl eq_refl). discriminate X.
Qed.
Print Assumptions C64_only_read_messages_leave_refuted.

(** "Nothing to send" does not mean that nothing is held: events in RAM are not offered while the port
    is enabled. *)
Theorem C64_nothing_offered_nothing_held_refuted : ~ (forall cfg storage q on s ops rs b n s',
  nv_boot storage q on = Some s ->
  nv_run cfg s (ops ++ [NHas; NPort false; NHas]) = Some (rs ++ [NRHas false 0; NRNone; NRHas b n], s') -> b = false).
Proof.
  intros H. destruct (nv_boot (fill 20 0) [] true) as [s|] eqn:E; [|vm_compute in E; discriminate].
  pose proof E as E0. vm_compute in E. injection E as <-.
  pose proof (fun s1 => H None (fill 20 0) [] true _ (commit [1; 2; 3]) [NREvent (RSpace 18) false; NREvent (ROk true) false; NREvent RUnit true] true 3 s1 E0) as X. clear H E0. vm_compute in X. specialize (X _ eq_refl). discriminate X.
Qed.
Print Assumptions C64_nothing_offered_nothing_held_refuted.

(** And when the port is switched off, a later event is offered before an earlier one. *)
Theorem C64_oldest_event_first_refuted : ~ (forall cfg storage s d1 d2 rs n d s',
  nv_boot storage [] true = Some s ->
  nv_run cfg s (commit d1 ++ [NPersist [([zlen d1], true)]] ++ commit d2 ++ [NPort false; NHas; NRead 0 n]) =
    Some (rs ++ [NRHas true n; NRRead (Some d)], s') -> d = d1).
Proof.
  intros H. destruct (nv_boot (fill 20 0) [] true) as [s|] eqn:E; [|vm_compute in E; discriminate].
  pose proof E as E0. vm_compute in E. injection E as <-.
  pose proof (fun s1 => H None (fill 20 0) _ [1; 2; 3] [4; 5; 6]
    [NREvent (RSpace 18) false; NREvent (ROk true) false; NREvent RUnit true; NRSaved 1; NREvent (RSpace 18) false; NREvent (ROk true) false; NREvent RUnit true; NRNone] 3 [4; 5; 6] s1 E0) as X. clear H E0. vm_compute in X. specialize (X _ eq_refl). discriminate X.
Qed.
Print Assumptions C64_oldest_event_first_refuted.
