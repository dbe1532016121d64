From Verif Require Import Base CircularBuffer CircularBufferProofs EventStorage EventStorageSpec EventStorageProofs
  Conc ConcSpec ConcProofs EventConc EventConcSpec EventConcProofs.

(** C102.  A task that records events and a task that sends them may be interleaved at any access to the
    shared memory: the calls give what calls made one after the other on a queue give, nothing faults
    and nobody waits for ever. *)
Theorem C102_recorder_and_sender_interleaved : forall bc storage s sched,
  0 < zlen storage <= 2147483648 -> es_boot storage (zlen storage) = Some (Some s) ->
  legal_run (es_code (zlen storage) bc) one_each (start_mach s) sched ->
  exists m, mach_run (es_code (zlen storage) bc) (start_mach s) sched = Some m /\
    linearizable (sev_step bc (zlen storage)) (mk_sev [] None 0) (m_hist m) /\ no_deadlock m.
Proof. exact one_each_ok. Qed.
Print Assumptions C102_recorder_and_sender_interleaved.

Definition begins (t : nat) (o : es_op) (k : nat) : list (item es_op) := Start t o :: repeat (Step t) k.
Definition goes (t k : nat) : list (item es_op) := repeat (Step t) k.
Definition played (legalb : nat -> list (es_op * es_res) -> es_op -> bool) (bc : es_cfg) (n : Z) (sched : list (item es_op)) :=
  do s <- es_boot (fill n 170) n; do s <- s; do m <- mach_run (es_code n bc) (start_mach s) sched;
  Some (may_run (es_code n bc) legalb (start_mach s) sched, m_hist m).
(** The second event is begun while the first one is taken out, and the queue is asked for while it is
    finished; the sender waits for the lock once. *)
Definition busy : list (item es_op) :=
  begins 0 EBegin 40 ++ begins 0 (EAppend [1; 2; 3]) 40 ++ begins 0 (EFinish false) 40 ++
  begins 1 EHas 40 ++ begins 0 EBegin 5 ++ begins 1 (ERead 1 2) 4 ++ goes 0 4 ++ goes 1 40 ++ begins 1 EMark 1 ++
  goes 0 40 ++ goes 1 6 ++ begins 0 (EAppend [4]) 3 ++ goes 1 40 ++ goes 0 40 ++
  begins 0 (EFinish false) 5 ++ begins 1 EHas 5 ++ goes 0 40 ++ goes 1 40.
Example C102_case : played one_eachb None 12 busy = Some (true,
  [Inv 0 EBegin; Res 0 EBegin (RSpace 10); Inv 0 (EAppend [1; 2; 3]); Res 0 (EAppend [1; 2; 3]) (ROk true);
   Inv 0 (EFinish false); Res 0 (EFinish false) RUnit; Inv 1 EHas; Res 1 EHas (RSome true 3);
   Inv 0 EBegin; Inv 1 (ERead 1 2); Res 1 (ERead 1 2) (RBytes (Some [2; 3])); Inv 1 EMark; Res 0 EBegin (RSpace 5);
   Inv 0 (EAppend [4]); Res 1 EMark RUnit; Res 0 (EAppend [4]) (ROk true);
   Inv 0 (EFinish false); Inv 1 EHas; Res 0 (EFinish false) RUnit; Res 1 EHas (RSome true 1)]).
Proof. vm_compute. reflexivity. Qed.

(** C103.  What does not hold when the calls are shared out otherwise. *)
Definition linearizable_when (legal : nat -> list (es_op * es_res) -> es_op -> Prop) : Prop := forall bc storage s sched m,
  0 < zlen storage <= 2147483648 -> es_boot storage (zlen storage) = Some (Some s) ->
  legal_run (es_code (zlen storage) bc) legal (start_mach s) sched ->
  mach_run (es_code (zlen storage) bc) (start_mach s) sched = Some m ->
  linearizable (sev_step bc (zlen storage)) (mk_sev [] None 0) (m_hist m).
Lemma refuted_by bc n threads (legal : nat -> list (es_op * es_res) -> es_op -> Prop) legalb sched : zlen (fill n 170) = n -> 0 < n <= 2147483648 ->
  (forall t h o, legalb t h o = true -> legal t h o) -> counterexample bc n threads legalb sched = true -> ~ linearizable_when legal.
Proof.
  intros HZ HN HL HC H. destruct (counterexample_ok bc n threads legal legalb sched HL HC) as (s & m & E & L & F & N).
  specialize (H bc (fill n 170) s sched m). rewrite HZ in H. apply N. apply H; assumption.
Qed.

(** Two tasks that record: both pass the test of write_in_progress, and both are given space. *)
Definition two_begin : list (item es_op) := begins 0 EBegin 1 ++ begins 2 EBegin 40 ++ goes 0 40.
Theorem C103_two_recorders_refuted : ~ linearizable_when recorders.
Proof. apply (refuted_by (@None Z) 24 [0%nat; 2%nat] _ recordersb two_begin); [reflexivity|lia|exact recordersb_ok|vm_compute; reflexivity]. Qed.
Print Assumptions C103_two_recorders_refuted.
Example C103_recorders_case : played recordersb None 24 two_begin = Some (true,
  [Inv 0 EBegin; Inv 2 EBegin; Res 2 EBegin (RSpace 22); Res 0 EBegin (RSpace 20)]).
Proof. vm_compute. reflexivity. Qed.

(** Two tasks that send, with several events in one message: the message one of them has begun to read
    is made longer by the other. *)
Definition two_has : list (item es_op) :=
  begins 0 EBegin 40 ++ begins 0 (EAppend [1; 2; 3]) 40 ++ begins 0 (EFinish false) 40 ++ begins 1 EHas 3 ++ begins 2 EHas 100 ++
  begins 0 EBegin 40 ++ begins 0 (EAppend [4]) 40 ++ begins 0 (EFinish false) 40 ++ goes 1 100 ++ begins 2 (ERead 0 3) 40 ++ begins 2 EMark 40 ++
  begins 2 EHas 40.
Theorem C103_two_senders_refuted : ~ linearizable_when senders.
Proof. apply (refuted_by (Some 100) 24 [0%nat; 1%nat; 2%nat] _ sendersb two_has); [reflexivity|lia|exact sendersb_ok|vm_compute; reflexivity]. Qed.
Print Assumptions C103_two_senders_refuted.
(** The message of 3 bytes is read as the head of the longer one, and both events are gone. *)
Example C103_senders_case : played sendersb (Some 100) 24 two_has = Some (true,
  [Inv 0 EBegin; Res 0 EBegin (RSpace 22); Inv 0 (EAppend [1; 2; 3]); Res 0 (EAppend [1; 2; 3]) (ROk true);
   Inv 0 (EFinish false); Res 0 (EFinish false) RUnit; Inv 1 EHas; Inv 2 EHas; Res 2 EHas (RSome true 3);
   Inv 0 EBegin; Res 0 EBegin (RSpace 17); Inv 0 (EAppend [4]); Res 0 (EAppend [4]) (ROk true);
   Inv 0 (EFinish false); Res 0 (EFinish false) RUnit; Res 1 EHas (RSome true 5);
   Inv 2 (ERead 0 3); Res 2 (ERead 0 3) (RBytes (Some [130; 1; 2])); Inv 2 EMark; Res 2 EMark RUnit; Inv 2 EHas; Res 2 EHas (RSome false 0)]).
Proof. vm_compute. reflexivity. Qed.

(** The number of bytes in use, asked for while an event is begun. *)
Definition used_early : list (item es_op) :=
  begins 0 EBegin 40 ++ begins 0 (EAppend [1; 2; 3]) 40 ++ begins 0 (EFinish false) 40 ++ begins 1 EHas 40 ++
  begins 0 EBegin 12 ++ begins 1 EUsed 40 ++ begins 1 EMark 40 ++ goes 0 40.
Theorem C103_bytes_used_refuted : ~ linearizable_when one_each_sized.
Proof. apply (refuted_by (@None Z) 24 [0%nat; 1%nat] _ sizedb used_early); [reflexivity|lia|exact sizedb_ok|vm_compute; reflexivity]. Qed.
Print Assumptions C103_bytes_used_refuted.
Example C103_used_case : played sizedb None 24 used_early = Some (true,
  [Inv 0 EBegin; Res 0 EBegin (RSpace 22); Inv 0 (EAppend [1; 2; 3]); Res 0 (EAppend [1; 2; 3]) (ROk true);
   Inv 0 (EFinish false); Res 0 (EFinish false) RUnit; Inv 1 EHas; Res 1 EHas (RSome true 3);
   Inv 0 EBegin; Inv 1 EUsed; Res 1 EUsed (RNum 7); Inv 1 EMark; Res 1 EMark RUnit; Res 0 EBegin (RSpace 22)]).
Proof. vm_compute. reflexivity. Qed.

(** Even if the calls themselves are made one after the other: a task that finds an event begun still
    ends its own recording by a rollback (memfault_serializer_helper.c:207-218), which takes away the
    event of the other task.  That one is told that its event was stored. *)
Theorem C103_interrupted_recording_kept_refuted : ~ (forall bc storage s d rs s',
  es_boot storage (zlen storage) = Some (Some s) -> bytes d -> 1 <= zlen d <= 65532 -> zlen d + 2 <= zlen storage ->
  es_run bc s [EBegin; EBegin; EFinish true; EAppend d; EFinish false; EHas; ERead 0 (zlen d)] = Some (rs, s') ->
  nth 6 rs RUnit = RBytes (Some d)).
Proof.
  intros H. destruct (es_boot (fill 20 0) 20) as [[s|]|] eqn:E; [|vm_compute in E; discriminate..].
  destruct (es_run None s [EBegin; EBegin; EFinish true; EAppend [7; 0; 1; 2; 3]; EFinish false; EHas; ERead 0 5]) as [(rs & s')|] eqn:F.
  2:{ vm_compute in E. injection E as <-. vm_compute in F. discriminate. }
  specialize (H None (fill 20 0) s [7; 0; 1; 2; 3] rs s' E). assert (nth 6 rs RUnit = RBytes (Some [7; 0; 1; 2; 3])) as N.
  { apply H; [repeat constructor; unfold is_u8; lia|vm_compute; split; discriminate|vm_compute; discriminate|exact F]. }
  vm_compute in E. injection E as <-. vm_compute in F. injection F as <- <-. vm_compute in N. discriminate.
Qed.
Print Assumptions C103_interrupted_recording_kept_refuted.
(** The bytes are in the storage without a header: what follows is not found either. *)
Example C103_interrupted_case : (do s <- es_boot (fill 20 0) 20; do s <- s;
  do r <- es_run None s [EBegin; EBegin; EFinish true; EAppend [7; 0; 1; 2; 3]; EFinish false;
                         EBegin; EAppend [9]; EFinish false; EHas; ERead 0 5; EMark; EHas];
  Some (fst r)) = Some [RSpace 18; RSpace 0; RUnit; ROk true; RUnit; RSpace 13; ROk true; RUnit; RSome true 5; RBytes (Some [1; 2; 3; 3; 0]); RUnit; RSome false 0].
Proof. vm_compute. reflexivity. Qed.

From Verif Require LockConc.
(** An event cannot be begun while another is written. *)
Theorem C102_begun_twice n bc s : es_wip s = true -> LockConc.solo (es_code n bc EBegin) s = Some (RSpace 0, s).
Proof. intros E. cbn. rewrite E. reflexivity. Qed.
Print Assumptions C102_begun_twice.
