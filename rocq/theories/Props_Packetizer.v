(** Properties of the packetizer (C17, C18, C19). *)
From Verif Require Import Base Crc16Spec ChunkSpec Packetizer PacketizerSpec PacketizerProofs.

(** Any interleaving of begin, get_next, get_chunk, abort, set_active_sources, data_available and
    of new messages arriving never fails, and is a run of the specification: one message at a time,
    of the enabled source of highest priority, handed out whole. *)
Theorem C17_packetizer_refines_spec : forall cfg w ops,
  queues_ok cfg w -> Forall (op_ok cfg) ops ->
  exists rs st w' ss, pk_run cfg w pk_init ops = Some (rs, st, w') /\
    s_run cfg (mk_ss w 30 None) ops rs ss /\ s_q ss = w'.
Proof. exact refines. Qed.
Print Assumptions C17_packetizer_refines_spec.

(** The loop of the documentation ("while get_chunk") with any buffers of at least 9 bytes: the
    chunks fall into one group per queued message, in priority and queue order, each group decodes
    to exactly that message, and afterwards the enabled sources are empty, the others untouched. *)
Theorem C17_drain_delivers_everything : forall cfg w mask bufs,
  queues_ok cfg w -> is_u32 mask -> Forall (fun b => 9 <= zlen b < 4294967296) bufs ->
  work (backlog cfg mask w) <= zlen bufs ->
  exists rs st w' groups, pk_run cfg w pk_init (PMask mask :: map PChunk bufs) = Some (rs, st, w') /\
    chunks_of rs = concat groups /\
    Forall2 (fun g p => exists crc, receive g = Some (p, crc) /\ is_crc 0 p crc) groups (backlog cfg mask w) /\
    (forall s, q_of w' s = if enabled mask s then [] else q_of w s).
Proof. exact drain_everything. Qed.
Print Assumptions C17_drain_delivers_everything.

(** A project key, and an "encoder" that doubles each byte. *)
Definition ex_cfg : pk_cfg := mk_cfg [65; 0] (Some (flat_map (fun b => [b; b]))).
Definition ex_w : queues := mk_q [[7; 8]] [[1; 2; 3; 4; 5; 6; 7; 8; 9; 10]; [11]] [[20]] [].
Example C17_case :
  exists rs st,
  pk_run ex_cfg ex_w pk_init (map (fun _ => PChunk (fill 12 0)) [1;2;3;4;5;6;7]) = Some (rs, st, mk_q [] [] [] []) /\
  map fst rs = [ ResChunk true [8; 193; 65; 0; 7; 7; 8; 8; 216; 61]
               ; ResChunk true [72; 13; 66; 65; 0; 1; 2; 3; 4; 5; 6; 7]
               ; ResChunk true [128; 10; 8; 9; 10; 104; 195]
               ; ResChunk true [8; 66; 65; 0; 11; 2; 24]
               ; ResChunk true [8; 67; 65; 0; 20; 104; 141]
               ; ResChunk false []; ResChunk false [] ].
Proof. vm_compute. eauto 10. Qed.

(** Mixing the two interfaces loses data: [memfault_packetizer_get_chunk] called while a message
    begun in multi-call mode is being sent takes bytes of the message and returns false, so that a
    caller who follows the documented contract ("false: no data") throws them away. *)
Theorem C17_get_chunk_mid_multi_refuted : ~ (forall cfg w ops rs st w' i out,
  queues_ok cfg w -> Forall (op_ok cfg) ops ->
  pk_run cfg w pk_init ops = Some (rs, st, w') ->
  nth_error (map fst rs) i = Some (ResChunk false out) -> out = []).
Proof. exact get_chunk_mid_multi. Qed.
Print Assumptions C17_get_chunk_mid_multi_refuted.

(** C18: the messages a source held, plus those that arrived, are those marked read followed by
    those it still holds: mark_read is called once per message removed, in order. *)
Theorem C18_queue_accounting : forall cfg w ops s rs st w',
  queues_ok cfg w -> Forall (op_ok cfg) ops ->
  pk_run cfg w pk_init ops = Some (rs, st, w') ->
  exists sent, q_of w s ++ pushed s ops = sent ++ q_of w' s /\ zlen sent = marks s (flat_map snd rs).
Proof. exact accounting. Qed.
Print Assumptions C18_queue_accounting.

(** And mark_read happens only in the call that hands out the last piece: then the pieces handed
    out since the last boundary (message completed, abort, change of sources) are exactly the
    message at the head of that source's queue. *)
Theorem C18_mark_means_delivered : forall cfg w ops o rs st w1 res st2 w2 cs s,
  queues_ok cfg w -> Forall (op_ok cfg) (ops ++ [o]) ->
  pk_run cfg w pk_init ops = Some (rs, st, w1) ->
  pk_step cfg w1 st o = Some (res, st2, w2, cs) -> In (CMark s) cs ->
  exists m r multi out, q_of w1 s = m :: r /\ w2 = q_set w1 s r /\
    (res = ResNext EndOfChunk out \/ res = ResChunk true out) /\
    complete multi (since [] (combine ops rs) ++ [out]) (wire cfg s m).
Proof. exact mark_means_complete. Qed.
Print Assumptions C18_mark_means_delivered.

(** Abort in the middle of a message, then start over: the message is still there. *)
Example C18_case :
  exists rs st,
  pk_run ex_cfg ex_w pk_init [PChunk (fill 12 0); PChunk (fill 12 0); PAbort; PBegin false; PNext (fill 100 0)]
    = Some (rs, st, mk_q [] [[11]] [[20]] []) /\
  map (fun r => marks SEvent (snd r)) rs = [0; 0; 0; 0; 1] /\
  nth_error (map fst rs) 3 = Some (ResBegin true 16 false) /\
  nth_error (map fst rs) 4 = Some (ResNext EndOfChunk [8; 66; 65; 0; 1; 2; 3; 4; 5; 6; 7; 8; 9; 10; 104; 195]).
Proof. vm_compute. eauto 10. Qed.

(** C19: no call of any kind is ever made to a source that is not in the active mask. *)
Theorem C19_only_active_sources : forall cfg w ops rs st w',
  queues_ok cfg w -> Forall (op_ok cfg) ops ->
  pk_run cfg w pk_init ops = Some (rs, st, w') ->
  Forall2 (fun m rc => Forall (fun c => enabled m (call_src c) = true) (snd rc)) (masks 30 ops) rs.
Proof. exact only_enabled. Qed.
Print Assumptions C19_only_active_sources.

(** And data_available tells the truth: some active source holds a message. *)
Theorem C19_data_available_exact : forall cfg w ops rs st w1,
  queues_ok cfg w -> Forall (op_ok cfg) ops ->
  pk_run cfg w pk_init ops = Some (rs, st, w1) ->
  exists b cs, pk_step cfg w1 st PAvail = Some (ResAvail b, st, w1, cs) /\
    (b = true <-> exists s, enabled (last_mask ops) s = true /\ q_of w1 s <> []).
Proof. exact avail_exact. Qed.
Print Assumptions C19_data_available_exact.

Example C19_case :
  exists rs st w,
  pk_run ex_cfg ex_w pk_init [PMask 8; PAvail; PChunk (fill 12 0); PAvail; PMask 4; PAvail] = Some (rs, st, w) /\
  map fst rs = [ResUnit; ResAvail true; ResChunk true [8; 67; 65; 0; 20; 104; 141]; ResAvail false; ResUnit; ResAvail true] /\
  q_core w = [[7; 8]].
Proof. vm_compute. eauto 10. Qed.
