(** Independent specification of the packetizer: what an application and the cloud may rely on.
    The wire format of a message is that of memfault_data_packetizer.c:142-166 (comment), the
    chunk format that of ChunkSpec.v. *)
From Verif Require Import Base Crc16Spec ChunkSpec Packetizer.

Definition enabled (mask : Z) (s : src) : bool := Z.testbit mask (src_type s).

(** Highest priority first. *)
Definition priority : list src := [SCoredump; SEvent; SLog; SCdr].

(** [s] is the source to serve next. *)
Definition next_source (w : queues) (mask : Z) (s : src) : Prop :=
  enabled mask s = true /\ q_of w s <> [] /\
  forall s', src_type s' < src_type s -> enabled mask s' = false \/ q_of w s' = [].
Definition nothing_to_send (w : queues) (mask : Z) : Prop :=
  forall s, enabled mask s = false \/ q_of w s = [].

(** What goes over the wire for a message of a source: type byte (bit 7: run-length encoded, bit
    6: project key follows), project key, data. *)
Definition body (cfg : pk_cfg) (s : src) (m : list Z) : list Z :=
  match s, cfg_rle cfg with SCoredump, Some enc => enc m | _, _ => m end.
Definition wire (cfg : pk_cfg) (s : src) (m : list Z) : list Z :=
  ((match s with SCoredump => 1 | SEvent => 2 | SLog => 3 | SCdr => 4 end)
   + (match s, cfg_rle cfg with SCoredump, Some _ => 128 | _, _ => 0 end)
   + (match cfg_key cfg with [] => 0 | _ => 64 end)) :: cfg_key cfg ++ body cfg s m.

(** The pieces handed out make up the whole message [p] with its CRC. *)
Definition complete (multi : bool) (outs : list (list Z)) (p : list Z) : Prop :=
  exists crc, receive (if multi then [concat outs] else outs) = Some (p, crc) /\ is_crc 0 p crc.
(** They do not yet. *)
Definition incomplete (multi : bool) (outs : list (list Z)) (p : list Z) : Prop :=
  if multi then zlen (concat outs) < 3 + zlen p else receive outs = None.

(** A message being sent: its source, the mode, and the pieces handed out so far. *)
Record flight := mk_fl { f_src : src; f_msg : list Z; f_multi : bool; f_outs : list (list Z) }.
Record sstate := mk_ss { s_q : queues; s_mask : Z; s_fl : option flight }.

Definition call_src (c : pk_call) : src := match c with CHasMore s | CRead s _ _ | CMark s => s end.
Definition is_mark (c : pk_call) : bool := match c with CMark _ => true | _ => false end.
(** Calls a query may make: only [has_more], only to enabled sources. *)
Definition queries_only (mask : Z) (cs : list pk_call) : Prop :=
  Forall (fun c => exists s, c = CHasMore s /\ enabled mask s = true) cs.
(** Calls made while data of a message of source [s] with [n] bytes is handed out. *)
Definition reads_only (s : src) (n : Z) (cs : list pk_call) : Prop :=
  Forall (fun c => exists off len, c = CRead s off len /\ 0 <= off /\ 0 < len /\ off + len <= n) cs.

Section Steps.
Variable cfg : pk_cfg.

(** Choice of the next message. *)
Inductive s_begin (multi : bool) : sstate -> bool -> Z -> bool -> list pk_call -> sstate -> Prop :=
| SB_load q mask s m r cs : next_source q mask s -> q_of q s = m :: r -> queries_only mask cs ->
    s_begin multi (mk_ss q mask None) true (3 + zlen (wire cfg s m)) false cs
            (mk_ss q mask (Some (mk_fl s m multi [])))
| SB_none q mask cs : nothing_to_send q mask -> queries_only mask cs ->
    s_begin multi (mk_ss q mask None) false 0 false cs (mk_ss q mask None)
| SB_again q mask f :
    s_begin multi (mk_ss q mask (Some f)) true (3 + zlen (wire cfg (f_src f) (f_msg f)))
            (match f_outs f with [] => false | _ => true end) [] (mk_ss q mask (Some f)).

(** One piece. *)
Inductive s_next (n : Z) : sstate -> pk_status -> list Z -> list pk_call -> sstate -> Prop :=
| SN_none q mask : s_next n (mk_ss q mask None) NoMoreData [] [] (mk_ss q mask None)
| SN_small q mask f : n < 9 -> s_next n (mk_ss q mask (Some f)) NoMoreData [] [] (mk_ss q mask (Some f))
| SN_piece q mask s m multi outs out cs :
    9 <= n -> 0 < zlen out <= n -> incomplete multi (outs ++ [out]) (wire cfg s m) ->
    reads_only s (zlen (body cfg s m)) cs -> enabled mask s = true ->
    s_next n (mk_ss q mask (Some (mk_fl s m multi outs))) (if multi then MoreDataForChunk else EndOfChunk) out cs
           (mk_ss q mask (Some (mk_fl s m multi (outs ++ [out]))))
| SN_last q mask s m r multi outs out cs :
    9 <= n -> 0 < zlen out <= n -> complete multi (outs ++ [out]) (wire cfg s m) ->
    reads_only s (zlen (body cfg s m)) cs -> enabled mask s = true -> q_of q s = m :: r ->
    s_next n (mk_ss q mask (Some (mk_fl s m multi outs))) EndOfChunk out (cs ++ [CMark s])
           (mk_ss (q_set q s r) mask None).

Inductive s_step : sstate -> pk_op -> pk_res -> list pk_call -> sstate -> Prop :=
| S_begin multi st ok l p cs st' : s_begin multi st ok l p cs st' -> s_step st (PBegin multi) (ResBegin ok l p) cs st'
| S_next buf st s out cs st' : s_next (zlen buf) st s out cs st' -> s_step st (PNext buf) (ResNext s out) cs st'
| S_chunk_none buf st l p cs st' : s_begin false st false l p cs st' -> s_step st (PChunk buf) (ResChunk false []) cs st'
| S_chunk buf st l p cs st1 s out cs' st2 :
    s_begin false st true l p cs st1 -> s_next (zlen buf) st1 s out cs' st2 ->
    s_step st (PChunk buf) (ResChunk (match s with EndOfChunk => true | _ => false end) out) (cs ++ cs') st2
| S_abort q mask f : s_step (mk_ss q mask f) PAbort ResUnit [] (mk_ss q mask None)
| S_mask q mask f m : s_step (mk_ss q mask f) (PMask m) ResUnit [] (mk_ss q (u32 m) None)
| S_avail_yes q mask f cs : (f <> None \/ exists s, next_source q mask s) -> queries_only mask cs ->
    s_step (mk_ss q mask f) PAvail (ResAvail true) cs (mk_ss q mask f)
| S_avail_no q mask cs : nothing_to_send q mask -> queries_only mask cs ->
    s_step (mk_ss q mask None) PAvail (ResAvail false) cs (mk_ss q mask None)
| S_push q mask f s m : s_step (mk_ss q mask f) (PPush s m) ResUnit [] (mk_ss (q_set q s (q_of q s ++ [m])) mask f).

Inductive s_run : sstate -> list pk_op -> list (pk_res * list pk_call) -> sstate -> Prop :=
| SR_nil st : s_run st [] [] st
| SR_cons st o res cs st1 ops rs st2 : s_step st o res cs st1 -> s_run st1 ops rs st2 ->
    s_run st (o :: ops) ((res, cs) :: rs) st2.
End Steps.

(** Everything the enabled sources hold, in the order it has to be sent. *)
Definition backlog (cfg : pk_cfg) (mask : Z) (w : queues) : list (list Z) :=
  flat_map (fun s => if enabled mask s then map (wire cfg s) (q_of w s) else []) priority.

(** Messages appended to source [s] during a history. *)
Fixpoint pushed (s : src) (ops : list pk_op) : list (list Z) :=
  match ops with
  | [] => []
  | PPush s' m :: r => if src_type s' =? src_type s then m :: pushed s r else pushed s r
  | _ :: r => pushed s r
  end.
Definition marks (s : src) (cs : list pk_call) : Z :=
  zlen (filter (fun c => match c with CMark s' => src_type s' =? src_type s | _ => false end) cs).
(** The mask in force before each call of a history. *)
Fixpoint masks (m : Z) (ops : list pk_op) : list Z :=
  match ops with
  | [] => []
  | o :: r => m :: masks (match o with PMask m' => u32 m' | _ => m end) r
  end.

(** Messages in range: bytes, and short enough for the chunk transport (see C15). *)
Definition msg_ok (cfg : pk_cfg) (s : src) (m : list Z) : Prop :=
  bytes (wire cfg s m) /\ zlen (wire cfg s m) < 4294967293.
Definition queues_ok (cfg : pk_cfg) (w : queues) : Prop := forall s, Forall (msg_ok cfg s) (q_of w s).
(** Conditions on a history: buffers of less than 4 GiB, messages within range. *)
Definition op_ok (cfg : pk_cfg) (o : pk_op) : Prop :=
  match o with
  | PNext b | PChunk b => zlen b < 4294967296
  | PPush s m => msg_ok cfg s m
  | _ => True
  end.


(** History of calls with what they returned, oldest first: the non-empty pieces handed out since
    the last message boundary (completed message, abort, change of the active sources). *)
Definition piece_of (r : pk_res) : list (list Z) :=
  match r with
  | ResNext _ (x :: o) | ResChunk _ (x :: o) => [x :: o]
  | _ => []
  end.
Fixpoint since (acc : list (list Z)) (h : list (pk_op * (pk_res * list pk_call))) : list (list Z) :=
  match h with
  | [] => acc
  | (o, (r, cs)) :: t =>
      match o with
      | PAbort | PMask _ => since [] t
      | _ => if existsb is_mark cs then since [] t else since (acc ++ piece_of r) t
      end
  end.

(** Non-empty pieces handed out by a history. *)
Definition chunks_of (rs : list (pk_res * list pk_call)) : list (list Z) := flat_map (fun r => piece_of (fst r)) rs.
(** Enough calls to drain a backlog: one per byte, and one per message. *)
Definition work (l : list (list Z)) : Z := fold_right (fun p a => zlen p + 1 + a) 0 l.

(** The mask in force at the end of a history. *)
Definition last_mask (ops : list pk_op) : Z :=
  fold_left (fun m o => match o with PMask m' => u32 m' | _ => m end) ops 30.
