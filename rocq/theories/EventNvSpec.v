(** Events in RAM and in non-volatile storage: one queue in two places. *)
From Verif Require Import Base EventStorage EventStorageSpec EventNv.

(** The groups of events persisted together (one message each, oldest first), the RAM queue, whether the
    port is enabled and whether it was when last looked at. *)
Record nvv := mk_nvv { w_nv : list (list (list Z)); w_ram : sev; w_on : bool; w_was : bool }.

(** The message that stands for a group. *)
Definition group_msg (cfg : es_cfg) (g : list (list Z)) : list Z := message cfg g (zlen g).
Definition sum (l : list Z) : Z := fold_right Z.add 0 l.

(** How many events the RAM queue offers: a read started before goes on. *)
Definition offered (cfg : es_cfg) (v : sev) : Z := if v_reading v =? 0 then batch cfg (v_events v) else v_reading v.
Definition reading (v : sev) (k : Z) : sev := mk_sev (v_events v) (v_part v) k.
(** Persisting moves group after group, until there is none or a write fails. *)
Fixpoint move (cfg : es_cfg) (ws : list nvw) (nv : list (list (list Z))) (v : sev) (n : Z) : Z * list (list (list Z)) * sev :=
  let k := offered cfg v in
  if k =? 0 then (n, nv, v)
  else match ws with
       | (pieces, ok) :: r =>
           if ok && (sum pieces =? zlen (message cfg (v_events v) k))
           then move cfg r (nv ++ [take k (v_events v)]) (mk_sev (drop k (v_events v)) (v_part v) 0) (n + 1)
           else (n, nv, reading v k)
       | [] => (n, nv, reading v k)
       end.
(** Looking at the port: when it was switched off, a started read is given up. *)
Definition look (w : nvv) : nvv :=
  mk_nvv (w_nv w) (if w_was w && negb (w_on w) then reading (w_ram w) 0 else w_ram w) (w_on w) (w_on w).

(** [None]: the contract is broken: as in [sev_step], or the port is switched on in the middle of the
    read of an event in RAM (see the refuted theorem). *)
Definition nvv_step (cfg : es_cfg) (cap : Z) (w : nvv) (o : nv_op) : option (nv_res * nvv) :=
  match o with
  | NEvent o =>
      if is_reader o then None else
      do x <- sev_step cfg cap (w_ram w) o; let (r, v) := (x : es_res * sev) in
      Some (NREvent r (match o, v_part (w_ram w) with EFinish false, Some _ => true | _, _ => false end), mk_nvv (w_nv w) v (w_on w) (w_was w))
  | NHas =>
      let w := look w in
      if w_on w then Some (match w_nv w with g :: _ => NRHas true (zlen (group_msg cfg g)) | [] => NRHas false 0 end, w)
      else let k := offered cfg (w_ram w) in
           Some (NRHas (1 <=? k) (zlen (message cfg (v_events (w_ram w)) k)), mk_nvv (w_nv w) (reading (w_ram w) k) (w_on w) (w_was w))
  | NRead off n =>
      let w := look w in
      if (0 <=? off) && (0 <=? n) && (off + n <? 4294967296) then
        let m := if w_on w then match w_nv w with g :: _ => group_msg cfg g | [] => [] end
                 else message cfg (v_events (w_ram w)) (v_reading (w_ram w)) in
        Some (NRRead (if (off + n <=? zlen m) && negb (w_on w && match w_nv w with [] => true | _ => false end)
                      then Some (take n (drop off m)) else None), w)
      else None
  | NMark =>
      let w := look w in
      if w_on w then
        let k := offered cfg (w_ram w) in
        Some (NRMark (1 <=? k), mk_nvv (tl (w_nv w)) (reading (w_ram w) k) (w_on w) (w_was w))
      else Some (NRMark false, mk_nvv (w_nv w) (mk_sev (drop (v_reading (w_ram w)) (v_events (w_ram w))) (v_part (w_ram w)) 0) (w_on w) (w_was w))
  | NPersist ws =>
      let w := look w in
      if w_on w then let '(n, nv, v) := move cfg ws (w_nv w) (w_ram w) 0 in Some (NRSaved n, mk_nvv nv v (w_on w) (w_was w))
      else Some (NRSaved 0, w)
  | NPort on =>
      if on && negb (w_on w) && negb (v_reading (w_ram w) =? 0) then None
      else Some (NRNone, mk_nvv (w_nv w) (w_ram w) on (w_was w))
  | NReset _ => Some (NRNone, mk_nvv (w_nv w) (mk_sev [] None 0) (w_on w) false)
  end.
Fixpoint nvv_run (cfg : es_cfg) (cap : Z) (w : nvv) (ops : list nv_op) : option (list nv_res * nvv) :=
  match ops with
  | [] => Some ([], w)
  | o :: r => do x <- nvv_step cfg cap w o; do y <- nvv_run cfg cap (snd x) r; Some (fst x :: fst y, snd y)
  end.

(** Bytes, sizes in range; the RAM given at a boot has the same size. *)
Definition nv_ok (cap : Z) (o : nv_op) : Prop :=
  match o with
  | NEvent o => ev_ok o
  | NPersist ws => Forall (fun w => Forall (fun n => 0 <= n) (fst w) /\ sum (fst w) < 4294967296) ws
  | NReset storage => zlen storage = cap
  | _ => True
  end.

(** ** Bookkeeping: what becomes of every event *)
(** Events committed, marked read, and lost with the RAM at a reset, by one call. *)
Definition went_in (w : nvv) (o : nv_op) : list (list Z) :=
  match o, v_part (w_ram w) with NEvent (EFinish false), Some p => [p] | _, _ => [] end.
Definition came_out (w : nvv) (o : nv_op) : list (list Z) :=
  match o with
  | NMark => let w := look w in
             if w_on w then match w_nv w with g :: _ => g | [] => [] end else take (v_reading (w_ram w)) (v_events (w_ram w))
  | _ => []
  end.
Definition lost (w : nvv) (o : nv_op) : list (list Z) := match o with NReset _ => v_events (w_ram w) | _ => [] end.
Fixpoint flow (f : nvv -> nv_op -> list (list Z)) (cfg : es_cfg) (cap : Z) (w : nvv) (ops : list nv_op) : list (list Z) :=
  match ops with
  | [] => []
  | o :: r => f w o ++ match nvv_step cfg cap w o with Some x => flow f cfg cap (snd x) r | None => [] end
  end.
(** All events held, persisted ones first. *)
Definition held (w : nvv) : list (list Z) := concat (w_nv w) ++ v_events (w_ram w).

(** Reading and marking messages [ms] one after the other, and what is answered; [more]: events are
    waiting in RAM. *)
Definition drain (ms : list (list Z)) : list nv_op := flat_map (fun m => [NHas; NRead 0 (zlen m); NMark]) ms ++ [NHas].
Definition drained (more : bool) (ms : list (list Z)) : list nv_res :=
  flat_map (fun m => [NRHas true (zlen m); NRRead (Some m); NRMark more]) ms ++ [NRHas false 0].
(** A port that takes everything, reading it in one piece. *)
Definition takes_all (cfg : es_cfg) (gs : list (list (list Z))) : list nvw := map (fun g => ([zlen (group_msg cfg g)], true)) gs.
(** After a boot the RAM is empty; the port holds what it held. *)
Definition nvv_boot (nv : list (list (list Z))) (on : bool) : nvv := mk_nvv nv (mk_sev [] None 0) on false.
(** Messages have sizes of 32 bits. *)
Definition small (cfg : es_cfg) (g : list (list Z)) : Prop := zlen (group_msg cfg g) < 4294967296.
(** The port is neither switched nor the device reset. *)
Definition steady (o : nv_op) : Prop := match o with NPort _ | NReset _ => False | _ => True end.
