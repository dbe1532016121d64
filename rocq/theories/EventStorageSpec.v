(** Independent specification of the event storage: a queue of events. *)
From Verif Require Import Base EventStorage.

(** Committed events (oldest first), the event being written, and how many of the oldest events
    the current read covers (0: no read started). *)
Record sev := mk_sev { v_events : list (list Z); v_part : option (list Z); v_reading : Z }.

(** Every event costs two bytes more than its data. *)
Definition cost (l : list (list Z)) : Z := zlen (concat l) + 2 * zlen l.
Definition used (v : sev) : Z :=
  cost (v_events v) + match v_part v with Some d => 2 + zlen d | None => 0 end.

(** How many events one read covers: one, or with batching as many as fit the limit. *)
Definition fits (max : Z) (l : list (list Z)) (k : Z) : bool := (k =? 1) || (zlen (concat (take k l)) <=? max).
Definition batch (cfg : es_cfg) (l : list (list Z)) : Z :=
  match cfg with
  | None => Z.min 1 (zlen l)
  | Some max => zlen (filter (fits max l) (map (fun i => 1 + Z.of_nat i) (seq 0 (length l))))
  end.
(** Header of a batch: a CBOR array head (RFC 7049, major type 4). *)
Definition array_head (n : Z) : list Z :=
  if n <? 24 then [128 + n]
  else if n <? 256 then [152; n]
  else if n <? 65536 then [153; n / 256; n mod 256]
  else [154; n / 16777216; n / 65536 mod 256; n / 256 mod 256; n mod 256].
(** The message made of the first [k] events. *)
Definition message (cfg : es_cfg) (l : list (list Z)) (k : Z) : list Z :=
  (match cfg with Some _ => if 2 <=? k then array_head k else [] | None => [] end) ++ concat (take k l).

(** [None]: the caller breaks the contract (append with no event begun, commit of an empty or of
    an oversized event, read range beyond 32 bits). *)
Definition sev_step (cfg : es_cfg) (cap : Z) (v : sev) (o : es_op) : option (es_res * sev) :=
  match o with
  | EBegin =>
      match v_part v with
      | Some _ => Some (RSpace 0, v)
      | None => if used v + 2 <=? cap
                then Some (RSpace (cap - used v - 2), mk_sev (v_events v) (Some []) (v_reading v))
                else Some (RSpace 0, v)
      end
  | EAppend d =>
      match v_part v with
      | None => None
      | Some p => if used v + zlen d <=? cap
                  then Some (ROk true, mk_sev (v_events v) (Some (p ++ d)) (v_reading v))
                  else Some (ROk false, v)
      end
  | EFinish rollback =>
      match v_part v with
      | None => Some (RUnit, v)
      | Some p => if rollback then Some (RUnit, mk_sev (v_events v) None (v_reading v))
                  else if (1 <=? zlen p) && (zlen p <=? 65532)
                       then Some (RUnit, mk_sev (v_events v ++ [p]) None (v_reading v))
                       else None
      end
  | EHas =>
      let k := if v_reading v =? 0 then batch cfg (v_events v) else v_reading v in
      Some (RSome (1 <=? k) (zlen (message cfg (v_events v) k)), mk_sev (v_events v) (v_part v) k)
  | ERead off n =>
      let m := message cfg (v_events v) (v_reading v) in
      if (0 <=? off) && (0 <=? n) && (off + n <? 4294967296)
      then Some (RBytes (if off + n <=? zlen m then Some (take n (drop off m)) else None), v)
      else None
  | EMark => Some (RUnit, mk_sev (drop (v_reading v) (v_events v)) (v_part v) 0)
  | EUsed => Some (RNum (used v), v)
  | EFree => Some (RNum (cap - used v), v)
  end.
Fixpoint sev_run (cfg : es_cfg) (cap : Z) (v : sev) (ops : list es_op) : option (list es_res * sev) :=
  match ops with
  | [] => Some ([], v)
  | o :: r => do x <- sev_step cfg cap v o; let (res, v) := x in
              do y <- sev_run cfg cap v r; let (rs, v) := y in Some (res :: rs, v)
  end.

(** Appended data is bytes, of less than 4 GiB. *)
Definition ev_ok (o : es_op) : Prop := match o with EAppend d => bytes d /\ zlen d < 4294967296 | _ => True end.

(** The reader's calls, and the results they get in a history. *)
Definition is_reader (o : es_op) : bool := match o with EHas | ERead _ _ | EMark => true | _ => false end.
Definition reader_results (ops : list es_op) (rs : list es_res) : list es_res :=
  map snd (filter (fun x => is_reader (fst x)) (combine ops rs)).
(** Steps that may come between a begin and the matching finish. *)
Definition in_write (o : es_op) : bool := match o with EAppend _ => true | _ => is_reader o end.
