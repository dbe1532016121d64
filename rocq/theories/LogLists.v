(** Intermediate description of the RAM log, used in proofs only: the list of the logs held, oldest
    first, each with its flags. *)
From Coq Require Import String DecimalString.
From Verif Require Import Base Log LogSpec.

Record slog := mk_slog { g_level : Z; g_type : Z; g_ts : option Z; g_text : list Z; g_read : bool; g_sent : bool }.

(** Room a log takes: two bytes, four for a timestamp, the text. *)
Definition room (e : slog) : Z := 2 + ts_room (g_ts e) + zlen (g_text e).
Fixpoint rooms (l : list slog) : Z := match l with [] => 0 | e :: r => room e + rooms r end.

(** [v_sane]: no log was evicted that had been uploaded without having been read. *)
Record slg := mk_slg {
  v_logs : list slog; v_min : Z; v_dropped : Z; v_recorded : Z; v_last : Z;
  v_trig : bool; v_num : Z; v_time : option Z; v_sane : bool }.

(** Drop the oldest logs until [free] bytes of the capacity are unused. *)
Fixpoint evict (cap need : Z) (l : list slog) : list slog * list slog :=
  match l with
  | [] => ([], [])
  | e :: r => if rooms l + need <=? cap then ([], l) else let (gone, kept) := evict cap need r in (e :: gone, kept)
  end.
(** Logs lost: never read nor uploaded. *)
Definition lost (l : list slog) : Z := zlen (filter (fun e => negb (g_read e) && negb (g_sent e)) l).

Definition set_read (e : slog) : slog := mk_slog (g_level e) (g_type e) (g_ts e) (g_text e) true (g_sent e).
Definition set_sent (e : slog) : slog := mk_slog (g_level e) (g_type e) (g_ts e) (g_text e) (g_read e) true.
(** The first unread log, and the list with it marked. *)
Fixpoint first_unread (l : list slog) : option (slog * list slog) :=
  match l with
  | [] => None
  | e :: r => if g_read e
              then match first_unread r with Some (x, r') => Some (x, e :: r') | None => None end
              else Some (e, set_read e :: r)
  end.
Definition unsent (l : list slog) : Z := zlen (filter (fun e => negb (g_sent e)) l).
(** Mark the first [n] unsent logs. *)
Fixpoint mark_sent (n : Z) (l : list slog) : list slog :=
  match l with
  | [] => []
  | e :: r => if g_sent e then e :: mark_sent n r
              else if n <=? 0 then e :: r else set_sent e :: mark_sent (n - 1) r
  end.

Definition as_read (e : slog) : rlog :=
  mk_rlog (g_level e) (g_type e) (match g_ts e with Some t => t | None => 0 end) (g_text e).
(** Result of a save, and the state. *)
Definition slg_save (cap : Z) (v : slg) (e : slog) : bool * slg :=
  if g_level e <? v_min v then (false, v)
  else if (cap <? room e) || (v_trig v && (cap <? rooms (v_logs v) + room e))
  then (false, mk_slg (v_logs v) (v_min v) (wrap32 (v_dropped v + 1)) (v_recorded v) (v_last v)
                      (v_trig v) (v_num v) (v_time v) (v_sane v))
  else let (gone, kept) := evict cap (room e) (v_logs v) in
       (true, mk_slg (kept ++ [e]) (v_min v) (wrap32 (v_dropped v + lost gone)) (wrap32 (v_recorded v + 1)) (v_last v)
                     (v_trig v) (v_num v) (v_time v)
                     (v_sane v && forallb (fun e => implb (g_sent e) (g_read e)) gone)).

(** [None]: outside the contract (mark-sent without a trigger) or, for a read, after an insane
    eviction. *)
Definition slg_step (max cap : Z) (v : slg) (o : log_op) : option (log_res * slg) :=
  match o with
  | LSave level type ts text =>
      let (b, v) := slg_save cap v (mk_slog level type ts (take (max - ts_room ts) text) false false) in
      Some (RSaved b, v)
  | LRead =>
      let v' := mk_slg (v_logs v) (v_min v) (v_dropped v) (v_recorded v) (v_dropped v) (v_trig v) (v_num v) (v_time v) (v_sane v) in
      if negb (v_last v =? v_dropped v) && (0 <? v_dropped v)
      then Some (RLog (Some (notice max (v_dropped v))), v')
      else if v_sane v
      then match first_unread (v_logs v) with
           | Some (e, logs) =>
               Some (RLog (Some (as_read e)),
                     mk_slg logs (v_min v) (v_dropped v) (v_recorded v) (v_dropped v) (v_trig v) (v_num v) (v_time v) true)
           | None => Some (RLog None, v')
           end
      else None
  | LTrigger time =>
      if v_trig v || (unsent (v_logs v) =? 0) then Some (RDone, v)
      else Some (RDone, mk_slg (v_logs v) (v_min v) (v_dropped v) (v_recorded v) (v_last v) true (unsent (v_logs v)) time (v_sane v))
  | LMarkSent =>
      if v_trig v
      then Some (RDone, mk_slg (mark_sent (v_num v) (v_logs v)) (v_min v) (v_dropped v) (v_recorded v) (v_last v) false 0 None (v_sane v))
      else None
  | LCount => Some (RCount (unsent (v_logs v)), v)
  | LSetMin l => Some (RDone, mk_slg (v_logs v) l (v_dropped v) (v_recorded v) (v_last v) (v_trig v) (v_num v) (v_time v) (v_sane v))
  | LDropped => Some (RCount (v_dropped v), v)
  | LRecorded => Some (RCount (v_recorded v), v)
  end.
Fixpoint slg_run (max cap : Z) (v : slg) (ops : list log_op) : option (list log_res * slg) :=
  match ops with
  | [] => Some ([], v)
  | o :: r => do x <- slg_step max cap v o; let (res, v) := x in
              do y <- slg_run max cap v r; let (rs, v) := y in Some (res :: rs, v)
  end.
Definition slg_init (min : Z) : slg := mk_slg [] min 0 0 0 false 0 None true.

