(** Independent specification of the RAM log.  The state is the list of all logs ever accepted and a
    few indices into it; which of them the buffer holds is a function of that list alone. *)
From Coq Require Import String DecimalString.
From Verif Require Import Base Log.

Definition wrap32 (x : Z) : Z := x mod 4294967296.

(** A log as saved: level, type, time, text. *)
Record hlog := mk_hlog { l_level : Z; l_type : Z; l_ts : option Z; l_text : list Z }.
(** Room a log takes: two bytes, four for a timestamp, the text. *)
Definition ts_room (t : option Z) : Z := match t with Some _ => 4 | None => 0 end.
Definition hroom (e : hlog) : Z := 2 + ts_room (l_ts e) + zlen (l_text e).
Definition hrooms (l : list hlog) : Z := fold_right (fun e n => hroom e + n) 0 l.

(** The longest run of the most recent logs that fits the buffer. *)
Fixpoint fit (cap : Z) (l : list hlog) : list hlog :=
  match l with [] => [] | _ :: r => if hrooms l <=? cap then l else fit cap r end.
(** Index of its first log. *)
Definition first (cap : Z) (l : list hlog) : Z := zlen l - zlen (fit cap l).

(** The indices from [a] to [b], excluded. *)
Definition zrange (a b : Z) : list Z := map (fun k => a + Z.of_nat k) (seq 0 (Z.to_nat (b - a))).

(** [h_next]: every log with a smaller index is read or gone.  [h_sent]: every log with a smaller
    index is uploaded or gone.  [h_up]: an upload of the logs with smaller indices is in progress.
    [h_lost]: logs refused, or evicted neither read nor uploaded.  [h_seen]: lost count when last
    reported.  [h_sane]: no log was evicted that had been uploaded and not read.
    [h_reads], [h_ups]: indices of the logs read and uploaded. *)
Record hist := mk_hist { h_saved : list hlog; h_min : Z; h_next : Z; h_sent : Z; h_up : option Z;
                         h_lost : Z; h_seen : Z; h_sane : bool;
                         h_reads : list Z; h_ups : list Z }.
Definition hist_init (min : Z) : hist := mk_hist [] min 0 0 None 0 0 true [] [].

(** The notice that logs were lost (the counter printed as a signed 32-bit decimal). *)
Definition notice (max dropped : Z) : rlog :=
  let n := if dropped <? 2147483648 then dropped else dropped - 4294967296 in
  mk_rlog 2 0 0 (take max (str "... " ++ str (NilZero.string_of_int (Z.to_int n)) ++ str " messages dropped ...")%list).

Definition hlog_read (e : hlog) : rlog :=
  mk_rlog (l_level e) (l_type e) (match l_ts e with Some t => t | None => 0 end) (l_text e).

Definition hist_save (cap : Z) (h : hist) (e : hlog) : bool * hist :=
  if l_level e <? h_min h then (false, h)
  else if (cap <? hroom e) ||
          (match h_up h with Some _ => cap <? hrooms (fit cap (h_saved h)) + hroom e | None => false end)
  then (false, mk_hist (h_saved h) (h_min h) (h_next h) (h_sent h) (h_up h) (h_lost h + 1) (h_seen h) (h_sane h) (h_reads h) (h_ups h))
  else let saved := h_saved h ++ [e] in
       let f := first cap (h_saved h) in let f' := first cap saved in
       (true, mk_hist saved (h_min h) (h_next h) (h_sent h) (h_up h)
                (h_lost h + Z.max 0 (f' - Z.max f (Z.max (h_next h) (h_sent h)))) (h_seen h)
                (h_sane h && (Z.min f' (h_sent h) <=? Z.max f (h_next h))) (h_reads h) (h_ups h)).

(** [None]: outside the contract (mark-sent without an upload) or, for a read, after an upload and
    eviction of an unread log. *)
Definition hist_step (max cap : Z) (h : hist) (o : log_op) : option (log_res * hist) :=
  let f := first cap (h_saved h) in
  let n := zlen (h_saved h) in
  match o with
  | LSave level type ts text =>
      let (b, h) := hist_save cap h (mk_hlog level type ts (take (max - ts_room ts) text)) in Some (RSaved b, h)
  | LRead =>
      let lost := wrap32 (h_lost h) in
      let next := Z.max f (h_next h) in
      if negb (h_seen h =? lost) && (0 <? lost)
      then Some (RLog (Some (notice max lost)),
                 mk_hist (h_saved h) (h_min h) (h_next h) (h_sent h) (h_up h) (h_lost h) lost (h_sane h) (h_reads h) (h_ups h))
      else if h_sane h
      then match nth_error (h_saved h) (Z.to_nat next) with
           | Some e => Some (RLog (Some (hlog_read e)),
                             mk_hist (h_saved h) (h_min h) (next + 1) (h_sent h) (h_up h) (h_lost h) lost true
                                       (h_reads h ++ [next]) (h_ups h))
           | None => Some (RLog None, mk_hist (h_saved h) (h_min h) (h_next h) (h_sent h) (h_up h) (h_lost h) lost true
                                              (h_reads h) (h_ups h))
           end
      else None
  | LTrigger _ =>
      Some (RDone, match h_up h with
                   | Some _ => h
                   | None => if Z.max f (h_sent h) <? n
                             then mk_hist (h_saved h) (h_min h) (h_next h) (h_sent h) (Some n) (h_lost h) (h_seen h) (h_sane h) (h_reads h) (h_ups h)
                             else h
                   end)
  | LMarkSent =>
      match h_up h with
      | Some n => Some (RDone, mk_hist (h_saved h) (h_min h) (h_next h) n None (h_lost h) (h_seen h) (h_sane h)
                                     (h_reads h) (h_ups h ++ zrange (Z.max f (h_sent h)) n))
      | None => None
      end
  | LCount => Some (RCount (n - Z.max f (h_sent h)), h)
  | LSetMin l => Some (RDone, mk_hist (h_saved h) l (h_next h) (h_sent h) (h_up h) (h_lost h) (h_seen h) (h_sane h) (h_reads h) (h_ups h))
  | LDropped => Some (RCount (wrap32 (h_lost h)), h)
  | LRecorded => Some (RCount (wrap32 n), h)
  end.
Fixpoint hist_run (max cap : Z) (h : hist) (ops : list log_op) : option (list log_res * hist) :=
  match ops with
  | [] => Some ([], h)
  | o :: r => do x <- hist_step max cap h o; let (res, h) := x in
              do y <- hist_run max cap h r; let (rs, h) := y in Some (res :: rs, h)
  end.

(** The logs accepted in a history with its results, and the number refused for lack of room. *)
Fixpoint accepted (max : Z) (ops : list log_op) (rs : list log_res) : list hlog :=
  match ops, rs with
  | LSave level type ts text :: ops, RSaved true :: rs =>
      mk_hlog level type ts (take (max - ts_room ts) text) :: accepted max ops rs
  | _ :: ops, _ :: rs => accepted max ops rs
  | _, _ => []
  end.
Fixpoint refused (min : Z) (ops : list log_op) (rs : list log_res) : Z :=
  match ops, rs with
  | LSave level _ _ _ :: ops, RSaved false :: rs => (if level <? min then 0 else 1) + refused min ops rs
  | LSetMin l :: ops, _ :: rs => refused l ops rs
  | _ :: ops, _ :: rs => refused min ops rs
  | _, _ => 0
  end.
(** What the reads returned: each is a log or a notice. *)
Fixpoint returned (rs : list log_res) : list rlog :=
  match rs with [] => [] | RLog (Some x) :: r => x :: returned r | _ :: r => returned r end.
Inductive reads_logs (max : Z) (saved : list hlog) : list rlog -> list Z -> Prop :=
  | rl_nil : reads_logs max saved [] []
  | rl_notice d r idx : reads_logs max saved r idx -> reads_logs max saved (notice max d :: r) idx
  | rl_log i e r idx : nth_error saved (Z.to_nat i) = Some e -> reads_logs max saved r idx ->
      reads_logs max saved (hlog_read e :: r) (i :: idx).

(** The bytes of the buffer, parsed: per log a header byte (level 0-2, type 3, timestamp 4, sent 6,
    read 7), the length of what follows, the timestamp (little endian) and the text. *)
Definition le_value (l : list Z) : Z := fold_right (fun b n => b + 256 * n) 0 l.
Definition bit (b i : Z) : bool := Z.odd (b / 2 ^ i).
Fixpoint parse_logs (fuel : nat) (l : list Z) : option (list (hlog * (bool * bool))) :=
  match fuel, l with
  | _, [] => Some []
  | S fuel, h :: len :: rest =>
      if (len <=? zlen rest) && (if bit h 4 then 4 <=? len else true)
      then do r <- parse_logs fuel (drop len rest);
           let body := take len rest in
           Some ((if bit h 4 then mk_hlog (h mod 8) (h / 8 mod 2) (Some (le_value (take 4 body))) (drop 4 body)
                  else mk_hlog (h mod 8) (h / 8 mod 2) None body, (bit h 7, bit h 6)) :: r)
      else None
  | _, _ => None
  end.
(** The logs kept, with their flags read and sent. *)
Fixpoint flagged (next sent i : Z) (l : list hlog) : list (hlog * (bool * bool)) :=
  match l with [] => [] | e :: r => (e, (i <? next, i <? sent)) :: flagged next sent (i + 1) r end.

(** Arguments: levels and types of the enums, bytes, times of 32 bits, timestamps only when enabled. *)
Definition log_op_ok (ts_enabled : bool) (o : log_op) : Prop :=
  match o with
  | LSave level type ts text =>
      0 <= level < 8 /\ 0 <= type < 2 /\ bytes text /\ zlen text < 4294967296 /\
      match ts with Some t => is_u32 t /\ ts_enabled = true | None => True end
  | _ => True
  end.
