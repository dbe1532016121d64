(** What metrics are, without tables, flags or 31-bit clocks: every metric is its own variable. *)
From Verif Require Import Base Metrics.

(** A number may be unset.  A timer: the time it ran in its finished runs since its last reset, and when
    it is running, since when that run counts and when its value was last brought up to date.  A
    string. *)
Inductive aval := AInt (v : option Z) | ATimer (total : Z) (run : option (Z * Z)) | AStr (c : list Z).

Definition a_init (d : mdef) : aval :=
  match md_type d with MUnsigned | MSigned => AInt None | MTimer => ATimer 0 None | MString => AStr [] end.
Definition am_init (defs : list mdef) : list aval := map a_init defs.

(** What a string metric may be: its length fits its buffer. *)
Definition mdefs_ok (defs : list mdef) : Prop := Forall (fun d => 0 <= md_range d < 4294967296) defs.

Definition am_put (a : list aval) (i : Z) (x : aval) : list aval := take i a ++ x :: drop (i + 1) a.
Definition am_get (defs : list mdef) (a : list aval) (key : Z) : option (mdef * aval) :=
  match get defs key, get a key with Some d, Some v => Some (d, v) | _, _ => None end.

Definition is_char (c : Z) : bool := (0 <? c) && (c <? 256).
Definition or0 (o : option Z) : Z := match o with Some v => v | None => 0 end.
Definition clamp (lo hi v : Z) : Z := Z.max lo (Z.min hi v).
Definition in_u32 (v : Z) : bool := (0 <=? v) && (v <? 4294967296).
Definition in_s32 (v : Z) : bool := (-2147483648 <=? v) && (v <? 2147483648).

(** Time passes since a timer's value was last brought up to date: less than 2^31 ms. *)
Definition gap_ok (last now : Z) : bool := (last <=? now) && (now <? last + 2147483648).
(** Bring a timer up to date. *)
Definition a_force (now : Z) (v : aval) : option aval :=
  match v with
  | ATimer t (Some (since, last)) => if gap_ok last now then Some (ATimer t (Some (since, now))) else None
  | _ => Some v
  end.
(** The time a timer shows: the finished runs and the current one, up to the last update. *)
Definition a_shows (v : aval) : Z :=
  match v with ATimer t (Some (since, last)) => t + (last - since) | ATimer t None => t | _ => 0 end.
Definition a_reset (v : aval) : aval :=
  match v with
  | AInt _ => AInt None
  | ATimer _ (Some (_, last)) => ATimer 0 (Some (last, last))
  | ATimer _ None => ATimer 0 None
  | AStr _ => AStr []
  end.

(** Apply [f] to every metric. *)
Fixpoint am_each (f : mdef -> aval -> option aval) (defs : list mdef) (a : list aval) : option (list aval) :=
  match defs, a with
  | [], [] => Some []
  | d :: ds, v :: vs => do v <- f d v; do r <- am_each f ds vs; Some (v :: r)
  | _, _ => None
  end.

(** What the event says of a metric. *)
Definition a_item (d : mdef) (v : aval) : mitem :=
  match md_type d, v with
  | MUnsigned, AInt (Some n) => IUnsigned n
  | MSigned, AInt (Some n) => ISigned n
  | MTimer, _ => IUnsigned (a_shows v mod 4294967296)
  | MString, AStr c => IText c
  | _, _ => INull
  end.
Fixpoint am_items (defs : list mdef) (a : list aval) (session : Z) : list mitem :=
  match defs, a with
  | d :: ds, v :: vs => (if md_session d =? session then [a_item d v] else []) ++ am_items ds vs session
  | _, _ => []
  end.

(** Start or stop a timer. *)
Definition a_start (now : Z) (v : aval) : Z * aval :=
  match v with ATimer t None => (0, ATimer t (Some (now, now))) | _ => (NO_CHANGE, v) end.
Definition a_stop (now : Z) (v : aval) : option (Z * aval) :=
  match v with
  | ATimer t (Some (since, last)) => if gap_ok last now then Some (0, ATimer (t + (now - since)) None) else None
  | _ => Some (NO_CHANGE, v)
  end.
Definition am_timer (defs : list mdef) (a : list aval) (key : Z) (f : aval -> option (Z * aval)) : option (Z * list aval) :=
  match am_get defs a key with
  | None => Some (KEY_NOT_FOUND, a)
  | Some (d, v) => if mtype_eqb (md_type d) MTimer then
                     do x <- f v; Some (fst x, am_put a key (snd x))
                   else Some (TYPE_INCOMPATIBLE, a)
  end.

(** [None]: the caller breaks the rules: a value out of range for its C type, a character that is NUL, a
    clock before 0, a running timer not looked at for 2^31 ms, an unknown session. *)
Definition am_step (defs : list mdef) (timers : list Z) (a : list aval) (o : mop) : option (mres * list aval) :=
  match o with
  | OSetU k v =>
      if in_u32 v then
        match am_get defs a k with
        | None => Some (RRv KEY_NOT_FOUND, a)
        | Some (d, _) => if mtype_eqb (md_type d) MUnsigned then Some (RRv 0, am_put a k (AInt (Some v)))
                         else Some (RRv TYPE_INCOMPATIBLE, a)
        end
      else None
  | OSetS k v =>
      if in_s32 v then
        match am_get defs a k with
        | None => Some (RRv KEY_NOT_FOUND, a)
        | Some (d, _) => if mtype_eqb (md_type d) MSigned then Some (RRv 0, am_put a k (AInt (Some v)))
                         else Some (RRv TYPE_INCOMPATIBLE, a)
        end
      else None
  | OSetStr k c =>
      if forallb is_char c then
        match am_get defs a k with
        | Some (d, _) => if mtype_eqb (md_type d) MString then Some (RRv 0, am_put a k (AStr (take (md_range d) c)))
                         else Some (RRv KEY_NOT_FOUND, a)
        | None => Some (RRv KEY_NOT_FOUND, a)
        end
      else None
  | OAdd k n =>
      if in_s32 n then
        match am_get defs a k with
        | None => Some (RRv KEY_NOT_FOUND, a)
        | Some (d, AInt v) =>
            Some (RRv 0, am_put a k (AInt (Some (match md_type d with
                                                 | MUnsigned => clamp 0 4294967295 (or0 v + n)
                                                 | _ => clamp (-2147483648) 2147483647 (or0 v + n) end))))
        | Some _ => Some (RRv TYPE_INCOMPATIBLE, a)
        end
      else None
  | OStart k now =>
      if 0 <=? now then do x <- am_timer defs a k (fun v => Some (a_start now v)); Some (RRv (fst x), snd x) else None
  | OStop k now =>
      if 0 <=? now then do x <- am_timer defs a k (a_stop now); Some (RRv (fst x), snd x) else None
  | OReadU k =>
      match am_get defs a k with
      | None => Some (RVal KEY_NOT_FOUND None, a)
      | Some (d, v) => if mtype_eqb (md_type d) MUnsigned then
                         match v with AInt (Some n) => Some (RVal 0 (Some n), a) | _ => Some (RVal VALUE_NOT_SET None, a) end
                       else Some (RVal TYPE_INCOMPATIBLE None, a)
      end
  | OReadS k =>
      match am_get defs a k with
      | None => Some (RVal KEY_NOT_FOUND None, a)
      | Some (d, v) => if mtype_eqb (md_type d) MSigned then
                         match v with AInt (Some n) => Some (RVal 0 (Some n), a) | _ => Some (RVal VALUE_NOT_SET None, a) end
                       else Some (RVal TYPE_INCOMPATIBLE None, a)
      end
  | OReadT k now =>
      if 0 <=? now then
        match am_get defs a k with
        | None => Some (RVal KEY_NOT_FOUND None, a)
        | Some (d, v) => if mtype_eqb (md_type d) MTimer then
                           do v <- a_force now v; Some (RVal 0 (Some (a_shows v mod 4294967296)), am_put a k v)
                         else Some (RVal TYPE_INCOMPATIBLE None, a)
        end
      else None
  | OReadStr k out =>
      if zlen out =? 0 then Some (RStr BAD_PARAM out, a)
      else match am_get defs a k with
           | Some (d, AStr c) =>                  (* the string and its NUL, cut to the buffer, whose last byte is always NUL *)
               Some (RStr 0 (take (zlen out - 1) (c ++ [0] ++ drop (zlen c + 1) out) ++ [0]), a)
           | _ => Some (RStr KEY_NOT_FOUND out, a)
           end
  | OTally now => if 0 <=? now then do a <- am_each (fun _ => a_force now) defs a; Some (RUnit, a) else None
  | OSerialize session => Some (RItems (am_items defs a session), a)
  | OReset session =>
      do a <- am_each (fun d v => Some (if md_session d =? session then a_reset v else v)) defs a; Some (RUnit, a)
  | OFullReset => Some (RUnit, map a_reset a)
  | OSessStart session timer now =>
      if 0 <=? now then
        do a <- am_each (fun d v => Some (if md_session d =? session then a_reset v else v)) defs a;
        if (timer : bool) then
          do k <- get timers session;
          do x <- am_timer defs a k (fun v => Some (a_start now v)); Some (RRv (fst x), snd x)
        else Some (RRv 0, a)
      else None
  | OSessEnd session timer now stored =>
      if 0 <=? now then
        do x <- (if (timer : bool) then do k <- get timers session; am_timer defs a k (a_stop now) else Some (0, a));
        let (rv, a) := (x : Z * list aval) in
        if rv =? 0 then Some (REnd (if (stored : bool) then 0 else STORAGE_TOO_SMALL) (Some (am_items defs a session)), a)
        else Some (REnd rv None, a)
      else None
  end.
Fixpoint am_run (defs : list mdef) (timers : list Z) (a : list aval) (ops : list mop) : option (list mres * list aval) :=
  match ops with
  | [] => Some ([], a)
  | o :: r => do x <- am_step defs timers a o; let (res, a) := (x : mres * list aval) in
              do y <- am_run defs timers a r; let (rs, a) := (y : list mres * list aval) in Some (res :: rs, a)
  end.

(** ** Words the theorems use *)
Definition charz (c : Z) : Prop := is_char c = true.

(** States reached by callers that keep the rules. *)
Definition reachable (defs : list mdef) (timers : list Z) (s : mstate) : Prop :=
  exists ops rs a, am_run defs timers (am_init defs) ops = Some (rs, a) /\ me_run defs timers (ms_init defs) ops = Some (rs, s).
(** What the event would say of metric [j] now. *)
Definition item_of (defs : list mdef) (s : mstate) (j : Z) : option mitem :=
  do f <- me_find defs s j; match f with Some i => me_item s i | None => None end.
(** The metric an operation names. *)
Definition op_key (o : mop) : option Z :=
  match o with
  | OSetU k _ | OSetS k _ | OSetStr k _ | OAdd k _ | OStart k _ | OStop k _ | OReadU k | OReadS k | OReadT k _ | OReadStr k _ => Some k
  | _ => None
  end.
Definition arg_ok (o : mop) : Prop :=
  match o with
  | OSetU _ v => is_u32 v | OSetS _ v | OAdd _ v => is_s32 v | OSetStr _ c => Forall charz c
  | OReadU _ | OReadS _ | OReadStr _ _ => True
  | _ => False
  end.
(** The total of a timer is the sum of its runs, however often it is looked at. *)
Fixpoint gaps (from : Z) (looks : list Z) (stop : Z) : Prop :=
  match looks with
  | [] => from <= stop < from + 2147483648
  | l :: r => from <= l < from + 2147483648 /\ gaps l r stop
  end.
Definition run := (Z * list Z * Z)%type.
Definition run_good (x : run) : Prop := let '(a, looks, b) := x in 0 <= a /\ gaps a looks b.
Definition run_ops (k : Z) (x : run) : list mop := let '(a, looks, b) := x in OStart k a :: map (OReadT k) looks ++ [OStop k b].
Definition run_time (x : run) : Z := let '(a, _, b) := x in b - a.
(** Heartbeats: what each reports of a timer that runs all the time is the time since the one before. *)
Definition heartbeat_ops (h t : Z) : list mop := [OTally t; OSerialize h; OReset h].
Fixpoint beats (from : Z) (ts : list Z) : Prop := match ts with [] => True | t :: r => from <= t < from + 2147483648 /\ beats t r end.
Fixpoint diffs (from : Z) (ts : list Z) : list Z := match ts with [] => [] | t :: r => (t - from) :: diffs t r end.
(** The place of metric [k] in the event of its session. *)
Definition event_index (h : Z) (defs : list mdef) (k : Z) : Z := ms_count (fun d => md_session d =? h) (take k defs).
(** What each heartbeat reports of metric [k], from the results of the calls. *)
Fixpoint reported (i : Z) (rs : list mres) : list (option mitem) :=
  match rs with [] => [] | RItems l :: r => get l i :: reported i r | _ :: r => reported i r end.
