(** What booting the metrics does, said of metrics that are variables (MetricsSpec.v) and of what reboot
    tracking knows (RebootSpec.v). *)
From Verif Require Import Base Metrics MetricsSpec Reboot RebootSpec MetricsBoot.

Definition dview := (list aval * rview)%type.

(** The tables fit together: session [k] has a crash count of its own, the interval and the count of
    unexpected reboots are no user session's; at most 31 user sessions. *)
Record tables_ok (defs : list mdef) (cfg : mb_cfg) : Prop := mk_tok {
  t_few : zlen (mb_crash cfg) <= 31;
  t_crash : forall k key, get (mb_crash cfg) k = Some key ->
            exists d, get defs key = Some d /\ md_type d = MUnsigned /\ md_session d = k;
  t_interval : exists d, get defs (mb_interval cfg) = Some d /\ md_type d = MTimer /\ zlen (mb_crash cfg) <= md_session d;
  t_count : exists d, get defs (mb_count cfg) = Some d /\ md_type d = MUnsigned /\ zlen (mb_crash cfg) <= md_session d }.

(** The event of a session cut off by a crash: one crash; nothing else is known. *)
Definition blank (d : mdef) : mitem :=
  match md_type d with MUnsigned | MSigned => INull | MTimer => IUnsigned 0 | MString => IText [] end.
Fixpoint crash_items (i : Z) (defs : list mdef) (session key : Z) : list mitem :=
  match defs with
  | [] => []
  | d :: r => (if md_session d =? session then [if i =? key then IUnsigned 1 else blank d] else []) ++ crash_items (i + 1) r session key
  end.
Definition crash_event (defs : list mdef) (cfg : mb_cfg) (stored : Z -> bool) (k : Z) : sevent :=
  (k, match get (mb_crash cfg) k with Some key => crash_items 0 defs k key | None => [] end, stored k).

(** The sessions cut off by the crash this boot follows, in the order of their numbers. *)
Fixpoint numbers (n : nat) (from : Z) : list Z := match n with O => [] | S n => from :: numbers n (from + 1) end.
Definition sessions (cfg : mb_cfg) : list Z := numbers (length (mb_crash cfg)) 0.
Definition crashed_boot (v : rview) : bool := match r_boot v with Some (_, f) => crash f | None => false end.
Definition cut_off (cfg : mb_cfg) (v : rview) : list Z :=
  if crashed_boot v && r_up v then filter (k_active (r_k v)) (sessions cfg) else [].

(** After the boot: the metrics of a session that was cut off say one crash and nothing else. *)
Fixpoint settle (i : Z) (defs : list mdef) (cfg : mb_cfg) (cut : list Z) (a : list aval) : list aval :=
  match defs, a with
  | d :: ds, v :: vs =>
      (if existsb (Z.eqb (md_session d)) cut
       then if match get (mb_crash cfg) (md_session d) with Some key => i =? key | None => false end
            then AInt (Some 1) else a_reset v
       else v) :: settle (i + 1) ds cfg cut vs
  | _, _ => []
  end.

(** [None]: a clock before 0 or a count that is no u32. *)
Definition dv_boot (defs : list mdef) (cfg : mb_cfg) (timer_ok size_ok : bool) (count now : Z) (stored : Z -> bool) (s : dview)
  : option (Z * list sevent * dview) :=
  let (a, v) := s in
  let a := map a_reset a in
  if negb timer_ok then Some (TIMER_BOOT_FAILED, [], (a, v))
  else if negb size_ok then Some (STORAGE_TOO_SMALL, [], (a, v))
  else if negb (0 <=? now) then None
  else match get a (mb_interval cfg) with
       | Some (ATimer t None) =>
           if negb (in_u32 count) then None
           else let a := am_put (am_put a (mb_interval cfg) (ATimer t (Some (now, now)))) (mb_count cfg) (AInt (Some count)) in
                Some (0, map (crash_event defs cfg stored) (cut_off cfg v),
                      (settle 0 defs cfg (cut_off cfg v) a,
                       if r_up v then upd v (with_active (r_k v) (fun _ => false)) else v))
       | _ => Some (NO_CHANGE, [], (a, v))     (* booted before: the interval is already running *)
       end.

(** Sessions: start and end of the metrics, and whether it is active. *)
Definition dv_step (defs : list mdef) (timers : list Z) (cfg : mb_cfg) (s : dview) (o : dop) : option (dres * dview) :=
  let (a, v) := s in
  match o with
  | DMetric o => do x <- am_step defs timers a o; Some (DRMetric (fst x) [], (snd x, v))
  | DStart k now =>
      do x <- am_step defs timers a (OSessStart k true now);
      do y <- rv_step v (TSession true k);
      Some (DRMetric (fst x) [], (snd x, snd y))
  | DEnd k now stored =>
      do x <- am_step defs timers a (OSessEnd k true now stored);
      do y <- rv_step v (TSession false k);
      Some (DRMetric (fst x) (match fst x with REnd _ (Some l) => [(k, l, stored)] | _ => [] end), (snd x, snd y))
  | DTrack o =>
      do y <- rv_step v o;
      Some (DRTrack (fst y), (match o with TReset _ => am_init defs | _ => a end, snd y))
  | DBoot t z count now stored =>
      do x <- dv_boot defs cfg t z count now stored (a, v); let '(rv, ev, s) := x in Some (DRBoot rv ev, s)
  end.
Fixpoint dv_run (defs : list mdef) (timers : list Z) (cfg : mb_cfg) (s : dview) (ops : list dop) : option (list dres * dview) :=
  match ops with
  | [] => Some ([], s)
  | o :: r => do x <- dv_step defs timers cfg s o; do y <- dv_run defs timers cfg (snd x) r; Some (fst x :: fst y, snd y)
  end.
Definition dv_init (defs : list mdef) (m : rinfo) : dview := (am_init defs, start m).
Definition dop_ok (o : dop) : Prop := match o with DTrack o => rt_op_ok o | _ => True end.

(** ** From the outside: the events of a boot after a crash, by the history alone *)
(** Calls between two boots: no reset, no boot, no marking of sessions but by starting and ending them. *)
Definition running (o : dop) : bool :=
  match o with
  | DMetric _ | DStart _ _ | DEnd _ _ _ => true
  | DTrack (TReset _ | TBoot _ _ _ | TSession _ _ | TClearSessions) => false
  | DTrack _ => true
  | DBoot _ _ _ _ _ => false
  end.
(** Is session [k] open after [ops]? *)
Fixpoint open_after (k : Z) (was : bool) (ops : list dop) : bool :=
  match ops with
  | [] => was
  | DStart j _ :: r => open_after k (if j =? k then true else was) r
  | DEnd j _ _ :: r => open_after k (if j =? k then false else was) r
  | _ :: r => open_after k was r
  end.
(** The first reason marked in [ops] since the last was collected. *)
Fixpoint marked (first : option Z) (ops : list dop) : option Z :=
  match ops with
  | [] => first
  | DTrack (TMark r _) :: rest => marked (match first with None => Some r | _ => first end) rest
  | DTrack TClear :: rest => marked None rest
  | _ :: rest => marked first rest
  end.
(** The device resets keeping its memory, boots reboot tracking with [info] and then the metrics. *)
Definition reboot_ops (info : option (Z * Z)) (count now : Z) (stored : Z -> bool) : list dop :=
  [DTrack (TReset None); DTrack (TBoot true None info); DBoot true true count now stored].
Definition boot_reason (first : option Z) (info : option (Z * Z)) : Z :=
  match first with Some f => f | None => match info with Some (r, _) => r | None => 0 end end.
