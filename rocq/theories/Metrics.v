(** Model of components/metrics/src/memfault_metrics.c: the values of the metrics, their set flags, the
    string buffers and the timers, all found through the index tables the macros generate.  Locks are
    not modelled; the time returned by memfault_platform_get_time_since_boot_ms is an input of each
    operation.  User callbacks are operations of the history. *)
From Verif Require Import Base.

(** memfault/metrics/metrics.h:43-55 *)
Inductive mtype := MUnsigned | MSigned | MTimer | MString.
Definition mtype_eqb (a b : mtype) : bool :=
  match a, b with MUnsigned, MUnsigned | MSigned, MSigned | MTimer, MTimer | MString, MString => true | _, _ => false end.

(** s_memfault_heartbeat_keys (memfault_metrics.c:152-237): type, range (for a string its maximum
    length, :202-204) and session.  The key is the index; min and scale_value are only read by the
    cloud. *)
Record mdef := mk_mdef { md_type : mtype; md_range : Z; md_session : Z }.

(** memfault_metrics.c:356-419, :478-510: the tables that take a key to the place of its value, built
    by counting the entries of each kind (0 or -1 is the placeholder). *)
Fixpoint kv_table (n : Z) (defs : list mdef) : list Z :=
  match defs with
  | [] => []
  | d :: r => match md_type d with MString => 0 :: kv_table n r | _ => n :: kv_table (n + 1) r end
  end.
Fixpoint str_table (n : Z) (defs : list mdef) : list Z :=
  match defs with
  | [] => []
  | d :: r => match md_type d with MString => n :: str_table (n + 1) r | _ => 0 :: str_table n r end
  end.
Fixpoint timer_table (n : Z) (defs : list mdef) : list Z :=
  match defs with
  | [] => []
  | d :: r => match md_type d with MTimer => n :: timer_table (n + 1) r | _ => (-1) :: timer_table n r end
  end.

(** s_memfault_heartbeat_values (:421-429; each the 32 bits of the union), the set flags (:431-444),
    the string buffers (:344-354, :446-458) and the timer metadata (:460-473, bit fields of :329-336:
    is_running, start_time_ms in 31 bits). *)
Record mstate := mk_ms { ms_vals : list Z; ms_flags : list Z; ms_strs : list (list Z); ms_meta : list (bool * Z) }.
Definition set_vals s v := mk_ms v (ms_flags s) (ms_strs s) (ms_meta s).
Definition set_flags s v := mk_ms (ms_vals s) v (ms_strs s) (ms_meta s).
Definition set_strs s v := mk_ms (ms_vals s) (ms_flags s) v (ms_meta s).
Definition set_meta s v := mk_ms (ms_vals s) (ms_flags s) (ms_strs s) v.

(** The static initialisers: everything zero, a buffer of max_length + 1 for each string. *)
Fixpoint ms_count (t : mdef -> bool) (defs : list mdef) : Z :=
  match defs with [] => 0 | d :: r => (if t d then 1 else 0) + ms_count t r end.
Definition is_string (d : mdef) : bool := mtype_eqb (md_type d) MString.
Definition is_timer (d : mdef) : bool := mtype_eqb (md_type d) MTimer.
Definition is_scalar (d : mdef) : bool := negb (is_string d).
Definition ms_init (defs : list mdef) : mstate :=
  mk_ms (fill (ms_count is_scalar defs) 0)
        (fill ((ms_count is_scalar defs + 7) / 8) 0)
        (map (fun d => fill (md_range d + 1) 0) (filter is_string defs))
        (repeat (false, 0) (Z.to_nat (ms_count is_timer defs + 1))).

(** Checked assignment to an array element. *)
Definition zset {A} (l : list A) (i : Z) (x : A) : option (list A) :=
  if (0 <=? i) && (i <? zlen l) then Some (take i l ++ x :: drop (i + 1) l) else None.

(** memfault_metrics.c:598-616 and :618-626 *)
Definition me_flag (s : mstate) (k : Z) : option bool :=
  do b <- get (ms_flags s) (k / 8); Some (Z.odd (Z.shiftr b (k mod 8))).
Definition me_flag_set (s : mstate) (k : Z) : option mstate :=
  do b <- get (ms_flags s) (k / 8);
  do f <- zset (ms_flags s) (k / 8) (u8 (Z.lor b (Z.shiftl 1 (k mod 8))));
  Some (set_flags s f).
Definition me_flag_clear (s : mstate) (k : Z) : option mstate :=
  do b <- get (ms_flags s) (k / 8);
  do f <- zset (ms_flags s) (k / 8) (u8 (Z.land b (Z.lnot (Z.shiftl 1 (k mod 8)))));
  Some (set_flags s f).

(** sMemfaultMetricValueInfo (:338-342): where the value is, where the timer's metadata is, whether it
    is set (only filled in for numbers). *)
Inductive mplace := PVal (k : Z) | PStr (q : Z).
Record minfo := mk_mi { mi_def : mdef; mi_place : mplace; mi_meta : option Z; mi_set : bool }.

(** memfault_metrics.c:583-596, :628-673; [Some None]: no such key. *)
Definition me_find (defs : list mdef) (s : mstate) (key : Z) : option (option minfo) :=
  match get defs key with
  | None => Some None                                                     (* :631-634 *)
  | Some d =>
      do k <- get (kv_table 0 defs) key;                                  (* :637 *)
      do q <- get (str_table 0 defs) key;                                 (* :646 *)
      do j <- get (timer_table 0 defs) key;                               (* :590 *)
      do set <- match md_type d with
                | MUnsigned | MSigned => me_flag s k                      (* :668-670 *)
                | _ => Some false end;
      Some (Some (mk_mi d (if is_string d then PStr q else PVal k) (if j =? -1 then None else Some j) set))
  end.

(** Error codes, memfault_metrics.c:44-50 *)
Definition KEY_NOT_FOUND := -1.
Definition TYPE_INCOMPATIBLE := -2.
Definition BAD_PARAM := -3.
Definition NO_CHANGE := -4.
Definition STORAGE_TOO_SMALL := -5.
Definition VALUE_NOT_SET := -7.

(** memfault_metrics.c:701-754; [raw] are the 32 bits of the new value. *)
Definition me_set (defs : list mdef) (s : mstate) (key : Z) (t : mtype) (raw : Z) : option (Z * mstate) :=
  do f <- me_find defs s key;
  match f with
  | None => Some (KEY_NOT_FOUND, s)
  | Some i =>
      if mtype_eqb (md_type (mi_def i)) t then
        match mi_place i with
        | PVal k => do v <- zset (ms_vals s) k raw;                       (* :717 *)
                    do s <- me_flag_set (set_vals s v) k;                 (* :718 *)
                    Some (0, s)
        | PStr _ => None
        end
      else Some (TYPE_INCOMPATIBLE, s)
  end.

(** memfault_metrics.c:756-777; [c]: the characters before the NUL of the argument. *)
Definition me_set_string (defs : list mdef) (s : mstate) (key : Z) (c : list Z) : option (Z * mstate) :=
  do f <- me_find defs s key;
  match f with
  | None => Some (KEY_NOT_FOUND, s)
  | Some i =>
      if mtype_eqb (md_type (mi_def i)) MString then
        match mi_place i with
        | PStr q =>
            do b <- get (ms_strs s) q;
            let len := Z.min (zlen c) (md_range (mi_def i)) in            (* :769 *)
            do b <- splice b 0 (take len c);                              (* :770 *)
            do b <- put b len 0;                                          (* :772 *)
            do q <- zset (ms_strs s) q b;
            Some (0, set_strs s q)
        | PVal _ => None
        end
      else Some (KEY_NOT_FOUND, s)                                        (* :766 *)
  end.

(** memfault_metrics.c:937-993 *)
Definition me_add (defs : list mdef) (s : mstate) (key amount : Z) : option (Z * mstate) :=
  do f <- me_find defs s key;
  match f with
  | None => Some (KEY_NOT_FOUND, s)
  | Some i =>
      match md_type (mi_def i), mi_place i with
      | MSigned, PVal k =>
          do raw <- get (ms_vals s) k;
          let n := s32 raw + amount in                                    (* :948 *)
          let n := if 2147483647 <? n then 2147483647
                   else if n <? -2147483648 then -2147483648 else n in    (* :949-955 *)
          do v <- zset (ms_vals s) k (u32 n);
          do s <- me_flag_set (set_vals s v) k;                           (* :988 *)
          Some (0, s)
      | MUnsigned, PVal k =>
          do raw <- get (ms_vals s) k;
          let n := u32 (raw + u32 amount) in                              (* :960 *)
          let positive := 0 <? amount in
          let increased := raw <? n in
          let n := if xorb positive increased then if positive then 4294967295 else 0 else n in  (* :964-966 *)
          do v <- zset (ms_vals s) k n;
          do s <- me_flag_set (set_vals s v) k;
          Some (0, s)
      | _, _ => Some (TYPE_INCOMPATIBLE, s)                               (* :971-977 *)
      end
  end.

(** memfault_metrics.c:779-783 *)
Inductive mtop := TStart | TStop | TForce.
(** memfault_metrics.c:785-830; the value is at [k], the metadata at [j]. *)
Definition me_timer_update (s : mstate) (k j : Z) (o : mtop) (now : Z) : option (bool * mstate) :=
  do m <- get (ms_meta s) j;
  let (running, start) := (m : bool * Z) in
  match running, o with
  | false, TStart =>
      do m <- zset (ms_meta s) j (true, now mod 2147483648);              (* :799-800: 31 bits *)
      Some (true, set_meta s m)
  | true, TStop | true, TForce =>
      let stop := Z.land now 2147483647 in                                (* :806-807 *)
      let delta := if start <=? stop then stop - start else u32 (2147483648 - start + stop) in  (* :811-815 *)
      do raw <- get (ms_vals s) k;
      do v <- zset (ms_vals s) k (u32 (raw + delta));                     (* :816 *)
      do m <- zset (ms_meta s) j (match o with TStop => (false, 0) | _ => (true, stop) end);  (* :818-823 *)
      Some (true, set_meta (set_vals s v) m)
  | _, _ => Some (false, s)
  end.
(** memfault_metrics.c:832-844 *)
Definition me_timer (defs : list mdef) (s : mstate) (key : Z) (o : mtop) (now : Z) : option (Z * mstate) :=
  do f <- me_find defs s key;
  match f with
  | None => Some (KEY_NOT_FOUND, s)
  | Some i =>
      if mtype_eqb (md_type (mi_def i)) MTimer then
        match mi_place i, mi_meta i with
        | PVal k, Some j => do x <- me_timer_update s k j o now;
                            let (did, s) := (x : bool * mstate) in Some (if did then 0 else NO_CHANGE, s)
        | _, _ => None
        end
      else Some (TYPE_INCOMPATIBLE, s)
  end.

(** A loop over the table of metrics ([for idx = 0; idx < ...]). *)
Fixpoint me_loop (f : Z -> mstate -> option mstate) (n : nat) (idx : Z) (s : mstate) {struct n} : option mstate :=
  match n with
  | O => Some s
  | S n => do s <- f idx s; me_loop f n (idx + 1) s
  end.
(** memfault_metrics.c:677-690 with :862-871 *)
Definition me_tally_one (defs : list mdef) (now : Z) (idx : Z) (s : mstate) : option mstate :=
  do f <- me_find defs s idx;
  match f with
  | None => None
  | Some i => if is_timer (mi_def i) then
                match mi_place i, mi_meta i with
                | PVal k, Some j => do x <- me_timer_update s k j TForce now; Some (snd x)
                | _, _ => None
                end
              else Some s
  end.
(** memfault_metrics.c:920-923 *)
Definition me_tally (defs : list mdef) (s : mstate) (now : Z) : option mstate :=
  me_loop (me_tally_one defs now) (length defs) 0 s.

(** memfault_metrics.c:888-917 *)
Definition me_reset_one (defs : list mdef) (session : Z) (idx : Z) (s : mstate) : option mstate :=
  do d <- get defs idx;
  if negb (md_session d =? session) then Some s                           (* :893-895 *)
  else
    do q <- get (str_table 0 defs) idx;
    do k <- get (kv_table 0 defs) idx;
    match md_type d with
    | MTimer | MSigned | MUnsigned =>
        do v <- zset (ms_vals s) k 0;                                     (* :903 *)
        me_flag_clear (set_vals s v) k                                    (* :904 *)
    | MString =>
        do b <- get (ms_strs s) q;
        do b <- put b 0 0;                                                (* :909 *)
        do l <- zset (ms_strs s) q b;
        Some (set_strs s l)
    end.
Definition me_reset (defs : list mdef) (s : mstate) (session : Z) : option mstate :=
  me_loop (me_reset_one defs session) (length defs) 0 s.
(** memfault_metrics.c:873-888: the reset at boot, of every session. *)
Fixpoint me_clear_strs (l : list (list Z)) : option (list (list Z)) :=
  match l with
  | [] => Some []
  | b :: r => do b <- put b 0 0; do r <- me_clear_strs r; Some (b :: r)
  end.
Definition me_full_reset (s : mstate) : option mstate :=
  do l <- me_clear_strs (ms_strs s);
  Some (mk_ms (fill (zlen (ms_vals s)) 0) (fill (zlen (ms_flags s)) 0) l (ms_meta s)).

(** memfault_metrics.c:995-1012 and :1014-1067 *)
Definition me_of_type (defs : list mdef) (s : mstate) (key : Z) (t : mtype) : option (Z + mplace) :=
  do f <- me_find defs s key;
  Some match f with
       | None => inl KEY_NOT_FOUND
       | Some i => if mtype_eqb (md_type (mi_def i)) t then
                     match t with
                     | MUnsigned | MSigned => if mi_set i then inr (mi_place i) else inl VALUE_NOT_SET
                     | _ => inr (mi_place i)
                     end
                   else inl TYPE_INCOMPATIBLE
       end.
Definition me_read (defs : list mdef) (s : mstate) (key : Z) (t : mtype) : option (Z * option Z) :=
  do r <- me_of_type defs s key t;
  match r with
  | inl e => Some (e, None)
  | inr (PVal k) => do raw <- get (ms_vals s) k;
                    Some (0, Some (match t with MSigned => s32 raw | _ => raw end))
  | inr (PStr _) => None
  end.

(** [strlen]: the characters before the first NUL; [None] when there is none in the buffer. *)
Fixpoint cstr (b : list Z) : option (list Z) :=
  match b with [] => None | x :: r => if x =? 0 then Some [] else do c <- cstr r; Some (x :: c) end.
(** memfault_metrics.c:1068-1095; [out]: the caller's buffer. *)
Definition me_read_string (defs : list mdef) (s : mstate) (key : Z) (out : list Z) : option (Z * list Z) :=
  if zlen out =? 0 then Some (BAD_PARAM, out)
  else
    do r <- me_of_type defs s key MString;
    match r with
    | inl _ => Some (KEY_NOT_FOUND, out)                                  (* :1081 *)
    | inr (PStr q) =>
        do b <- get (ms_strs s) q;
        do c <- cstr b;
        do w <- read_at b 0 (Z.min (zlen c + 1) (zlen out));              (* :1087 *)
        do o <- splice out 0 w;
        do o <- put o (zlen out - 1) 0;                                   (* :1089 *)
        Some (0, o)
    | inr (PVal _) => None
    end.

(** What the serializer writes for a metric, memfault_metrics_serializer.c:36-91 (not when computing the
    worst case). *)
Inductive mitem := IUnsigned (v : Z) | ISigned (v : Z) | INull | IText (c : list Z).
Definition me_item (s : mstate) (i : minfo) : option mitem :=
  match mi_place i with
  | PVal k => do raw <- get (ms_vals s) k;
              Some match md_type (mi_def i) with
                   | MTimer => IUnsigned raw                              (* :69-73 *)
                   | MUnsigned => if mi_set i then IUnsigned raw else INull     (* :39-46 *)
                   | _ => if mi_set i then ISigned (s32 raw) else INull         (* :48-51 *)
                   end
  | PStr q => do b <- get (ms_strs s) q; do c <- cstr b; Some (IText c)   (* :79-83 *)
  end.
(** memfault_metrics.c:1179-1207 and memfault_metrics_serializer.c:57-64: the metrics of a session in
    the order of the table. *)
Fixpoint me_items_from (defs : list mdef) (s : mstate) (session : Z) (n : nat) (idx : Z) {struct n} : option (list mitem) :=
  match n with
  | O => Some []
  | S n => do f <- me_find defs s idx;
           match f with
           | None => None
           | Some i => do x <- me_item s i;
                       do r <- me_items_from defs s session n (idx + 1);
                       Some (if md_session (mi_def i) =? session then x :: r else r)
           end
  end.
Definition me_items (defs : list mdef) (s : mstate) (session : Z) : option (list mitem) :=
  me_items_from defs s session (length defs) 0.

(** Histories.  The heartbeat (memfault_metrics.c:926-935) is [OTally], the collection callbacks'
    operations, [OSerialize] of the heartbeat session, [OReset] of it.  [timers]: the table of the
    sessions' timers (:86-110).  A session's end is told whether the storage took its event. *)
Inductive mop :=
| OSetU (key v : Z) | OSetS (key v : Z) | OSetStr (key : Z) (c : list Z) | OAdd (key amount : Z)
| OStart (key now : Z) | OStop (key now : Z)
| OReadU (key : Z) | OReadS (key : Z) | OReadT (key now : Z) | OReadStr (key : Z) (out : list Z)
| OTally (now : Z) | OSerialize (session : Z) | OReset (session : Z) | OFullReset
| OSessStart (session : Z) (timer : bool) (now : Z) | OSessEnd (session : Z) (timer : bool) (now : Z) (stored : bool).
Inductive mres := RRv (rv : Z) | RVal (rv : Z) (v : option Z) | RStr (rv : Z) (out : list Z) | RItems (l : list mitem)
| REnd (rv : Z) (l : option (list mitem)) | RUnit.

Definition me_step (defs : list mdef) (timers : list Z) (s : mstate) (o : mop) : option (mres * mstate) :=
  match o with
  | OSetU k v => do x <- me_set defs s k MUnsigned (u32 v); Some (RRv (fst x), snd x)
  | OSetS k v => do x <- me_set defs s k MSigned (u32 v); Some (RRv (fst x), snd x)
  | OSetStr k c => do x <- me_set_string defs s k c; Some (RRv (fst x), snd x)
  | OAdd k a => do x <- me_add defs s k a; Some (RRv (fst x), snd x)
  | OStart k now => do x <- me_timer defs s k TStart now; Some (RRv (fst x), snd x)
  | OStop k now => do x <- me_timer defs s k TStop now; Some (RRv (fst x), snd x)
  | OReadU k => do x <- me_read defs s k MUnsigned; Some (RVal (fst x) (snd x), s)
  | OReadS k => do x <- me_read defs s k MSigned; Some (RVal (fst x) (snd x), s)
  | OReadT k now => do y <- me_timer defs s k TForce now;                 (* :1059 *)
                    do x <- me_read defs (snd y) k MTimer; Some (RVal (fst x) (snd x), snd y)
  | OReadStr k out => do x <- me_read_string defs s k out; Some (RStr (fst x) (snd x), s)
  | OTally now => do s <- me_tally defs s now; Some (RUnit, s)
  | OSerialize session => do l <- me_items defs s session; Some (RItems l, s)
  | OReset session => do s <- me_reset defs s session; Some (RUnit, s)
  | OFullReset => do s <- me_full_reset s; Some (RUnit, s)
  | OSessStart session timer now =>                                       (* :1097-1121 *)
      do s <- me_reset defs s session;
      if (timer : bool) then
        do k <- get timers session;
        do x <- me_timer defs s k TStart now; Some (RRv (fst x), snd x)
      else Some (RRv 0, s)
  | OSessEnd session timer now stored =>                                  (* :1127-1154 *)
      do x <- (if (timer : bool) then do k <- get timers session; me_timer defs s k TStop now else Some (0, s));
      let (rv, s) := (x : Z * mstate) in
      if rv =? 0 then
        do l <- me_items defs s session;
        Some (REnd (if (stored : bool) then 0 else STORAGE_TOO_SMALL) (Some l), s)
      else Some (REnd rv None, s)
  end.
Fixpoint me_run (defs : list mdef) (timers : list Z) (s : mstate) (ops : list mop) : option (list mres * mstate) :=
  match ops with
  | [] => Some ([], s)
  | o :: r => do x <- me_step defs timers s o; let (res, s) := (x : mres * mstate) in
              do y <- me_run defs timers s r; let (rs, s) := (y : list mres * mstate) in Some (res :: rs, s)
  end.
