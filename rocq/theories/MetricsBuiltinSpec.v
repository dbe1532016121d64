(** What the built-in metrics report, from the history alone. *)
From Verif Require Import Base Metrics MetricsSpec MetricsBuiltin.

(** ** Operational hours: the full hours since boot that were completed since the last heartbeat. *)
Definition hour_of (ms : Z) : Z := ms / 3600000.
Fixpoint rel_spec (k : bkeys) (before : Z) (l : list (Z * bool)) : list (list mop) :=
  match l with
  | [] => []
  | (now, un) :: r =>
      let n := hour_of now - hour_of before in
      (if n =? 0 then []
       else [OAdd (bk_hours k) n;
             OAdd (bk_crashfree k) (n - (if (hour_of before =? 0) && un then 1 else 0))])   (* the first hours since boot *)
      :: rel_spec k now r
  end.
(** Time goes on and heartbeats are less than 2^32 ms minus an hour apart. *)
Fixpoint rel_times (before : Z) (l : list (Z * bool)) : Prop :=
  match l with [] => True | (now, _) :: r => before <= now < before + 4291367296 /\ rel_times now r end.
(** The amounts added to a metric. *)
Fixpoint total_added (key : Z) (ops : list mop) : Z :=
  match ops with [] => 0 | OAdd j n :: r => (if j =? key then n else 0) + total_added key r | _ :: r => total_added key r end.

(** ** Battery *)
Definition rd_ok (r : reading) : Prop := 0 <= rd_soc r < 2147483647.
Definition bev_ok (e : bev) : Prop := match e with BBoot r now | BCollect r now => rd_ok r /\ 0 <= now | BStop => True end.
Definition sample (e : bev) : option (reading * Z) := match e with BBoot r now | BCollect r now => Some (r, now) | BStop => None end.
(** What a collection reports: [r0] taken at [t0] was the sample before, with [stops] stop events in
    between. *)
Definition bat_report (k : bkeys) (r0 : reading) (t0 : Z) (stops : nat) (r : reading) (now : Z) : list mop :=
  (if (rd_rv r0 =? 0) && (rd_rv r =? 0)                    (* both levels known *)
      && rd_discharging r0 && rd_discharging r && Nat.eqb stops 0     (* discharging all the time *)
      && (rd_soc r <=? rd_soc r0)
   then [OSetU (bk_drop k) (rd_soc r0 - rd_soc r); OSetU (bk_duration k) ((now - t0) mod 4294967296)] else [])
  ++ (if rd_rv r =? 0 then [OSetU (bk_soc k) (rd_soc r)] else []).
(** A discharge: readings with falling levels at rising times. *)
Fixpoint falling (soc t : Z) (l : list (Z * Z)) : Prop :=
  match l with [] => True | (c, n) :: r => 0 <= c <= soc /\ t <= n < t + 4294967296 /\ falling c n r end.
Definition level (x : Z * Z) : bev := BCollect (mk_rd 0 (fst x) true) (snd x).
Fixpoint total_set (key : Z) (ops : list mop) : Z :=
  match ops with [] => 0 | OSetU j n :: r => (if j =? key then n else 0) + total_set key r | _ :: r => total_set key r end.

(** ** Connectivity: histories of state changes, heartbeats and calls about other metrics. *)
Inductive cev := CChange (c : cstate) (now : Z) | CBeat (now : Z) | COther (o : mop).
Definition cev_ops (k : bkeys) (h : Z) (e : cev) : list mop :=
  match e with CChange c now => conn_change k c now | CBeat now => heartbeat_ops h now | COther o => [o] end.
Definition cev_ok (k : bkeys) (e : cev) : Prop :=
  match e with COther o => exists j, op_key o = Some j /\ j <> bk_expected k /\ j <> bk_connected k | _ => True end.
(** Time does not go back. *)
Fixpoint cev_times (before : Z) (l : list cev) : Prop :=
  match l with
  | [] => True
  | CChange _ now :: r | CBeat now :: r => before <= now /\ cev_times now r
  | COther _ :: r => cev_times before r
  end.
(** For each heartbeat, the time since the one before during which the last announced state was one of
    [good]. *)
Fixpoint time_in (good : cstate -> bool) (state : cstate) (last acc : Z) (l : list cev) : list Z :=
  match l with
  | [] => []
  | CChange c now :: r => time_in good c now (acc + (if good state then now - last else 0)) r
  | CBeat now :: r => (acc + (if good state then now - last else 0)) :: time_in good state now 0 r
  | COther _ :: r => time_in good state last acc r
  end.
Definition not_stopped (c : cstate) : bool := match c with CStopped => false | _ => true end.
Definition is_connected (c : cstate) : bool := match c with CConnected => true | _ => false end.
(** No device goes back to "started" while it is connected. *)
Fixpoint no_restart (state : cstate) (l : list cev) : Prop :=
  match l with
  | [] => True
  | CChange c _ :: r => (state = CConnected -> c <> CStarted) /\ no_restart c r
  | _ :: r => no_restart state r
  end.
Definition shows (l : list Z) : list (option mitem) := map (fun n => Some (IUnsigned (n mod 4294967296))) l.

(** ** Log lines: true totals at the heartbeats, each counter modulo 2^32. *)
Fixpoint log_spec (k : bkeys) (d0 r0 : Z) (l : list (Z * Z)) : list (list mop) :=
  match l with [] => [] | (d, r) :: t => [OAdd (bk_dropped k) (d - d0); OAdd (bk_recorded k) (r - r0)] :: log_spec k d r t end.
Fixpoint log_steps (bound d0 r0 : Z) (l : list (Z * Z)) : Prop :=
  match l with [] => True | (d, r) :: t => d0 <= d < d0 + bound /\ r0 <= r < r0 + bound /\ log_steps bound d r t end.
Definition counters (x : Z * Z) : Z * Z := (fst x mod 4294967296, snd x mod 4294967296).

(** The time of the last heartbeat. *)
Definition last_beat (before : Z) (l : list (Z * bool)) : Z := fold_left (fun _ x => fst x) l before.
(** Whether the first heartbeat after a full hour was told that the reboot was unexpected. *)
Fixpoint first_hour_crash (before : Z) (l : list (Z * bool)) : bool :=
  match l with [] => false | (now, un) :: r => if hour_of now =? hour_of before then first_hour_crash now r else un end.
(** The last level and its time. *)
Definition last_pair (x : Z * Z) (l : list (Z * Z)) : Z * Z := fold_left (fun _ y => y) l x.
