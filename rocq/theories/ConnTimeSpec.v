(** What the connection metrics of the ports should say, from the events alone. *)
From Verif Require Import Base Metrics MetricsSpec MetricsBuiltin MetricsBuiltinSpec ConnTime.

(** Histories: events of the connection, heartbeats, and calls about other metrics. *)
Inductive hev (E : Type) := HEvent (e : E) (now : Z) | HBeat (now : Z) | HOther (o : mop).
Arguments HEvent {E}. Arguments HBeat {E}. Arguments HOther {E}.
Definition hev_ops {E} (ops : E -> Z -> list mop) (h : Z) (e : hev E) : list mop :=
  match e with HEvent e now => ops e now | HBeat now => heartbeat_ops h now | HOther o => [o] end.
Definition others {E} (keys : list Z) (l : list (hev E)) : Prop :=
  forall o, In (HOther o) l -> exists j, op_key o = Some j /\ ~ In j keys.
Fixpoint in_order {E} (before : Z) (l : list (hev E)) : Prop :=
  match l with
  | [] => True
  | HEvent _ now :: r | HBeat now :: r => before <= now /\ in_order now r
  | HOther _ :: r => in_order before r
  end.
(** The events. *)
Fixpoint events {E} (l : list (hev E)) : list E :=
  match l with [] => [] | HEvent e _ :: r => e :: events r | _ :: r => events r end.
(** For each heartbeat, the time since the one before in states that are [good]. *)
Fixpoint time_while {E S} (next : S -> E -> S) (good : S -> bool) (s : S) (last acc : Z) (l : list (hev E)) : list Z :=
  match l with
  | [] => []
  | HEvent e now :: r => time_while next good (next s e) now (acc + (if good s then now - last else 0)) r
  | HBeat now :: r => (acc + (if good s then now - last else 0)) :: time_while next good s now 0 r
  | HOther _ :: r => time_while next good s last acc r
  end.
(** For each heartbeat, the number of steps since the one before that count. *)
Fixpoint times_that {E S} (next : S -> E -> S) (counts : S -> E -> bool) (s : S) (n : Z) (l : list (hev E)) : list Z :=
  match l with
  | [] => []
  | HEvent e _ :: r => times_that next counts (next s e) (if counts s e then n + 1 else n) r
  | HBeat _ :: r => n :: times_that next counts s 0 r
  | HOther _ :: r => times_that next counts s n r
  end.
(** A counter that nothing was added to is unset; it stays at the most 32 bits hold. *)
Definition counted (l : list Z) : list (option mitem) :=
  map (fun n => Some (if n =? 0 then INull else IUnsigned (Z.min n 4294967295))) l.
(** Before each event, what holds of the state. *)
Fixpoint always {E S} (next : S -> E -> S) (P : S -> E -> Prop) (s : S) (l : list E) : Prop :=
  match l with [] => True | e :: r => P s e /\ always next P (next s e) r end.

(** ** LTE: whether the modem's LTE is switched on, and whether it is registered with a network. *)
Record modem := mk_modem { on : bool; registered : bool }.
Definition modem0 : modem := mk_modem false false.
Definition modem_next (s : modem) (e : lte_evt) : modem :=
  match e with
  | LReg OtherReg => s
  | LReg (Home | Roaming) => mk_modem (on s) true
  | LReg _ => mk_modem (on s) false
  | LMode (Normal | ActivateLte) => mk_modem true (registered s)
  | LMode (PowerOff | Offline | DeactivateLte | OfflineUiccOn) => mk_modem false false
  | LMode (RxOnly | OtherMode) => s
  end.
(** The flight mode that leaves the SIM on is not used. *)
Definition no_uicc_on (_ : modem) (e : lte_evt) : Prop := e <> LMode OfflineUiccOn.
(** No news of the registration while LTE is off. *)
Definition silent_off (s : modem) (e : lte_evt) : Prop := match e with LReg OtherReg => True | LReg _ => on s = true | _ => True end.
(** Without modes: whether there has been any news of the registration. *)
Definition news (s : bool) (e : lte_evt) : bool := match e with LReg OtherReg => s | LReg _ => true | _ => s end.

(** ** Wi-Fi: whether the station is started, and whether it is associated. *)
Record station := mk_station { started : bool; associated : bool }.
Definition station0 : station := mk_station false false.
Definition station_next (s : station) (e : wifi_evt) : station :=
  match e with
  | StaStart => mk_station true (associated s)
  | StaStop => mk_station false false
  | StaConnected => mk_station (started s) true
  | StaDisconnected => mk_station (started s) false
  | OtherWifi => s
  end.
(** The driver: connections and their ends only while started; a stop only when not associated. *)
Definition driver (s : station) (e : wifi_evt) : Prop :=
  match e with StaConnected | StaDisconnected => started s = true | StaStop => associated s = false | _ => True end.
Definition never_stops (_ : station) (e : wifi_evt) : Prop := e <> StaStop.
Definition disconnected (_ : station) (e : wifi_evt) : bool := match e with StaDisconnected => true | _ => false end.
(** A connection that was there is lost. *)
Definition lost (s : station) (e : wifi_evt) : bool := match e with StaDisconnected => associated s | _ => false end.

(** ** Particle *)
Inductive link := Off | Connecting | Online.
Definition link_next (s : link) (e : cloud_evt) : link :=
  match e with
  | CloudConnecting => Connecting
  | CloudConnected => Online
  | CloudDisconnected | CloudDisconnecting => Off
  | OtherCloud => s
  end.
Definition is_connecting (s : link) : bool := match s with Connecting => true | _ => false end.
Definition is_online (s : link) : bool := match s with Online => true | _ => false end.
(** It does not connect while it is online. *)
Definition no_reconnect (s : link) (e : cloud_evt) : Prop := e = CloudConnecting -> s <> Online.
Definition connects (_ : link) (e : cloud_evt) : bool := match e with CloudConnected => true | _ => false end.
Definition disconnects (_ : link) (e : cloud_evt) : bool := match e with CloudDisconnected => true | _ => false end.

(** ** Words the theorems use *)
Definition is_timer (defs : list mdef) (h x : Z) : Prop := exists d, get defs x = Some d /\ md_type d = MTimer /\ md_session d = h.
Definition is_counter (defs : list mdef) (h x : Z) : Prop := exists d, get defs x = Some d /\ md_type d = MUnsigned /\ md_session d = h.
(** Whenever the callers keep the rules of the metrics (MetricsSpec.v), the device runs and its heartbeats
    say [want] of metric [x]. *)
Definition reports {E} (defs : list mdef) (timers : list Z) (h : Z) (ops : E -> Z -> list mop) (l : list (hev E)) (x : Z) (want : list (option mitem)) : Prop :=
  forall rs a, am_run defs timers (am_init defs) (flat_map (hev_ops ops h) l) = Some (rs, a) ->
  exists s, me_run defs timers (ms_init defs) (flat_map (hev_ops ops h) l) = Some (rs, s) /\ reported (event_index h defs x) rs = want.
