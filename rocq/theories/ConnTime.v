(** Connections of the ports as metrics: what the events of an LTE modem, of Wi-Fi and of the Particle
    cloud do to timers and counters.  Simplifications: logs are left out; a handler reads one clock. *)
From Verif Require Import Base Metrics MetricsBuiltin.

(** ** LTE, ports/zephyr/ncs/src/memfault_platform_metrics_connectivity_lte.c *)
(** Registration with the network and functional modes of the modem (lte_lc.h of the nRF Connect SDK). *)
Inductive lte_reg := NotRegistered | Home | Searching | Denied | UnknownReg | Roaming | UiccFail | OtherReg.
Inductive lte_mode := PowerOff | Normal | RxOnly | Offline | DeactivateLte | ActivateLte | OfflineUiccOn | OtherMode.
Inductive lte_evt := LReg (r : lte_reg) | LMode (m : lte_mode).
(** :24-55 and :60-81; [cfun]: modes are seen
    (nRF Connect SDK later than 2.0, :58 with version.h:26-30). *)
Definition lte_state (cfun : bool) (e : lte_evt) : option cstate :=
  match e with
  | LReg r =>
      match r with
      | Home | Roaming => Some CConnected                                          (* :28-33 *)
      | NotRegistered | Searching | Denied | UnknownReg | UiccFail => Some CLost   (* :35-46 *)
      | OtherReg => None                                                           (* :48 *)
      end
  | LMode m =>
      if cfun then
        match m with
        | Normal | ActivateLte => Some CStarted                                    (* :62-67 *)
        | PowerOff | Offline | DeactivateLte => Some CStopped                      (* :69-76 *)
        | _ => None                                                                (* :78 *)
        end
      else None
  end.
Definition lte_ops (cfun : bool) (k : bkeys) (e : lte_evt) (now : Z) : list mop :=
  match lte_state cfun e with Some c => conn_change k c now | None => [] end.

(** ** Wi-Fi, ports/esp_idf/memfault/common/memfault_platform_metrics.c *)
Inductive wifi_evt := StaStart | StaStop | StaConnected | StaDisconnected | OtherWifi.
(** wifi_connected_time_ms and wifi_disconnect_count *)
Record wkeys := mk_wk { wk_time : Z; wk_count : Z }.
(** :80-125, the threshold of the signal strength (:96, :115-120) is in EspWifi.v; [conn]:
    CONFIG_MEMFAULT_ESP_WIFI_CONNECTIVITY_TIME_METRICS. *)
Definition wifi_ops (conn : bool) (w : wkeys) (k : bkeys) (e : wifi_evt) (now : Z) : list mop :=
  let state c := if conn then conn_change k c now else [] in
  match e with
  | StaStart => state CStarted                                                     (* :85-90 *)
  | StaConnected => OStart (wk_time w) now :: state CConnected                     (* :97-102 *)
  | StaDisconnected => OAdd (wk_count w) 1 :: OStop (wk_time w) now :: state CLost (* :106-112 *)
  | StaStop | OtherWifi => []                                                      (* :122 *)
  end.

(** ** Particle, ports/particle/src/memfault.cpp *)
Inductive cloud_evt := CloudDisconnected | CloudConnecting | CloudConnected | CloudDisconnecting | OtherCloud.
(** memfault_particle_metrics_heartbeat_config.def:18-23 *)
Record pkeys := mk_pkeys { pk_connecting : Z; pk_connected : Z; pk_connects : Z; pk_disconnects : Z }.
(** :239-264, for cloud_status (:232-235) *)
Definition cloud_ops (k : pkeys) (e : cloud_evt) (now : Z) : list mop :=
  match e with
  | CloudDisconnected => [OStop (pk_connecting k) now; OStop (pk_connected k) now; OAdd (pk_disconnects k) 1]   (* :241-245 *)
  | CloudConnecting => [OStart (pk_connecting k) now]                              (* :247-249 *)
  | CloudConnected => [OStop (pk_connecting k) now; OStart (pk_connected k) now; OAdd (pk_connects k) 1]        (* :251-255 *)
  | CloudDisconnecting => [OStop (pk_connecting k) now; OStop (pk_connected k) now]   (* :257-260 *)
  | OtherCloud => []                                                               (* :261 *)
  end.
