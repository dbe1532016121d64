(** Model of the metrics of the PSoC 6 port: ports/cypress/psoc6/memfault_platform_core.c.
    Simplifications: logs are left out; a handler reads one clock; built with GCC. *)
From Verif Require Import Base Metrics.

(** ** Events of the connection manager, :82-127 *)
Inductive wcm_evt := WConnecting | WConnected | WFailed | WReconnected | WDisconnected | WOther.
(** configs/memfault_metrics_mtb_heartbeat_config.def:7-22 *)
Record ckeys6 := mk_ck6 { k6_connecting : Z; k6_connected : Z; k6_connects : Z; k6_reconnects : Z; k6_failures : Z; k6_disconnects : Z }.
Definition wcm_ops (k : ckeys6) (e : wcm_evt) (now : Z) : list mop :=
  match e with
  | WConnecting => [OStart (k6_connecting k) now]                                                            (* :84-86 *)
  | WConnected => [OStop (k6_connecting k) now; OStart (k6_connected k) now; OAdd (k6_connects k) 1]          (* :88-92 *)
  | WFailed => [OAdd (k6_failures k) 1; OStop (k6_connecting k) now; OStop (k6_connected k) now]              (* :94-98 *)
  | WReconnected => [OAdd (k6_reconnects k) 1; OStart (k6_connected k) now]                                   (* :100-103 *)
  | WDisconnected => [OStop (k6_connected k) now; OAdd (k6_disconnects k) 1]                                  (* :105-108 *)
  | WOther => []                                                                                             (* :110-124 *)
  end.

(** ** At a heartbeat, :36-75 *)
Record hkeys6 := mk_hk6 { k6_total : Z; k6_minfree : Z; k6_free : Z; k6_signal : Z; k6_channel : Z; k6_tx : Z; k6_rx : Z }.
(** The heap from [h_base] to [h_limit] and of mallinfo() arena and uordblks; the access point's signal strength and
    channel, [None] when there is none; the bytes sent and received so far, [None] on errors. *)
Record sample6 := mk_s6 { h_base : Z; h_limit : Z; h_arena : Z; h_used : Z; s_ap : option (Z * Z); s_stat : option (Z * Z) }.
(** [last]: s_last_wlan_statistics, bytes sent and received *)
Definition collect6 (k : hkeys6) (last : Z * Z) (x : sample6) : list mop * (Z * Z) :=
  let total := u32 (h_limit x - h_base x) in                                                                 (* :46 *)
  let heap := [OSetU (k6_total k) total; OSetU (k6_minfree k) (total - h_arena x); OSetU (k6_free k) (total - h_used x)] in   (* :48-52 *)
  let ap := match s_ap x with Some (s, c) => [OSetS (k6_signal k) s; OSetU (k6_channel k) c] | None => [] end in   (* :57-66 *)
  match s_stat x with
  | Some (tx, rx) => (heap ++ ap ++ [OSetU (k6_tx k) (tx - fst last); OSetU (k6_tx k) (rx - snd last)], (tx, rx))   (* :71-75 *)
  | None => (heap ++ ap, last)
  end.
Fixpoint collects6 (k : hkeys6) (last : Z * Z) (l : list sample6) : list (list mop) :=
  match l with [] => [] | x :: l => let (ops, last) := collect6 k last x in ops :: collects6 k last l end.
