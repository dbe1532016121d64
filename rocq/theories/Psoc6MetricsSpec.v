(** What the metrics of the PSoC 6 port should say. *)
From Verif Require Import Base Metrics Psoc6Metrics.

(** ** Whether it is connecting and whether it is online *)
Record wlan := mk_wlan { trying : bool; online6 : bool }.
Definition wlan0 : wlan := mk_wlan false false.
Definition wlan_next (s : wlan) (e : wcm_evt) : wlan :=
  match e with
  | WConnecting => mk_wlan true (online6 s)
  | WConnected | WReconnected => mk_wlan false true
  | WFailed | WDisconnected => mk_wlan false false
  | WOther => s
  end.
(** While it is connecting it neither reconnects nor loses a connection. *)
Definition one_attempt (s : wlan) (e : wcm_evt) : Prop := match e with WReconnected | WDisconnected => trying s = false | _ => True end.
Definition is_evt (x e : wcm_evt) : bool :=
  match x, e with
  | WConnecting, WConnecting | WConnected, WConnected | WFailed, WFailed | WReconnected, WReconnected | WDisconnected, WDisconnected => true
  | _, _ => false
  end.

(** ** What a heartbeat says of a metric: the value set last. *)
Fixpoint last_set (key : Z) (ops : list mop) : option Z :=
  match ops with
  | [] => None
  | OSetU k v :: r => match last_set key r with Some w => Some w | None => if k =? key then Some (u32 v) else None end
  | OSetS k v :: r => match last_set key r with Some w => Some w | None => if k =? key then Some v else None end
  | _ :: r => last_set key r
  end.
(** Bytes sent and received at the last time they could be read, none at boot. *)
Definition before6 (l : list sample6) : Z * Z := fold_left (fun b x => match s_stat x with Some p => p | None => b end) l (0, 0).
(** The heap: a heap of [h_limit - h_base] bytes of which [h_used] are in use, of [h_arena] obtained so far. *)
Definition heap_ok (x : sample6) : Prop :=
  0 <= h_base x /\ h_base x <= h_limit x < 2^32 /\ 0 <= h_used x <= h_arena x /\ h_arena x <= h_limit x - h_base x.
Definition heap_size (x : sample6) : Z := h_limit x - h_base x.
(** One heap that only grows. *)
Fixpoint growing (arena : Z) (l : list sample6) : Prop := match l with [] => True | x :: l => arena <= h_arena x /\ growing (h_arena x) l end.
Definition keys_ok6 (k : hkeys6) : Prop := NoDup [k6_total k; k6_minfree k; k6_free k; k6_signal k; k6_channel k; k6_tx k; k6_rx k].
