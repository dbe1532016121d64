(** Specification of a software watchdog, after ports/include/memfault/ports/watchdog.h:19-42: off, or on with a limit
    and the ticks since it was last restarted.  Says what each port grants for a timeout asked for, which timeouts it
    refuses, and what use of it keeps to that interface. *)
From Verif Require Import Base PortWatchdog.

(** [after]: the limit the next enable starts with; [ever]: was enabled before *)
Record watch := mk_w { on : bool; limit : Z; elapsed : Z; after : Z; ever : bool }.

(** The clock of the S32K's timer, per second *)
Definition hertz (div2 freq : Z) : Z := freq / 2 ^ (div2 - 1).

(** [l] ticks for [ms] milliseconds asked for:
    Zephyr exactly; nRF5 and LPTIM at most a tick early and never late; EFM32 the longest of 4, 8, 16 .. 131072 ms that
    is not late, or 4 ms; S32K at most a tick late and not early; DA1468x the same. *)
Definition grants (p : port) (ms l : Z) : Prop :=
  match p with
  | Zephyr _ => l = ms
  | Nrf5 _ => 125 * l <= ms < 125 * (l + 1)
  | Emlib _ _ => exists k, 0 <= k <= 15 /\ l = 4 * 2 ^ k /\ (l <= ms < 2 * l \/ k = 0 /\ ms < 4)
  | S32k _ _ div2 freq => 1000 * (l - 1) <= ms * hertz div2 freq < 1000 * l
  | Lptim _ => 4 * l <= ms < 4 * (l + 1)
  | Da1468x _ => 10240 * (l - 1) <= 1000 * ms < 10240 * l
  end.
Definition refuses (p : port) (ms : Z) : Prop :=
  match p with
  | Zephyr _ | Nrf5 _ => False
  | Emlib _ locked => locked = true \/ 131072 < ms
  | S32k _ pcs div2 freq => ~ (1 <= pcs <= 3) \/ div2 = 0 \/ freq = 0 \/ 1000 * 2 ^ 32 <= ms * hertz div2 freq
  | Lptim _ => 262000 < ms
  | Da1468x most => ms = 0 \/ 10240 * most <= 1000 * ms
  end.

(** The timeout a watchdog is configured with, in milliseconds; the DA1468x's is in ticks. *)
Definition default (p : port) : Z :=
  match p with
  | Zephyr secs | Emlib secs _ | S32k secs _ _ _ | Lptim secs => 1000 * secs
  | Nrf5 ms => ms
  | Da1468x _ => 0
  end.
Definition starts_with (p : port) (l : Z) : Prop :=
  match p with Da1468x most => l = most | _ => grants p (default p) l end.
(** An update is remembered over a disable. *)
Definition remembers (p : port) : bool := match p with Zephyr _ | Da1468x _ => true | _ => false end.
Definition no_default (p : port) : Prop :=
  match p with Da1468x _ | Zephyr _ | Nrf5 _ => False | _ => refuses p (default p) end.

(** The configurations that make sense *)
Definition config (p : port) : Prop :=
  match p with
  | Zephyr secs => 1 <= secs <= 4294967
  | Nrf5 ms => 125 <= ms < 125 * 2 ^ 24
  | Emlib secs _ => 0 <= secs <= 4294967
  | S32k secs pcs div2 freq => 0 <= secs <= 4294967 /\ 0 <= pcs <= 7 /\ 0 <= div2 <= 7 /\ 0 <= freq < 2 ^ 32
  | Lptim secs => 1 <= secs <= 262
  | Da1468x most => 1 <= most <= 255
  end.

Definition at_boot (p : port) (w : watch) : Prop :=
  elapsed w = 0 /\ (no_default p \/ starts_with p (after w)) /\
  match p with Da1468x most => on w = true /\ ever w = true /\ limit w = most | _ => on w = false /\ ever w = false end.

(** Use that keeps to the interface.  What the ports do outside it: see the refutations in Props_PortWatchdog.v. *)
Definition proper (p : port) (w : watch) (o : w_op) : Prop :=
  match o with
  | WEnable => match p with Nrf5 _ => ever w = false | Da1468x _ => elapsed w = 0 | _ => True end
  | WDisable => match p with Emlib _ true => True | _ => ever w = true end
  | WFeed => match p with Zephyr _ | S32k _ _ _ _ => on w = true | _ => ever w = true end
  | WUpdate ms =>
      is_u32 ms /\
      match p with
      | Zephyr _ => on w = true /\ 1 <= ms
      | Nrf5 _ => ever w = true /\ elapsed w = 0 /\ 125 <= ms < 125 * 2 ^ 24
      | Lptim _ => on w = true /\ 4 <= ms
      | Emlib _ _ | S32k _ _ _ _ => on w = true
      | Da1468x _ => True
      end
  | WTicks n => 0 <= n
  end.

(** A call that is not refused *)
Inductive does (p : port) (w : watch) : w_op -> watch -> Prop :=
| d_enable : ~ no_default p -> does p w WEnable (mk_w true (after w) 0 (after w) true)
| d_disable : match p with Emlib _ true => False | _ => True end -> does p w WDisable (mk_w false (limit w) (elapsed w) (after w) (ever w))
| d_feed : does p w WFeed (mk_w (on w) (limit w) 0 (after w) (ever w))
| d_update ms l : ~ refuses p ms -> grants p ms l ->
    does p w (WUpdate ms) (mk_w (on w) l 0 (if remembers p then l else after w) (ever w)).
Definition refused (p : port) (o : w_op) : Prop :=
  match o with
  | WEnable => no_default p
  | WDisable => match p with Emlib _ true => True | _ => False end
  | WUpdate ms => refuses p ms
  | _ => False
  end.

(** The results of a history of calls.  After improper use nothing is said. *)
Inductive plays (p : port) : watch -> list w_op -> option (list w_res) -> Prop :=
| p_end w : plays p w [] (Some [])
| p_does w o w' r rs : proper p w o -> does p w o w' -> plays p w' r rs -> plays p w (o :: r) (do x <- rs; Some (WRet 0 :: x))
| p_refused w o rv r rs : proper p w o -> refused p o -> rv <> 0 -> plays p w r rs -> plays p w (o :: r) (do x <- rs; Some (WRet rv :: x))
| p_fires w n r : on w = true -> limit w - elapsed w <= n -> plays p w (WTicks n :: r) (Some [WFired (limit w - elapsed w)])
| p_quiet w n r rs : 0 <= n -> on w = true -> n < limit w - elapsed w ->
    plays p (mk_w true (limit w) (elapsed w + n) (after w) (ever w)) r rs -> plays p w (WTicks n :: r) (do x <- rs; Some (WQuiet :: x))
| p_off w n r rs : 0 <= n -> on w = false -> plays p w r rs -> plays p w (WTicks n :: r) (do x <- rs; Some (WQuiet :: x))
| p_improper w o r rs : ~ proper p w o -> plays p w (o :: r) rs.

(** Enabled, then fed after [n] ticks for each of [ns], then not again for [m] ticks *)
Definition life (ns : list Z) (m : Z) : list w_op :=
  WEnable :: List.concat (List.map (fun n => [WTicks n; WFeed]) ns) ++ [WTicks m].
Definition lived (ns : list Z) (last : w_res) : list w_res :=
  WRet 0 :: List.concat (List.map (fun _ => [WQuiet; WRet 0]) ns) ++ [last].
