(** Model of the ports' software watchdogs (components' interface: ports/include/memfault/ports/watchdog.h:19-42):
      Z:  ports/zephyr/common/memfault_software_watchdog.c
      N:  ports/nrf5_sdk/software_watchdog.c
      E:  ports/emlib/wdog_software_watchdog.c
      S:  ports/s32sdk/lpit_software_watchdog.c
      L:  ports/stm32cube/h7/lptim_software_watchdog.c
      D:  ports/dialog/da1468x/wdog_software_watchdog.c

    A timer is a counter of its own ticks: since it was started, fed or set, and the count at which it
    interrupts.  Ticks: Z 1 ms; N 125 ms (N:79, N:135); E 1 ms (E:50); S one cycle of the LPIT clock; L 4 ms
    (L:54-59); D 10.24 ms (D:41).
    Simplifications: the interrupt comes on the tick; the first tick after a restart is a whole one; the
    peripherals behave as the files' comments and the vendors' manuals say; log output is left out. *)
From Verif Require Import Base.

Inductive port :=
| Zephyr (secs : Z)               (** MEMFAULT_WATCHDOG_SW_TIMEOUT_SECS *)
| Nrf5 (ms : Z)                   (** MEMFAULT_NRF5_WATCHDOG_SW_TIMEOUT_MS, N:87-106 *)
| Emlib (secs : Z) (locked : bool)     (** whether the watchdog registers are locked *)
| S32k (secs : Z) (pcs div2 freq : Z)  (** clock source, its divider, its frequency before the divider *)
| Lptim (secs : Z)
| Da1468x (most : Z).             (** dg_configWDOG_RESET_VALUE *)

(** [t_set]: initialised; [t_run]: counting; [t_cnt]: ticks since it was restarted; [t_lim]: interrupts at this
    count; [t_mem]: Zephyr's s_software_watchdog_timeout_ms (Z:23), the Da1468x's reload_value (D:39) *)
Record timer := mk_t { t_set : bool; t_run : bool; t_cnt : Z; t_lim : Z; t_mem : Z }.

(** At boot *)
Definition wd_boot (p : port) : timer :=
  match p with
  | Zephyr secs => mk_t true false 0 0 (u32 (secs * 1000))                          (* Z:22-23 *)
  | Da1468x most => mk_t true true 0 most most                                      (* D:23-24, D:40-44 *)
  | _ => mk_t false false 0 0 0
  end.

(** k_timer_start, Z:25-27 *)
Definition z_start (t : timer) : timer := mk_t true true 0 (t_mem t) (t_mem t).

(** prv_configure_watchdog_with_timeout, E:108-119: the period selector *)
Fixpoint em_loop (fuel : nat) (persel timeout : Z) : Z :=
  match fuel with
  | O => persel
  | S fuel => if 1000 * 2 ^ (3 + persel) / 1000 / 2 >? timeout then persel else em_loop fuel (persel + 1) timeout
  end.
Definition em_persel (timeout : Z) : Z :=
  let persel := em_loop 16 0 timeout in if persel =? 0 then 0 else persel - 1.
Definition em_update (locked : bool) (t : timer) (ms : Z) : Z * timer :=
  if ms >? 1000 * 2 ^ (3 + 15) / 1000 / 2 then (-1, t)                              (* E:100-106 *)
  else if locked then (-2, t)                                                       (* E:133-136 *)
  else (0, mk_t true true 0 (2 ^ (3 + em_persel ms) / 2) 0).                        (* E:138-165: a warning at half the period *)

(** prv_lpit_with_timeout, S:62-175: the clock of source 6 falls through to the default (S:92-93). *)
Definition s32_update (pcs div2 freq : Z) (t : timer) (ms : Z) : Z * timer :=
  if negb ((pcs =? 1) || (pcs =? 2) || (pcs =? 3)) then (-1, t)                     (* S:71-97 *)
  else if div2 =? 0 then (-2, t)                                                    (* S:99-102 *)
  else if freq =? 0 then (-3, t)                                                    (* S:104-107 *)
  else
    let hz := Z.shiftr freq (div2 - 1) in                                           (* S:109 *)
    let tval := ms * hz / 1000 in                                                   (* S:114 *)
    if tval >? 2 ^ 32 - 1 then (-4, t)                                              (* S:115-120 *)
    else (0, mk_t true true 0 (tval + 1) 0).                                        (* S:133-172: counts down to 0 and reloads *)

(** L:275-299; before enable the handle points nowhere. *)
Definition lptim_update (t : timer) (ms : Z) : option (Z * timer) :=
  if ms >? (65535 + 1) / (32000 / 128) * 1000 then Some (-1, t)                     (* L:276-278 *)
  else if negb (t_set t) then None
  else Some (0, mk_t true true 0 (Z.min (u32 (ms * (32000 / 128)) / 1000) 65535) 0).

(** D:60-77 *)
Definition da_update (most : Z) (t : timer) (ms : Z) : Z * timer :=
  let us := u32 (1000 * ms) in
  if us >? ms then
    let n := u32 (us / 10240 + 1) in
    if n <=? most then (0, mk_t true (t_run t) 0 (u8 n) (u8 n)) else (-1, t)
  else (-1, t).

(** N:165-176: the counter goes on; the compare register has 24 bits.  Before nrfx_rtc_init() the driver asserts. *)
Definition nrf_update (t : timer) (ms : Z) : option (Z * timer) :=
  if negb (t_set t) then None else Some (0, mk_t true (t_run t) (t_cnt t) (ms / 125 mod 2 ^ 24) 0).

Definition wd_update (p : port) (t : timer) (ms : Z) : option (Z * timer) :=
  match p with
  | Zephyr _ => Some (0, z_start (mk_t true (t_run t) (t_cnt t) (t_lim t) ms))      (* Z:44-48 *)
  | Nrf5 _ => nrf_update t ms
  | Emlib _ locked => Some (em_update locked t ms)                                  (* E:168-170 *)
  | S32k _ pcs div2 freq => Some (s32_update pcs div2 freq t ms)                    (* S:197-199 *)
  | Lptim _ => lptim_update t ms
  | Da1468x most => Some (da_update most t ms)
  end.
Definition wd_enable (p : port) (t : timer) : option (Z * timer) :=
  match p with
  | Zephyr _ => Some (0, z_start t)                                                 (* Z:29-32 *)
  | Nrf5 ms => if t_set t then Some (8, t)                                          (* N:141-145: NRFX_ERROR_INVALID_STATE *)
               else nrf_update (mk_t true true 0 0 0) ms                            (* N:147-152 *)
  | Emlib secs locked => Some (em_update locked t (u32 (secs * 1000)))              (* E:172-175 *)
  | S32k secs pcs div2 freq => Some (s32_update pcs div2 freq t (u32 (secs * 1000)))  (* S:177-180 *)
  | Lptim secs => do x <- lptim_update (mk_t true false 0 0 0) (u32 (secs * 1000)); Some (0, snd (x : Z * timer))   (* L:201-263 *)
  | Da1468x _ => Some (0, mk_t true true (t_cnt t) (t_lim t) (t_mem t))             (* D:46-49: goes on where it was frozen *)
  end.
Definition wd_disable (p : port) (t : timer) : option (Z * timer) :=
  match p with
  | Emlib _ true => Some (-1, t)                                                    (* E:178-181 *)
  | Lptim _ | Nrf5 _ => if negb (t_set t) then None else Some (0, mk_t true false (t_cnt t) (t_lim t) (t_mem t))    (* L:301-307, N:155-158 *)
  | _ => Some (0, mk_t (t_set t) false (t_cnt t) (t_lim t) (t_mem t))               (* Z:34-37, E:183-184, S:182-185, D:51-53 *)
  end.
Definition wd_feed (p : port) (t : timer) : option (Z * timer) :=
  match p with
  | Zephyr _ => Some (0, z_start t)                                                 (* Z:39-42 *)
  | Nrf5 _ | Lptim _ => if negb (t_set t) then None else Some (0, mk_t true (t_run t) 0 (t_lim t) 0)                (* N:160-163, L:265-273 *)
  | Emlib _ _ => Some (0, if t_run t then mk_t (t_set t) true 0 (t_lim t) 0 else t) (* E:187-194 *)
  | S32k _ _ _ _ => Some (0, mk_t (t_set t) true 0 (t_lim t) 0)                     (* S:187-195 *)
  | Da1468x _ => Some (0, mk_t true (t_run t) 0 (t_mem t) (t_mem t))                (* D:55-58 *)
  end.

(** How many ticks until the interrupt.  The nRF5's counter has 24 bits and is compared for equality. *)
Definition due (p : port) (t : timer) : Z :=
  match p with
  | Nrf5 _ => let d := (t_lim t - t_cnt t) mod 2 ^ 24 in if d =? 0 then 2 ^ 24 else d
  | _ => Z.max 1 (t_lim t - t_cnt t)
  end.
(** [n] ticks pass: the interrupt comes after so many, or not; only the interrupt of an initialised timer is enabled. *)
Definition wd_adv (p : port) (t : timer) (n : Z) : option Z * timer :=
  if t_run t && t_set t && (due p t <=? n) then (Some (due p t), t)
  else (None, mk_t (t_set t) (t_run t) (if t_run t then t_cnt t + n else t_cnt t) (t_lim t) (t_mem t)).

Inductive w_op := WEnable | WDisable | WFeed | WUpdate (ms : Z) | WTicks (n : Z).
(** The interrupt ends the history: the system saves a coredump and resets. *)
Inductive w_res := WRet (rv : Z) | WQuiet | WFired (after : Z).
Fixpoint wd_run (p : port) (t : timer) (ops : list w_op) : option (list w_res) :=
  match ops with
  | [] => Some []
  | WTicks n :: r =>
      match wd_adv p t n with
      | (Some k, _) => Some [WFired k]
      | (None, t) => do rs <- wd_run p t r; Some (WQuiet :: rs)
      end
  | o :: r =>
      do x <- match o with WEnable => wd_enable p t | WDisable => wd_disable p t | WFeed => wd_feed p t | WUpdate ms => wd_update p t ms | WTicks _ => None end;
      let (rv, t) := (x : Z * timer) in
      do rs <- wd_run p t r; Some (WRet rv :: rs)
  end.
