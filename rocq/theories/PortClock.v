(** The time since boot of the FreeRTOS, nRF5 and DA145xx ports, and the period of the heartbeat timers of
    the FreeRTOS, nRF5, Mynewt and ESP-IDF ports. *)
From Verif Require Import Base PortMetrics.

(** ** FreeRTOS *)

(** ports/freertos/src/memfault_core_freertos.c:24-25: the ticks counted so far and the last count seen. *)
Record fclock := mk_fc { fc_elapsed : Z; fc_last : Z }.
Definition fclock_init : fclock := mk_fc 0 0.

(** ports/freertos/src/memfault_core_freertos.c:23-43 memfault_platform_get_time_since_boot_ms ([hz]:
    configTICK_RATE_HZ, not 0; [tick]: what xTaskGetTickCount returns, as [uint32_t]) *)
Definition fclock_ms (hz : Z) (s : fclock) (tick : Z) : Z * fclock :=
  let elapsed := u64 (fc_elapsed s + u32 (tick - fc_last s)) in
  (u64 (elapsed * (1000 * 65536 / hz)) / 65536, mk_fc elapsed tick).

(** One call after the other. *)
Fixpoint fclock_run (hz : Z) (s : fclock) (ticks : list Z) : list Z :=
  match ticks with
  | [] => []
  | t :: ts => let '(ms, s') := fclock_ms hz s t in ms :: fclock_run hz s' ts
  end.

(** portTICK_PERIOD_MS is FreeRTOS' [1000 / configTICK_RATE_HZ] (ports/freertos/src/memfault_metrics_freertos.c:19-23
    falls back to the older name of the same).  ports/freertos/src/memfault_metrics_freertos.c:25-26, 55:
    the period in ticks, converted to TickType_t of [w] bits ([None]: division by zero) *)
Definition f_period (w hz period_sec : Z) : option Z :=
  let ms := 1000 / hz in
  if ms =? 0 then None else Some (uw w (u64 (period_sec * 1000) / ms)).

(** ** nRF5: a 24 bit counter *)

(** ports/nrf5_sdk/memfault_platform_metrics.c:27-36 *)
Record nclock := mk_nc { nc_last : Z; nc_ticks : Z }.
Definition nclock_init : nclock := mk_nc 0 0.
(** The nRF5 SDK's app_timer_cnt_diff_compute: the difference of two counts of 24 bits. *)
Definition cnt_diff (to from : Z) : Z := uw 24 (to - from).

(** ports/nrf5_sdk/memfault_platform_metrics.c:38-46 memfault_platform_get_time_since_boot_ms ([presc]:
    APP_TIMER_CONFIG_RTC_FREQUENCY; APP_TIMER_CLOCK_FREQ is 32768; [None]: division by zero) *)
Definition nclock_ms (presc : Z) (s : nclock) (cnt : Z) : option Z :=
  let per_sec := 32768 / (presc + 1) in
  if per_sec =? 0 then None
  else Some (u64 (1000 * u64 (nc_ticks s + cnt_diff cnt (nc_last s))) / per_sec).

(** ports/nrf5_sdk/memfault_platform_metrics.c:48-55 prv_update_boot_time *)
Definition nclock_update (s : nclock) (cnt : Z) : nclock :=
  mk_nc cnt (u64 (nc_ticks s + cnt_diff cnt (nc_last s))).

(** ports/nrf5_sdk/memfault_platform_metrics.c:23-24: the state of the heartbeat timer with the clock. *)
Record ntimer := mk_nt { nt_clock : nclock; nt_elapsed : Z; nt_interval : Z }.

(** ports/nrf5_sdk/memfault_platform_metrics.c:61-76 prv_mflt_metric_timer: whether the heartbeat's callback
    is called (the callback is registered). *)
Definition ntimer_fire (s : ntimer) (cnt : Z) : bool * ntimer :=
  let c := nclock_update (nt_clock s) cnt in
  if nt_interval s =? 0 then (true, mk_nt c (nt_elapsed s) (nt_interval s))
  else
    let e := u32 (nt_elapsed s + 1) in
    (e mod nt_interval s =? 0, mk_nt c e (nt_interval s)).

(** The nRF5 SDK's ROUNDED_DIV. *)
Definition rounded_div (a b : Z) : Z := (a + b / 2) / b.

(** ports/nrf5_sdk/memfault_platform_metrics.c:78-103 memfault_platform_metrics_timer_boot, first call
    ([to_ticks]: APP_TIMER_TICKS, milliseconds to ticks; [max]: APP_TIMER_MAX_CNT_VAL): the state and the
    period the timer is started with. *)
Definition ntimer_boot (to_ticks : Z -> Z) (max : Z) (c : nclock) (period_sec : Z) : ntimer * Z :=
  let ticks := to_ticks (u32 (period_sec * 1000)) in
  if max <? ticks then (mk_nt c 0 (u32 (rounded_div period_sec 60)), to_ticks (60 * 1000))
  else (mk_nt c 0 0, ticks).

(** The timer fires with these counts. *)
Fixpoint ntimer_run (s : ntimer) (cnts : list Z) : list bool * ntimer :=
  match cnts with
  | [] => ([], s)
  | c :: cs => let '(b, s1) := ntimer_fire s c in let '(bs, s2) := ntimer_run s1 cs in (b :: bs, s2)
  end.

(** ** DA145xx, Mynewt, ESP-IDF *)

(** ports/dialog/da145xx/memfault_platform_metrics.c:24-37: the link layer's time counts 625 us. *)
Definition d_ms (ble_on : bool) (time : Z) : Z := if ble_on then u64 (time * 625) / 1000 else 0.
(** ports/mynewt/src/memfault_platform_port.c:92: the period in ticks *)
Definition m_period (hz period_sec : Z) : Z := u32 (period_sec * hz).
(** ports/esp_idf/memfault/common/memfault_platform_metrics.c:282-283: in microseconds (64 bits) *)
Definition e_period (period_sec : Z) : Z := u64 (period_sec * 1000000).
