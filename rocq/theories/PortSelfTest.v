(** Model of what the ports give to the self test: ports/freertos/src/memfault_self_test_platform.c,
    ports/esp_idf/memfault/common/memfault_self_test_platform.c and
    ports/zephyr/common/memfault_self_test_platform.c.

    The calls into the RTOS are modelled by what their documentation says: critical sections nest and are
    counted, irq_lock gives back the state before it, irq_unlock goes back to the state it is given.  The
    Zephyr delay is k_msleep and left out.  The count of ticks does not wrap. *)
From Verif Require Import Base SelfTest.

Inductive call := Off | On.

(** ** FreeRTOS: the nesting of critical sections; freertos/src/memfault_self_test_platform.c:15-23 *)
Definition fr_step (nest : Z) (c : call) : Z := match c with Off => nest + 1 | On => nest - 1 end.
Definition fr_quiet (nest : Z) : bool := 0 <? nest.

(** ** Zephyr: whether interrupts are locked, and s_self_test_lock; zephyr/common/memfault_self_test_platform.c:16-26 *)
Record zst := mk_z { z_locked : bool; z_key : bool }.
Definition z_step (s : zst) (c : call) : zst :=
  match c with
  | Off => mk_z true (z_locked s)
  | On => mk_z (z_key s) (z_key s)
  end.

(** ** ESP-IDF: a core is stalled or not, and was reset so many times; the nesting of the lock *)
Record core := mk_core { c_stalled : bool; c_resets : Z }.
Record esp := mk_esp { s_cores : list core; s_nest : Z }.
(** esp_cpu_reset and esp_cpu_stall, esp_idf/.../memfault_self_test_platform.c:41-42 *)
Definition stop (c : core) : core := mk_core true (c_resets c + 1).
(** esp_cpu_unstall, :55 *)
Definition go (c : core) : core := mk_core false (c_resets c).
(** the loops of :39-44 and :53-57: every core but [me] *)
Fixpoint others (f : core -> core) (me i : Z) (l : list core) : list core :=
  match l with
  | [] => []
  | c :: l => (if negb (i =? me) then f c else c) :: others f me (i + 1) l
  end.
(** :30-47, :49-63; [single]: CONFIG_ESP_SYSTEM_SINGLE_CORE_MODE *)
Definition esp_step (single : bool) (me : Z) (s : esp) (c : call) : esp :=
  match c with
  | Off => let s := mk_esp (s_cores s) (s_nest s + 1) in
           if single then s else mk_esp (others stop me 0 (s_cores s)) (s_nest s)
  | On => let s := if single then s else mk_esp (others go me 0 (s_cores s)) (s_nest s) in
          mk_esp (s_cores s) (s_nest s - 1)
  end.

(** ** The delay, freertos/src/memfault_self_test_platform.c:11-13 and esp_idf/.../memfault_self_test_platform.c:23-25 *)

(** portTICK_PERIOD_MS is 1000 / configTICK_RATE_HZ; [None]: a division by 0 *)
Definition delay_ticks (hz delay_ms : Z) : option Z :=
  let p := 1000 / hz in if p =? 0 then None else Some (delay_ms / p).
(** vTaskDelay from time [now] (microseconds) on: the task goes on at the tick that is so many ticks later *)
Definition tick_us (hz : Z) : Z := 1000000 / hz.
Definition delay (hz now delay_ms : Z) : option Z :=
  do n <- delay_ticks hz delay_ms;
  Some (if n =? 0 then now else (now / tick_us hz + n) * tick_us hz).
(** time since boot as FreeRTOS ports count it: ticks in milliseconds *)
Definition since_boot_ms (hz now : Z) : Z := now / tick_us hz * (1000 / hz).
