(** Model of the commands `test_log` and `reboot` of the demo command line:
    components/demo/src/memfault_demo_cli_log.c:16-33 (L) and memfault_demo_core.c:25-38 (C), with the log macros
    and the platform logging of each port.

    Simplified: a line is its text (what the platform's logging puts around it is left out, and so is the cut to
    the longest line); MEMFAULT_LOG_RAW (L:17) only prints; the platform's reset comes at once and keeps memory. *)
From Coq Require Import String.
From Verif Require Import Base Reboot.
Open Scope string_scope. Open Scope list_scope. Open Scope Z_scope.

(** The macros MEMFAULT_LOG_DEBUG to MEMFAULT_LOG_ERROR: those of components/include/memfault/core/debug_log.h:46-58;
    those which save and print (ports/cypress/psoc6/configs/memfault_platform_log_config.h:23-27); those which only
    print (ports/mynewt/include/memfault_platform_log_config.h:14-21, ports/particle/src/memfault_platform_log_config.h:18-34). *)
Inductive macros := MDefault | MSaving | MPrinting.
(** [l_disable]: MEMFAULT_SDK_LOG_SAVE_DISABLE; [l_esp]: ESP_PLATFORM is defined; [l_os]: the levels under which the
    platform's logging saves a line of this level that memfault_platform_log hands it. *)
Record lconf := mk_lc { l_macros : macros; l_disable : bool; l_esp : bool; l_os : Z -> list Z }.
(** debug_log.h:34-40, :46-58 *)
Definition log_call (c : lconf) (level : Z) (text : list Z) : list (Z * list Z) :=
  match l_macros c with
  | MDefault => (if l_disable c then [] else [(level, text)]) ++ map (fun l => (l, text)) (l_os c level)
  | MSaving => [(level, text)]
  | MPrinting => []
  end.
(** L:16-33 *)
Definition test_log (c : lconf) : list (Z * list Z) :=
  log_call c 0 (str "Debug log!") ++ log_call c 1 (str "Info log!") ++
  log_call c 2 (str "Warning log!") ++ log_call c 3 (str "Error log!") ++
  (if l_disable c && negb (l_esp c)
   then [(0, str "Debug log!"); (1, str "Info log!"); (2, str "Warning log!"); (3, str "Error log!")] else []).

(** ports/esp_idf/memfault/config/memfault_esp_idf_port_config.h:77; memfault_platform_debug_log.c:24-52;
    memfault_platform_core.c:177-198: with CONFIG_MEMFAULT_LOG_USE_VPRINTF_HOOK what ESP-IDF prints ([shown]: its
    levels) is saved, always under Info. *)
Definition esp_idf (hook : bool) (shown : Z -> bool) : lconf :=
  mk_lc MDefault true true (fun l => if hook && shown l then [1] else []).
(** ports/zephyr/config/memfault_zephyr_platform_config.h:37; with CONFIG_MEMFAULT_LOGGING_ENABLE the backend
    (ports/zephyr/common/memfault_logging.c:159-216; not the minimal one) saves what Zephyr's logging shows. *)
Definition zephyr (backend : bool) (shown : Z -> bool) : lconf :=
  mk_lc MDefault true false (fun l => if backend && shown l then [l] else []).
(** components/include/memfault/default_config.h:140-142, and
    examples/dialog/da145xx/apps/memfault_demo_app/src/config/memfault_platform_config.h:38 *)
Definition plain (disable : bool) : lconf := mk_lc MDefault disable false (fun _ => []).
Definition psoc6 : lconf := mk_lc MSaving false false (fun _ => []).
Definition particle_or_mynewt : lconf := mk_lc MPrinting false false (fun _ => []).

(** C:25-38: the reset is marked with kMfltRebootReason_UserReset
    (components/include/memfault/core/reboot_reason_types.h), pc and lr; then the device resets. *)
Definition reboot_cmd (pc lr : Z) : list rt_op := [TMark 0x0002 (Some (pc, lr)); TReset None].
