(** Debug logs of the ports: what memfault_platform_log() and memfault_platform_log_raw() put out.
    ports/dialog/da145xx/memfault_platform_debug_log.c:18-69 (D)
    ports/dialog/da1469x/memfault_platform_debug_log.c:14-65 (E)
    ports/esp_idf/memfault/common/memfault_platform_debug_log.c:18-62 (I)
    ports/zephyr/common/memfault_platform_debug_log.c:23-100 (Z)
    A text is what the format and its arguments give. *)
From Coq Require Import String.
From Verif Require Import Base DataExport Log.

Inductive dport := Da145 | Da1469 | EspIdf | ZephyrLog | ZephyrPrintk.

(** MEMFAULT_DEBUG_LOG_BUFFER_SIZE_BYTES: D:19, E:15, I:19, Z:24 *)
Definition dbg_size : Z := 128.

(** [vsnprintf] into the buffer, D:27-28, E:23-24, I:28-29, Z:32-33: the text as far as it fits and a zero;
    behind it the array stays as it was. *)
Definition dbg_buf (junk text : list Z) : list Z :=
  let t := take (dbg_size - 1) text in t ++ 0 :: drop (zlen t + 1) junk.

(** What "%s" prints of an array *)
Fixpoint until0 (l : list Z) : list Z :=
  match l with [] => [] | x :: r => if x =? 0 then [] else x :: until0 r end.

(** One output: characters on the console, or an entry handed to the logging of the operating system
    (ESP_LOGx, LOG_xxx; not in /repo) with its level there and the tag. *)
Inductive entry := Printed (l : list Z) | Handed (oslevel : Z) (tag text : list Z).

(** D:30-50, E:26-46 *)
Definition letter (level : Z) : option Z :=
  if level =? 0 then Some 68 else if level =? 1 then Some 73
  else if level =? 2 then Some 87 else if level =? 3 then Some 69 else None.

(** ESP_LOG_ERROR 1, WARN 2, INFO 3, DEBUG 4 (esp_log.h); LOG_LEVEL_ERR .. DBG of Zephyr are the same.
    I:31-49, Z:62-82 *)
Definition os_level (level : Z) : option Z :=
  if level =? 0 then Some 4 else if level =? 1 then Some 3
  else if level =? 2 then Some 2 else if level =? 3 then Some 1 else None.

(** The macros of Z:49-52 by level of the operating system *)
Definition printk_name (oslevel : Z) : list Z :=
  if oslevel =? 4 then str "<dbg> mflt: " else if oslevel =? 3 then str "<inf> mflt: "
  else if oslevel =? 2 then str "<wrn> mflt: " else str "<err> mflt: ".

(** memfault_platform_log: D:22-57 with CFG_PRINTF, E:18-53 with CONFIG_RETARGET or CONFIG_RTT, I:24-52,
    Z:28-85. A copy made by log_strdup() (Z:41) is taken to be equal. *)
Definition plat_log (p : dport) (junk : list Z) (level : Z) (text : list Z) : list entry :=
  let s := until0 (dbg_buf junk text) in
  match p with
  | Da145 | Da1469 =>
      match letter level with
      | Some c => [Printed (str "[" ++ [c] ++ str "] MFLT: " ++ s ++ [13; 10])]     (* D:53, E:49 *)
      | None => []
      end
  | EspIdf => match os_level level with Some l => [Handed l (str "mflt") s] | None => [] end
  | ZephyrLog =>
      match os_level level with
      | Some l => [Handed l (str "mflt") s]
      | None => [Handed 1 (str "mflt") (str "??? " ++ s)]                           (* Z:80 *)
      end
  | ZephyrPrintk =>
      match os_level level with
      | Some l => [Printed (printk_name l ++ s ++ [10])]
      | None => [Printed (printk_name 1 ++ str "??? " ++ s ++ [10])]
      end
  end.

(** memfault_platform_log_raw: D:59-69, E:55-65, I:54-62 print the text itself; Z:87-100 goes through the
    buffer. The text is printed by vprintf as a whole; it has no zero. *)
Definition plat_raw (p : dport) (junk text : list Z) : list Z :=
  match p with
  | Da145 => text ++ [13; 10]
  | Da1469 | EspIdf => text ++ [10]
  | ZephyrLog | ZephyrPrintk => until0 (dbg_buf junk text) ++ [10]
  end.

(** memfault_data_export_base64_encoded_chunk by default, components/core/src/memfault_data_export.c:17-19:
    MEMFAULT_LOG_INFO("%s", chunk), which logs (components/include/memfault/core/debug_log.h:46-50). [buf] is the array
    made by [export_chunk]. *)
Definition export_logged (p : dport) (junk : list Z) (buf : list Z) : list entry :=
  plat_log p junk 1 (until0 buf).

(** The other half of MEMFAULT_LOG_INFO, unless MEMFAULT_SDK_LOG_SAVE_DISABLE is set (debug_log.h:34-39; it is by the ports
    of ESP-IDF and Zephyr): memfault_vlog_save, components/core/src/memfault_log.c:383-403, without a time. *)
Definition export_saved (cfg : log_cfg) (s : lg) (buf : list Z) : option lg :=
  let text := until0 buf in
  if zlen text =? 0 then Some s
  else do x <- log_save cfg s 1 0 None (take (Z.min (zlen text) cfg) text); Some (snd x).
