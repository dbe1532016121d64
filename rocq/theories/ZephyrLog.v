(** Model of the Zephyr port's log backends:
      B: ports/zephyr/common/memfault_logging.c (CONFIG_LOG_MODE_IMMEDIATE or deferred)
      M: ports/zephyr/common/memfault_logging_minimal.c (CONFIG_LOG_MODE_MINIMAL)
    on top of the SDK's log (Log.v).

    A message is what Zephyr renders, character by character; while it is rendered other threads and interrupts log, and
    others use the SDK's log.  Zephyr's own part, not in the repository, is as in Zephyr 3.5 subsys/logging/log_output.c:
    in immediate mode each character is handed to the backend and at the end a flush of length 0 (see B:178-186), in
    deferred mode characters are collected in the backend's buffer, which is handed over when full and at the end.
    Simplifications: the time does not change within a message; other threads' calls are between characters, not inside
    memfault_log_save_preformatted_nolock(), which takes no lock. *)
From Verif Require Import Base Log.

Inductive mode := Immediate | Deferred | Minimal.

(** [z_busy]: s_log_output_busy_flag; [z_ctx]: log_output_ctx_set() was called; [z_buf]: s_zephyr_render_buf, B:51, M:45;
    [z_off]: Zephyr's offset into it *)
Record zl := mk_zl { z_busy : bool; z_ctx : bool; z_buf : list Z; z_off : Z; z_log : lg }.
Definition zl_boot (l : lg) : zl := mk_zl false false (fill 128 0) 0 l.
Definition zset_log (s : zl) (l : lg) : zl := mk_zl (z_busy s) (z_ctx s) (z_buf s) (z_off s) l.
Definition zset_buf (s : zl) (b : list Z) (off : Z) : zl := mk_zl (z_busy s) (z_ctx s) b off (z_log s).
Definition zset_busy (s : zl) (b : bool) : zl := mk_zl b (z_ctx s) (z_buf s) (z_off s) (z_log s).
Definition zset_ctx (s : zl) : zl := mk_zl (z_busy s) true (z_buf s) (z_off s) (z_log s).

(** prv_map_zephyr_level_to_memfault, B:78-84: LOG_LEVEL_ERR 1, WRN 2, INF 3 *)
Definition map_level (z : Z) : Z := if z =? 1 then 3 else if z =? 2 then 2 else if z =? 3 then 1 else 0.

(** The end of lines, B:199-206; [None]: an access out of the buffer *)
Fixpoint strip_eol (fuel : nat) (buf : list Z) (n : Z) : option Z :=
  match fuel with
  | O => Some n
  | S fuel =>
      if u32 (n - 1) >? 0 then
        do c <- get buf (u32 (n - 1));
        if (c =? 13) || (c =? 10) then strip_eol fuel buf (u32 (n - 1)) else Some n
      else Some n
  end.

Inductive item := Ch (c : Z) | Use (o : log_op) | Inner (isr : bool) (zlevel : Z).

Section with_config.
Variables (cfg : log_cfg) (tse : bool).

(** memfault_log_save_preformatted_nolock, components/core/src/memfault_log.c:502-505 *)
Definition z_save (s : zl) (level : Z) (ts : option Z) (text : list Z) : option (list log_res * zl) :=
  do x <- log_step cfg tse (z_log s) (LSave level 0 ts text); Some ([fst (x : log_res * lg)], zset_log s (snd x)).

(** prv_log_out in immediate mode with a character, B:187-195 *)
Definition imm_char (s : zl) (idx c : Z) : option (Z * zl) :=
  if idx <? 128 then do b <- put (z_buf s) idx c; Some (idx + 1, zset_buf s b (z_off s)) else Some (idx, s).
(** and the flush, B:197-213 *)
Definition imm_flush (s : zl) (level idx : Z) (ts : option Z) : option (list log_res * zl) :=
  do n <- strip_eol 129 (z_buf s) idx;
  do text <- read_at (z_buf s) 0 n;
  z_save s level ts text.
(** prv_log_out in deferred mode, B:210-213, with what Zephyr collected *)
Definition def_flush (s : zl) (level : Z) (ts : option Z) : option (list log_res * zl) :=
  do text <- read_at (z_buf s) 0 (z_off s);
  do x <- z_save s level ts text; Some (fst x, zset_buf (snd x) (z_buf (snd x)) 0).
Definition def_char (s : zl) (level : Z) (ts : option Z) (c : Z) : option (list log_res * zl) :=
  do x <- (if z_off s =? 128 then def_flush s level ts else Some ([], s));
  let (rs, s) := (x : list log_res * zl) in
  do b <- put (z_buf s) (z_off s) c; Some (rs, zset_buf s b (z_off s + 1)).
(** vsnprintk, M:46: the characters that fit, and the length they would have *)
Definition min_char (s : zl) (idx c : Z) : option (Z * zl) :=
  if idx <? 127 then do b <- put (z_buf s) idx c; Some (idx + 1, zset_buf s b (z_off s)) else Some (idx + 1, s).
(** M:46-51: the terminating 0, and the save; memfault_log.c:430-432, 457 copy no more than fits a log.
    [None]: a read out of the buffer *)
Definition min_end (s : zl) (idx : Z) (ts : option Z) : option (list log_res * zl) :=
  do b <- put (z_buf s) (Z.min idx 127) 0;
  let s := zset_buf s b (z_off s) in
  if idx >? 0 then
    if 1 <? lg_min (z_log s) then z_save s 1 ts []     (* not looked at: memfault_log.c:414-416 *)
    else
      let room := cfg - match ts with Some _ => 4 | None => 0 end in
      do text <- read_at (z_buf s) 0 (Z.min idx room);
      z_save s 1 ts text
  else Some ([], s).

(** Rendering; [idx]: sMfltLogProcessCtx.write_idx, B:90 *)
Fixpoint z_items (m : mode) (s : zl) (level : Z) (ts : option Z) (idx : Z) (l : list item) : option (list log_res * zl) :=
  match l with
  | [] => match m with Immediate => imm_flush s level idx ts | Deferred => def_flush s level ts | Minimal => min_end s idx ts end
  | Ch c :: r =>
      match m with
      | Immediate => do x <- imm_char s idx c; let (idx, s) := (x : Z * zl) in z_items m s level ts idx r
      | Deferred => do x <- def_char s level ts c; let (rs, s) := (x : list log_res * zl) in
                    do y <- z_items m s level ts idx r; Some (rs ++ fst (y : list log_res * zl), snd y)
      | Minimal => do x <- min_char s idx c; let (idx, s) := (x : Z * zl) in z_items m s level ts idx r
      end
  | Use o :: r =>
      do x <- log_step cfg tse (z_log s) o; let (res, lg) := (x : log_res * lg) in
      do y <- z_items m (zset_log s lg) level ts idx r; Some (res :: fst (y : list log_res * zl), snd y)
  | Inner isr z :: r =>
      (* prv_log_process, B:105-132, M:31-34: returns in an interrupt, or as the flag is set *)
      if z_busy s then z_items m s level ts idx r else None
  end.

(** prv_log_process, B:105-138; prv_memfault_log_vprintf, M:31-54 *)
Definition z_message (m : mode) (s : zl) (isr : bool) (zlevel : Z) (ts : option Z) (l : list item) : option (list log_res * zl) :=
  if (match m with Immediate => isr | _ => false end) || z_busy s then Some ([], s)
  else
    let s := zset_busy s true in
    let s := match m with Minimal => s | _ => zset_ctx s end in
    do x <- z_items m s (map_level zlevel) ts 0 l;
    Some (fst (x : list log_res * zl), zset_busy (snd x) false).

(** prv_log_dropped, B:140-143: Zephyr hands over the parts of its notice one by one.  The context is that of the last
    message, whose stack frame is gone: its level is any number.  [None]: there was none, B:212. *)
Fixpoint z_parts (s : zl) (level : Z) (ts : option Z) (parts : list (list Z)) : option (list log_res * zl) :=
  match parts with
  | [] => Some ([], s)
  | p :: r => do x <- z_save s level ts p; let (rs, s) := (x : list log_res * zl) in
              do y <- z_parts s level ts r; Some (rs ++ fst (y : list log_res * zl), snd y)
  end.
Definition z_dropped (s : zl) (junk : Z) (ts : option Z) (parts : list (list Z)) : option (list log_res * zl) :=
  if z_ctx s then z_parts s junk ts parts else None.

Inductive z_op :=
| ZMessage (isr : bool) (zlevel : Z) (ts : option Z) (items : list item)
| ZDropped (junk : Z) (ts : option Z) (parts : list (list Z))
| ZUse (o : log_op).
Definition zl_step (m : mode) (s : zl) (o : z_op) : option (list log_res * zl) :=
  match o with
  | ZMessage isr z ts items => z_message m s isr z ts items
  | ZDropped junk ts parts => match m with Deferred => z_dropped s junk ts parts | _ => Some ([], s) end   (* B:149-151 *)
  | ZUse o => do x <- log_step cfg tse (z_log s) o; Some ([fst (x : log_res * lg)], zset_log s (snd x))
  end.
Fixpoint zl_run (m : mode) (s : zl) (ops : list z_op) : option (list log_res * zl) :=
  match ops with
  | [] => Some ([], s)
  | o :: r => do x <- zl_step m s o; let (rs, s) := (x : list log_res * zl) in
              do y <- zl_run m s r; Some (rs ++ fst (y : list log_res * zl), snd y)
  end.
End with_config.
