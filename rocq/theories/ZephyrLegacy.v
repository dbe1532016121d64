(** Model of the Zephyr port's log backend for Zephyr up to 3.1 without CONFIG_LOG2 (ports/zephyr/common/CMakeLists.txt:43-46):
      L: ports/zephyr/common/memfault_logging_legacy.c
    on top of the SDK's log (Log.v).  As in ZephyrLog.v a message is what Zephyr renders, character by character, and
    Zephyr's log_output, not in the repository, collects the characters in the backend's buffer, which it hands over
    when it is full and at the end; a flush hands over what is there, be it nothing.
    Simplification: the time does not change within a message. *)
From Verif Require Import Base Log ZephyrLog.

(** log_output_ctx_set(), L:105: a pointer to the level of the message, a variable of prv_log_put (L:104).  [Live]: that
    call has not returned; [Gone]: it has. *)
Inductive owner := NoCtx | Live (level : Z) | Gone.
(** [ll_buf]: s_zephyr_render_buf, L:39; [ll_off]: Zephyr's offset into it *)
Record ll := mk_ll { ll_ctx : owner; ll_buf : list Z; ll_off : Z; ll_log : lg }.
Definition ll_boot (l : lg) : ll := mk_ll NoCtx (fill 128 0) 0 l.
Definition lset_ctx (s : ll) (c : owner) : ll := mk_ll c (ll_buf s) (ll_off s) (ll_log s).
Definition lset_buf (s : ll) (b : list Z) (off : Z) : ll := mk_ll (ll_ctx s) b off (ll_log s).
Definition lset_log (s : ll) (l : lg) : ll := mk_ll (ll_ctx s) (ll_buf s) (ll_off s) l.

Inductive litem := LCh (c : Z) | LUses (o : log_op).

Section with_config.
Variables (cfg : log_cfg) (tse : bool).

(** memfault_log_save_preformatted, components/core/src/memfault_log.c:497-500 *)
Definition l_save (s : ll) (level : Z) (ts : option Z) (text : list Z) : option (list log_res * ll) :=
  do x <- log_step cfg tse (ll_log s) (LSave level 0 ts text); Some ([fst (x : log_res * lg)], lset_log s (snd x)).
(** prv_log_out, L:69-80; [junk]: what is where the level was (the enum is an int) *)
Definition l_out (s : ll) (isr : bool) (junk : Z) (ts : option Z) (text : list Z) : option (list log_res * ll) :=
  if isr then Some ([], s)                                                        (* L:70-73 *)
  else l_save s (match ll_ctx s with NoCtx => 3 | Live level => level | Gone => junk end) ts text.  (* L:76-78 *)
(** log_output_flush: L:127 and at the end of a message *)
Definition l_flush (s : ll) (isr : bool) (junk : Z) (ts : option Z) : option (list log_res * ll) :=
  do text <- read_at (ll_buf s) 0 (ll_off s);
  do x <- l_out s isr junk ts text; Some (fst (x : list log_res * ll), lset_buf (snd x) (ll_buf (snd x)) 0).
(** Zephyr's out_func of log_output: a character *)
Definition l_char (s : ll) (isr : bool) (ts : option Z) (c : Z) : option (list log_res * ll) :=
  do x <- (if ll_off s =? 128 then l_flush s isr 0 ts else Some ([], s));
  let (rs, s) := (x : list log_res * ll) in
  do b <- put (ll_buf s) (ll_off s) c; Some (rs, lset_buf s b (ll_off s + 1)).
(** log_output_msg_process, L:106, up to the flush at its end *)
Fixpoint l_items (s : ll) (isr : bool) (ts : option Z) (l : list litem) : option (list log_res * ll) :=
  match l with
  | [] => Some ([], s)
  | LCh c :: r =>
      do x <- l_char s isr ts c; let (rs, s) := (x : list log_res * ll) in
      do y <- l_items s isr ts r; Some (rs ++ fst (y : list log_res * ll), snd y)
  | LUses o :: r =>
      do x <- log_step cfg tse (ll_log s) o; let (res, l) := (x : log_res * lg) in
      do y <- l_items (lset_log s l) isr ts r; Some (res :: fst (y : list log_res * ll), snd y)
  end.
(** prv_log_put, L:93-109, with the level mapped as by L:82-88.  [whole] = false: the thread is interrupted by a panic
    before the end, for good. *)
Definition l_put (s : ll) (whole isr : bool) (zlevel : Z) (ts : option Z) (l : list litem) : option (list log_res * ll) :=
  if zlevel =? 0 then Some ([], s)                                                (* L:102 *)
  else
    do x <- l_items (lset_ctx s (Live (map_level zlevel))) isr ts l;
    let (rs, s) := (x : list log_res * ll) in
    if whole then
      do y <- l_flush s isr 0 ts; Some (rs ++ fst (y : list log_res * ll), lset_ctx (snd y) Gone)
    else Some (rs, s).
(** prv_log_dropped, L:138-141: Zephyr hands over the parts of its notice one by one. *)
Fixpoint l_parts (s : ll) (isr : bool) (junk : Z) (ts : option Z) (parts : list (list Z)) : option (list log_res * ll) :=
  match parts with
  | [] => Some ([], s)
  | p :: r => do x <- l_out s isr junk ts p; let (rs, s) := (x : list log_res * ll) in
              do y <- l_parts s isr junk ts r; Some (rs ++ fst (y : list log_res * ll), snd y)
  end.
(** prv_log_put_sync_string, L:111-124, and memfault_vlog_save, memfault_log.c:383-403: [text] is what the format gives.
    The level is looked at once, when it is saved. *)
Definition l_sync (s : ll) (isr : bool) (zlevel : Z) (ts : option Z) (text : list Z) : option (list log_res * ll) :=
  if isr then Some ([], s)                                                        (* L:114-118 *)
  else if zlen text =? 0 then Some ([], s)                                        (* memfault_log.c:393-395 *)
  else l_save s (map_level zlevel) ts (take (Z.min (zlen text) cfg) text).        (* memfault_log.c:397-402 *)

Inductive l_op :=
| LPut (whole isr : bool) (zlevel : Z) (ts : option Z) (items : list litem)
| LPanic (isr : bool) (junk : Z) (ts : option Z)                                  (* L:126-128 *)
| LDrop (isr : bool) (junk : Z) (ts : option Z) (parts : list (list Z))
| LSync (isr : bool) (zlevel : Z) (ts : option Z) (text : list Z)
| LOther (o : log_op).
Definition ll_step (s : ll) (o : l_op) : option (list log_res * ll) :=
  match o with
  | LPut whole isr z ts l => l_put s whole isr z ts l
  | LPanic isr junk ts => l_flush s isr junk ts
  | LDrop isr junk ts parts => l_parts s isr junk ts parts
  | LSync isr z ts text => l_sync s isr z ts text
  | LOther o => do x <- log_step cfg tse (ll_log s) o; Some ([fst (x : log_res * lg)], lset_log s (snd x))
  end.
Fixpoint ll_run (s : ll) (ops : list l_op) : option (list log_res * ll) :=
  match ops with
  | [] => Some ([], s)
  | o :: r => do x <- ll_step s o; let (rs, s) := (x : list log_res * ll) in
              do y <- ll_run s r; Some (rs ++ fst (y : list log_res * ll), snd y)
  end.
End with_config.
