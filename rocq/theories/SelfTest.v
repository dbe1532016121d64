(** Model of components/core/src/memfault_self_test.c and memfault_self_test_utils.c: the self test.

    A string is the memory from its first byte on (NULL: [None]).  Log output is left out, and with it
    the printing of regions; the locale is "C", and isalnum and isprint give a positive number for yes.
    [None]: memory is read out of bounds, or a loop does not end. *)
From Coq Require Import String.
From Verif Require Import Base Reboot StorageTest BuildId.

(** memfault_self_test_utils.c:62-72; [n]: rounds left, [i]: characters counted *)
Fixpoint sf_strnlen (n : nat) (mem : list Z) (i : Z) : option Z :=
  match n with
  | O => Some i
  | S n => do c <- get mem i; if c =? 0 then Some i else sf_strnlen n mem (i + 1)
  end.

Definition sf_alnum (c : Z) : bool :=
  (48 <=? c) && (c <=? 57) || (65 <=? c) && (c <=? 90) || (97 <=? c) && (c <=? 122).
(** memfault_self_test_utils.c:16-18 *)
Definition sf_serial (c : Z) : bool := sf_alnum c || (c =? 95) || (c =? 45).
(** memfault_self_test_utils.c:20-22 *)
Definition sf_type (c : Z) : bool := sf_serial c || (c =? 46) || (c =? 43) || (c =? 58).
(** memfault_self_test_utils.c:24-26 *)
Definition sf_version (c : Z) : bool := (32 <=? c) && (c <=? 126).

(** memfault_self_test.c:71-80; [n]: rounds left *)
Fixpoint sf_chars (n : nat) (mem : list Z) (i : Z) (ok : Z -> bool) : option bool :=
  match n with
  | O => Some true
  | S n => do c <- get mem i; if negb (ok c) then Some false else sf_chars n mem (i + 1) ok
  end.
(** memfault_self_test.c:58-64 *)
Definition sf_validator (field : Z) : option (Z -> bool) :=
  if field =? 0 then Some sf_serial else if field =? 1 then Some sf_type
  else if field =? 2 then Some sf_version else if field =? 3 then Some sf_type else None.
(** memfault_self_test.c:82-102; [max]: MEMFAULT_DEVICE_INFO_MAX_STRING_SIZE *)
Definition sf_valid (max : Z) (s : option (list Z)) (field : Z) : option bool :=
  match s with
  | None => Some false
  | Some mem =>
      do len <- sf_strnlen (Z.to_nat (max + 1)) mem 0;
      if (len <? 1) || (max <? len) then Some false
      else match sf_validator field with Some ok => sf_chars (Z.to_nat len) mem 0 ok | None => Some false end
  end.
(** memfault_self_test.c:104-111 *)
Definition sf_field (max : Z) (s : option (list Z)) (field : Z) : option Z :=
  do ok <- sf_valid max s field; Some (if ok then 0 else Z.shiftl 1 field).

(** What the tests ask of the platform and of the other components: the device info, the build id, what
    has booted, the platform's coredump regions (not NULL, how many), the clock before and after the
    delay, the current time (type and seconds, if any), whether a coredump would fit, and whether
    interrupts can be disabled and enabled. *)
Record env := mk_env {
  e_serial : option (list Z); e_hw : option (list Z); e_swv : option (list Z); e_swt : option (list Z);
  e_id_type : Z; e_id_mem : list Z;
  e_events : bool; e_log : bool; e_trace : bool;
  e_regions : bool; e_num : Z;
  e_t0 : Z; e_t1 : Z; e_now : option (Z * Z);
  e_fits : bool; e_off : bool; e_on : bool }.

(** memfault_self_test.c:113-132 *)
Definition sf_device (max : Z) (e : env) : option Z :=
  do a <- sf_field max (e_serial e) 0;
  do b <- sf_field max (e_hw e) 3;
  do c <- sf_field max (e_swv e) 2;
  do d <- sf_field max (e_swt e) 1;
  Some (Z.lor (Z.lor (Z.lor (Z.lor 0 a) b) c) d).
(** memfault_self_test.c:134-143 *)
Definition sf_build_id (e : env) : option Z :=
  do r <- bi_get_string (e_id_type e) (e_id_mem e) (fill 41 0) 41;
  Some (if (fst r : bool) then 0 else Z.shiftl 1 4).
(** memfault_self_test.c:160-172 *)
Definition sf_info (max : Z) (e : env) : option Z :=
  do a <- sf_build_id e; do b <- sf_device max e; Some (Z.lor (Z.lor 0 a) b).

(** memfault_self_test.c:204-224 *)
Fixpoint sf_boot_loop (i : Z) (booted : list bool) (result : Z) : Z :=
  match booted with
  | [] => result
  | b :: l => sf_boot_loop (i + 1) l (if b then result else Z.lor result (Z.shiftl 1 i))
  end.
(** the table, memfault_self_test.c:182-202; memfault_reboot_tracking_booted is that of Reboot.v *)
Definition sf_boot (e : env) (r : rt) : Z :=
  let up := match rt_step r TBooted with Some (TBool b, _) => b | _ => false end in
  sf_boot_loop 0 [e_events e; e_log e; up; e_trace e] 0.

(** memfault_self_test.c:226-239: the line printed; [len]: MEMFAULT_DATA_EXPORT_BASE64_CHUNK_MAX_LEN *)
Definition sf_line (len : Z) : option (list Z) :=
  do l <- splice (fill len 0) 0 (fill (len - 2) 43); do l <- put l (len - 2) 49; bi_cstr l.

(** memfault_self_test.c:255-293 *)
Definition sf_regions (e : env) : Z :=
  let result := 0 in
  let result := if e_num e =? 0 then 1 else result in
  if negb (e_regions e) then 1 else result.

(** memfault_self_test.c:295-304; [reg]: the registers.  The device then reboots. *)
Definition sf_reboot (r : rt) (reg : Z * Z) : option rt :=
  do x <- rt_step r (TMark 0x000B (Some reg)); Some (snd x).
(** memfault_self_test.c:306-326 *)
Definition sf_verify (r : rt) : Z :=
  match rt_step r TReason with
  | Some (TReasons (Some (_, prior)), _) => if prior =? 0x000B then 0 else 1
  | _ => 1
  end.

(** memfault_self_test.c:329-350 *)
Definition sf_since_boot (e : env) : Z :=
  if e_t0 e =? 0 then 1 else if e_t1 e <=? e_t0 e then 2 else 0.
(** memfault_self_test.c:356-384 *)
Definition sf_current (e : env) : Z :=
  match e_now e with
  | None => 4
  | Some (type, secs) => if negb (type =? 1) then 8 else if secs <? 1706486400 then 16 else 0
  end.
(** memfault_self_test.c:386-394 *)
Definition sf_time (e : env) : Z := Z.lor (sf_since_boot e) (sf_current e).

(** memfault_self_test.c:396-408 *)
Definition sf_capacity (e : env) : Z := if e_fits e then 0 else 1.

(** What changes: reboot tracking, the coredump storage, whether interrupts are on, and the calls made
    of the storage test and of the interrupts, latest last, with whether interrupts were on. *)
Inductive sf_call := KOff | KOn | KBegin | KFinish.
Record world (S : Type) := mk_w { w_rt : rt; w_st : S; w_irq : bool; w_calls : list (sf_call * bool) }.
Arguments mk_w {S}. Arguments w_rt {S}. Arguments w_st {S}. Arguments w_irq {S}. Arguments w_calls {S}.

Section P.
Context {S : Type} (p : port S) (valid : S -> bool).

Definition w_call (c : sf_call) (w : world S) : world S :=
  mk_w (w_rt w) (w_st w) (w_irq w) (w_calls w ++ [(c, w_irq w)]).
Definition w_set_irq (b : bool) (w : world S) : world S := mk_w (w_rt w) (w_st w) b (w_calls w).
Definition w_set_st (s : S) (w : world S) : world S := mk_w (w_rt w) s (w_irq w) (w_calls w).

(** memfault_self_test.c:410-437; [valid]: memfault_coredump_has_valid_coredump() *)
Definition sf_storage (e : env) (w : world S) : option (Z * world S) :=
  if valid (w_st w) then Some (Z.shiftl 1 0, w)
  else
    let w := w_call KOff w in
    if negb (e_off e) then Some (Z.shiftl 1 1, w)
    else
      let w := w_call KBegin (w_set_irq false w) in
      do x <- st_begin p (w_st w);
      let '(_, t, s) := (x : bool * st_result * S) in
      let w := w_call KOn (w_set_st s w) in
      let w := if e_on e then w_set_irq true w else w in
      let w := w_call KFinish w in
      let '(ok, _, s) := st_finish p t (w_st w) in
      Some (if ok then 0 else Z.shiftl 1 2, w_set_st s w).

(** How a run ends: it returns, or the device reboots. *)
Inductive sf_end := Returns (code : Z) (w : world S) | Reboots (w : world S).

(** memfault_self_test.c:441-477; [storage]: MEMFAULT_DEMO_CLI_SELF_TEST_COREDUMP_STORAGE.  The flags:
    self_test.h:17-33. *)
Definition sf_run (max len : Z) (storage : bool) (flags : Z) (e : env) (reg : Z * Z) (w : world S) : option sf_end :=
  let on (bit : Z) := negb (Z.land flags (Z.shiftl 1 bit) =? 0) in
  let result := 0 in
  do result <- (if on 0 then do r <- sf_info max e; Some (Z.lor result r) else Some result);
  let result := if on 1 then Z.lor result (sf_boot e (w_rt w)) else result in
  let result := if on 2 then Z.lor result (sf_regions e) else result in
  do _ <- (if on 3 then do _ <- sf_line len; Some tt else Some tt);
  if on 4 then do r <- sf_reboot (w_rt w) reg; Some (Reboots (mk_w r (w_st w) (w_irq w) (w_calls w)))
  else
    let result := if on 5 then sf_verify (w_rt w) else result in
    let result := if on 6 then Z.lor result (sf_time e) else result in
    do x <- (if on 7 then (if storage then do r <- sf_storage e w; Some (Z.lor result (fst r), snd r) else Some (1, w))
             else Some (result, w));
    let (result, w) := (x : Z * world S) in
    let result := if on 8 then Z.lor result (sf_capacity e) else result in
    Some (Returns (if result =? 0 then 0 else 1) w).
End P.
Arguments Returns {S}. Arguments Reboots {S}.

(** strncmp(a, b, n) == 0 *)
Fixpoint sf_strncmp (n : nat) (a b : list Z) (i : Z) : option bool :=
  match n with
  | O => Some true
  | S n => do x <- get a i; do y <- get b i;
           if negb (x =? y) then Some false else if x =? 0 then Some true else sf_strncmp n a b (i + 1)
  end.
(** memfault_self_test_utils.c:28-44 *)
Definition sf_flags : list (list Z * Z) :=
  [(str "reboot" ++ [0], Z.shiftl 1 4); (str "reboot_verify" ++ [0], Z.shiftl 1 5); (str "coredump_storage" ++ [0], Z.shiftl 1 7)]%list.
(** memfault_self_test_utils.c:50-57; kMemfaultSelfTestFlag_Default: self_test.h:28-32 *)
Fixpoint sf_find (l : list (list Z * Z)) (arg : list Z) : option Z :=
  match l with
  | [] => Some (Z.lor (Z.lor (Z.lor (Z.lor (Z.lor 1 2) 4) 8) 64) 256)
  | (name, v) :: l => do b <- sf_strncmp 30 arg name 0; if b then Some v else sf_find l arg
  end.
(** memfault_self_test_utils.c:48-58 *)
Definition sf_arg_to_flag (arg : list Z) : option Z := sf_find sf_flags arg.
(** components/demo/src/memfault_demo_shell_commands.c:84-92; [arg]: argv[1], if any *)
Definition sf_cli_flags (arg : option (list Z)) : option Z :=
  match arg with Some arg => sf_arg_to_flag arg | None => Some (Z.lor (Z.lor (Z.lor (Z.lor (Z.lor 1 2) 4) 8) 64) 256) end.
