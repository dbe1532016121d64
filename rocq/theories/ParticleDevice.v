(** Model of ports/particle/src/memfault.cpp: the versions a device reports, the clock and the heartbeat timer,
    the heap metrics and the debug commands.

    [None]: access outside a buffer or through NULL.  A string is its characters without the NUL.
    Simplification: SYSTEM_VERSION_STRING, which is part of a format (:505-506), has no per cent sign. *)
From Coq Require Import String.
From Verif Require Import Base BuildId HttpRequest.

(** snprintf() of a text into [space] bytes at [i] *)
Definition pd_snprintf (buf : list Z) (i space : Z) (text : list Z) : option (list Z) :=
  if space <=? 0 then Some buf else splice buf i (take (space - 1) text ++ [0]).

(** s_hardware_version and s_system_version, :35-36 *)
Record names := mk_nm { nm_hw : list Z; nm_sw : list Z }.
(** What a constructor is given: product_version, build_metadata, hardware_version *)
Record ctor := mk_ct { ct_product : Z; ct_meta : option (list Z); ct_hw : option (list Z) }.
(** The device and the build: PLATFORM_NAME, SYSTEM_VERSION_STRING, what hal_get_device_hw_version() stores, if
    anything, and the memory at g_memfault_build_id (as in BuildId.v) *)
Record board := mk_bd { bd_platform : list Z; bd_system : list Z; bd_rev : option Z; bd_idtype : Z; bd_idmem : list Z }.

(** :491-499 *)
Definition pd_hw (b : board) (c : ctor) (hw : list Z) : option (list Z) :=
  match ct_hw c with
  | None => pd_snprintf hw 0 32 (bd_platform b ++ str "-rev" ++ print_int (s32 (match bd_rev b with Some r => r | None => 0 end)))
  | Some h => pd_snprintf hw 0 32 h
  end.
(** :505-520 *)
Definition pd_sw (b : board) (c : ctor) (sw : list Z) : option (list Z) :=
  do sw <- pd_snprintf sw 0 32 (str "v" ++ print_int (ct_product c) ++ str ".os" ++ bd_system b);
  do extra <- match ct_meta c with
              | Some m => Some (Some m)
              | None => do r <- bi_get_string (bd_idtype b) (bd_idmem b) (fill 6 0) 6;
                        let (ok, s) := (r : bool * list Z) in
                        if ok then do s <- bi_cstr s; Some (Some s) else Some None
              end;
  match extra with
  | None => Some sw
  | Some x => do cur <- bi_cstr sw;
              pd_snprintf sw (zlen cur) (u32 (32 - zlen cur)) (str "+" ++ x)
  end.
(** The constructor, :482-520, and memfault_platform_get_device_info, :353-363, after it: the two strings *)
Definition construct (b : board) (c : ctor) (n : names) : option names :=
  do hw <- pd_hw b c (nm_hw n);
  do sw <- pd_sw b c (nm_sw n);
  Some (mk_nm hw sw).
Definition reported (n : names) : option (list Z * list Z) := do h <- bi_cstr (nm_hw n); do s <- bi_cstr (nm_sw n); Some (h, s).

(** memfault_platform_get_time_since_boot_ms, :316-318, [t] ms after boot: millis() is a system_tick_t of 32 bits *)
Definition pd_time (t : Z) : Z := u32 t.

(** s_memfault_timer (its period in ms, if there is one) and s_callback, :320, :341 *)
Record ptimer := mk_ptm { pt_period : option Z; pt_cb : option Z }.
Definition ptimer_init : ptimer := mk_ptm None None.
(** memfault_platform_metrics_timer_boot, :339-351; [mem]: new gives a timer *)
Definition timer_boot (mem : bool) (period cb : Z) (s : ptimer) : option (bool * ptimer) :=
  match pt_period s with
  | Some _ => Some (true, s)
  | None => if negb mem then None                                          (* :346: start() of NULL *)
            else Some (true, mk_ptm (Some (u32 (period * 1000))) (Some cb))   (* :344-345 *)
  end.
Fixpoint timer_boots (l : list (bool * Z * Z)) (s : ptimer) : option (list bool * ptimer) :=
  match l with
  | [] => Some ([], s)
  | (mem, period, cb) :: l => do x <- timer_boot mem period cb s; let (r, s) := (x : bool * ptimer) in
                              do y <- timer_boots l s; let (rs, s) := (y : list bool * ptimer) in Some (r :: rs, s)
  end.

(** What HAL_Core_Runtime_Info() stores: total_init_heap, max_used_heap, freeheap, largest_free_block_heap *)
Record heap := mk_hp { hp_total : Z; hp_max_used : Z; hp_free : Z; hp_block : Z }.
(** Metrics set, memfault_particle_metrics_heartbeat_config.def:4-14, and the callback *)
Inductive pd_act := SetTotal (v : Z) | SetMinFree (v : Z) | SetFree (v : Z) | SetBlock (v : Z) | Callback (cb : Z).
(** prv_metric_timer_callback, :322-337; None: the assertion of :323 *)
Definition timer_fires (h : heap) (s : ptimer) : option (list pd_act) :=
  do cb <- pt_cb s;
  Some [SetTotal (hp_total h); SetMinFree (u32 (hp_total h - hp_max_used h)); SetFree (hp_free h); SetBlock (hp_block h); Callback cb].

(** The debug commands, :190-207, and what they return; None: does not return.  [storage]: what
    memfault_coredump_storage_debug_test_finish() returns *)
Definition commands : list (list Z) :=
  map str ["coredump_storage"; "device_info"; "export"; "heartbeat"; "logging"; "reboot"; "trace";
           "assert"; "busfault"; "hang"; "memfault"; "nmi"; "panic"; "spark_assert"]%string.
(** :99-181, by position in the table *)
Definition command_result (storage : bool) (i : Z) : option Z :=
  if i =? 0 then Some (if storage then 0 else -1)                          (* :165-170 *)
  else if i =? 5 then None                                                 (* :122-125 *)
  else if i <? 7 then Some 0
  else None.                                                               (* :131-163 *)
(** Memfault::run_debug_cli_command, :209-220: the position of the command run and what it returns *)
Fixpoint find_command (name : list Z) (i : Z) (l : list (list Z)) : option Z :=
  match l with
  | [] => None
  | c :: l => if list_eq_dec Z.eq_dec name c then Some i else find_command name (i + 1) l
  end.
Definition run_command (storage : bool) (name : list Z) : option Z * option Z :=
  match find_command name 0 commands with
  | Some i => (Some i, command_result storage i)
  | None => (None, Some (-1))                                              (* :219 *)
  end.
