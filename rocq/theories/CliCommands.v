(** Model of the commands of the demo command lines that take arguments or report results:
    components/demo/src/panics/memfault_demo_panics.c, components/demo/src/memfault_demo_cli_drain_chunks.c,
    ports/emlib/memfault_demo_cli.c, ports/esp_idf/memfault/common/memfault_platform_demo_cli_cmds.c,
    ports/esp8266_sdk/memfault/memfault_cli.c, ports/zephyr/common/memfault_demo_cli.c, ports/zephyr/ncs/src/memfault_nrf_cli.c.

    Arguments are texts without their terminator, argv[0] the first.  atoi and strtoul as in the C standard, int and long of
    32 bits.  What a log line says is left out, but for whether it is an error.  An assertion does not return. *)
From Coq Require Import String.
From Verif Require Import Base Packetizer.
Open Scope string_scope.
Open Scope list_scope.
Open Scope Z_scope.

(** What ends the program, or is tried to *)
Inductive act := AAssert (extra : Z) (watchdog : bool) | ACall (addr : Z) | AStore8 (addr : Z) | AAbort.
Inductive done := Died (a : act) | Back (rv : Z) (error : bool) | Loaded (addr : Z) | Timer (ms : Z).

Definition space (c : Z) : bool := (c =? 32) || ((9 <=? c) && (c <=? 13)).
Definition digit (base c : Z) : option Z :=
  let d := if (48 <=? c) && (c <=? 57) then c - 48 else if (97 <=? c) && (c <=? 122) then c - 87
           else if (65 <=? c) && (c <=? 90) then c - 55 else 99 in
  if d <? base then Some d else None.
Fixpoint skip_space (s : list Z) : list Z := match s with c :: r => if space c then skip_space r else s | [] => [] end.
Fixpoint number (base acc : Z) (s : list Z) : Z :=
  match s with c :: r => match digit base c with Some d => number base (base * acc + d) r | None => acc end | [] => acc end.
Definition signed (s : list Z) : bool * list Z :=
  match s with c :: r => if c =? 45 then (true, r) else if c =? 43 then (false, r) else (false, s) | [] => (false, []) end.
(** C11 7.22.1.2; [None]: the number does not fit, which is undefined *)
Definition atoi (s : list Z) : option Z :=
  let (neg, r) := signed (skip_space s) in
  let n := number 10 0 r in let v := if neg then - n else n in
  if (-2147483648 <=? v) && (v <=? 2147483647) then Some v else None.
(** C11 7.22.1.4, base 0 *)
Definition strtoul (s : list Z) : Z :=
  let (neg, r) := signed (skip_space s) in
  let n := match r with
           | 48 :: x :: h :: r' => if ((x =? 120) || (x =? 88)) && match digit 16 h with Some _ => true | None => false end
                                   then number 16 0 (h :: r') else number 8 0 (x :: h :: r')
           | 48 :: r' => number 8 0 r'
           | _ => number 10 0 r
           end in
  if 4294967295 <? n then 4294967295 else u32 (if neg then - n else n).

(** ** memfault_demo_panics.c *)
(** argv[1] or a default, :60-64 and the like *)
Definition arg1 (argv : list (list Z)) (default : Z) : option Z :=
  match argv with _ :: a :: _ => atoi a | _ => Some default end.
(** What is tried, and what follows if it did not end the program *)
Definition try (faults : act -> bool) (a : act) (next : done) : done := if faults a then Died a else next.
(** memfault_demo_cli_cmd_crash, :59-98; [argv_at]: the address of argv; [buf]: of s_test_buffer, memfault_demo_cli_aux.c:15-17 *)
Definition crash (faults : act -> bool) (argv_at buf : Z) (argv : list (list Z)) : option done :=
  do t <- arg1 argv 0;
  let last := Died (AAssert (u32 t) false) in
  Some (if t =? 0 then Died (AAssert 0 false)
        else if t =? 1 then try faults (ACall 195939070) last
        else if t =? 2 then try faults (AStore8 (buf + 1)) last
        else if t =? 3 then (if argv_at =? 3735928559 then last else Died (AAssert 0 false))
        else if t =? 4 then Died (AAssert 0 true)
        else Back (-1) true).
(** memfault_demo_cli_cmd_assert, :124-133 *)
Definition assert_cmd (argc : Z) (argv : list (list Z)) : option done :=
  if 1 <? argc then do a <- get argv 1; do n <- atoi a; Some (Died (AAssert (u32 n) false)) else Some (Died (AAssert 0 false)).
(** memfault_demo_cli_loadaddr, :220-231 *)
Definition loadaddr (argv : list (list Z)) : done :=
  match argv with _ :: a :: _ => Loaded (u32 (strtoul a)) | _ => Back (-1) true end.

(** ** memfault_demo_cli_drain_chunks.c:32-48.  [bufs]: what the buffer holds in each attempt; the chunks sent. *)
Fixpoint drain (cfg : pk_cfg) (w : queues) (st : pk) (bufs : list (list Z)) : option (list (list Z) * pk * queues) :=
  match bufs with
  | [] => None
  | b :: r =>
      do x <- pk_get_chunk cfg w st b;
      let '(available, out, st, w, _) := x in
      if negb available then Some ([], st, w)
      else do y <- drain cfg w st r; let '(cs, st, w) := y in Some (out :: cs, st, w)
  end.

(** ** ports/emlib/memfault_demo_cli.c *)
(** prv_adjust_arg_vars, :21-28: argv of [argc] pointers and the place of the first argument *)
Definition adjust (argv : list (list Z)) (ofs : Z) : Z * list (list Z) :=
  if ofs =? 0 then (zlen argv, argv) else (zlen argv - ofs + 1, drop (ofs + 1) argv).
(** memfault_emlib_cli_assert, :86-91; [None]: argv is read past its end *)
Definition emlib_assert (argv : list (list Z)) (ofs : Z) : option done := let (argc, av) := adjust argv ofs in assert_cmd argc av.

(** ** ESP *)
(** prv_recursive_crash, memfault_platform_demo_cli_cmds.c:33-50 and memfault_cli.c:30-42 *)
Fixpoint recursive (fuel : nat) (depth : Z) : option done :=
  if depth =? 15 then Some (Died (AAssert 15 false))
  else match fuel with
       | O => None
       | S f => do a <- put (map (fun i => Z.lor (Z.shiftl depth 24) (Z.of_nat i)) (seq 0 (Z.to_nat (depth + 1)))) depth (depth + 1);
                do d <- get a depth; recursive f d
       end.
(** prv_esp32_assert_example, :151-168; assert() and ESP_ERROR_CHECK end in abort() *)
Definition esp_assert (argv : list (list Z)) : option done :=
  do t <- arg1 argv 1;
  Some (if t =? 1 then Died AAbort else if t =? 2 then Died (AAssert 0 false) else if t =? 3 then Died AAbort else Back 0 false).
(** prv_esp32_crash_example, :170-188; sizeof(buf) of prv_check1 is that of a pointer *)
Definition esp_crash (argv : list (list Z)) : option done :=
  do t <- arg1 argv 0;
  if t =? 0 then Some (Died AAbort) else if t =? 2 then Some (Timer 10) else if t =? 3 then recursive 16 0
  else if t =? 4 then Some (Died (AAssert 4 false)) else Some (Back 0 false).
(** prv_crash_example, memfault_cli.c:63-81 *)
Definition esp8266_crash (faults : act -> bool) (argv : list (list Z)) : option done :=
  do t <- arg1 argv 0;
  if t =? 0 then Some (try faults (ACall 195939070) (Back 0 false)) else if t =? 1 then Some (Died AAbort) else if t =? 2 then recursive 16 0
  else if t =? 3 then Some (Died (AAssert 4 false)) else Some (Back 0 false).
(** prv_esp32_leak_cmd, :190-212: the sizes asked of malloc, and the result *)
Definition leak (malloc : Z -> bool) (argv : list (list Z)) : option (list Z * done) :=
  do n <- arg1 argv 0;
  Some (if n =? 0 then ([], Back 1 false) else if malloc (u32 n) then ([u32 n], Back 0 false) else ([u32 n], Back 1 true)).
(** prv_memfault_ota, :270-294: connected, what memfault_esp_port_ota_update answers *)
Definition esp_ota (connected : bool) (rv : Z) : done :=
  if negb connected then Back (-1) true else Back (if rv =? 1 then 0 else rv) (rv <? 0).

(** ** Zephyr *)
(** prv_get_latest_url_cmd, memfault_demo_cli.c:86-105: what memfault_zephyr_port_get_download_url answers and what releasing
    the URL answers; whether the URL is printed *)
Definition zephyr_url (rv released : Z) : bool * done :=
  if rv <? 0 then (false, Back rv true) else if rv =? 0 then (false, Back 0 false) else (true, Back released false).
(** prv_mflt_get_latest_url, memfault_nrf_cli.c:29-42 *)
Definition nrf_url (rv released : Z) : bool * done := if rv <=? 0 then (false, Back rv true) else (true, Back released false).
(** prv_post_data, memfault_demo_cli.c:65-84 *)
Definition zephyr_post (rv : Z) : done := Back (if rv <? 0 then rv else 0) (rv <? 0).
