(** Model of the coredump storage ports: memfault_platform_coredump_storage_read(), _write(),
    _erase() and _clear() on RAM, on NOR flash and behind the writer of whole blocks.

    Flash is the list of its bytes from the lowest address on.  Programming NOR flash can only clear
    bits; flash with error correction takes a unit only when it is erased, or to make it all zeros.
    The vendor's drivers are modelled by that effect and succeed inside the device.  [None]: an
    access outside the device or the storage area, a programming error, or the reboot with which
    the ports answer errors.  A read gives [Some None] and the others [false] where the port
    returns false.  Log output, watchdog feeding and the locking of the flash are left out. *)
From Verif Require Import Base.

(** the callbacks of a port on devices [S] *)
Record port (S : Type) := mk_port {
  p_rd : S -> Z -> Z -> option (option (list Z));
  p_wr : S -> Z -> list Z -> option (bool * S);
  p_er : S -> Z -> Z -> option (bool * S);
  p_clr : S -> option S }.
Arguments mk_port {S}. Arguments p_rd {S}. Arguments p_wr {S}. Arguments p_er {S}. Arguments p_clr {S}.

(** ** Devices *)
Fixpoint and_bytes (old d : list Z) : list Z :=
  match old, d with x :: old, y :: d => Z.land x y :: and_bytes old d | _, _ => [] end.
(** NOR flash: programming clears bits *)
Definition nor_prog (fl : list Z) (a : Z) (d : list Z) : option (list Z) :=
  do old <- read_at fl a (zlen d); splice fl a (and_bytes old d).
Definition nor_erase (fl : list Z) (a n : Z) : option (list Z) :=
  if 0 <=? n then splice fl a (fill n 255) else None.
(** flash with error correction over units of [u] bytes *)
Definition ecc_prog (u : Z) (fl : list Z) (a : Z) (d : list Z) : option (list Z) :=
  if negb (a mod u =? 0) || negb (zlen d =? u) then None
  else do old <- read_at fl a u;
       if (if list_eq_dec Z.eq_dec old (fill u 255) then true else false) || (if list_eq_dec Z.eq_dec d (fill u 0) then true else false)
       then splice fl a d else None.

(** prv_op_within_flash_bounds(), the same in all ports (nrf5_coredump_storage.c:139-143) *)
Definition in_bounds (size off n : Z) : bool := u32 (off + n) <=? size.
(** reading memory mapped flash, at offset [off] of the storage at [start] *)
Definition mapped_read (size start : Z) (fl : list Z) (off n : Z) : option (option (list Z)) :=
  if negb (in_bounds size off n) then Some None
  else do d <- read_at fl (u32 (start + off)) n; Some (Some d).
(** for (sector = from; sector < lim; sector += step) with [er] at [base] + sector *)
Fixpoint erase_loop {S} (er : S -> Z -> option S) (n : nat) (sector lim step base : Z) (s : S) : option S :=
  if sector <? lim
  then match n with O => None | Datatypes.S n => do s <- er s (u32 (base + sector)); erase_loop er n (u32 (sector + step)) lim step base s end
  else Some s.

(** ** RAM: ports/panics/src/memfault_platform_ram_backed_coredump.c:77-125 and
    ports/zephyr/common/memfault_platform_ram_backed_coredump.c:21-61 *)
Definition ram_write (st : list Z) (off : Z) (d : list Z) : option (bool * list Z) :=
  if negb (in_bounds (zlen st) off (zlen d)) then Some (false, st) else do st <- splice st off d; Some (true, st).
Definition ram_port : port (list Z) := mk_port
  (fun st off n => if negb (in_bounds (zlen st) off n) then Some None else do d <- read_at st off n; Some (Some d))
  ram_write
  (fun st off n => if negb (in_bounds (zlen st) off n) then Some (false, st) else do st <- splice st off (fill n 0); Some (true, st))
  (fun st => do r <- ram_write st 0 [0]; Some (snd r)).

Section Direct.
(** MEMFAULT_COREDUMP_STORAGE_START_ADDR relative to the start of the flash, the size of the
    storage, the size of a sector *)
Variables (start size sec : Z).

(** ** nRF5: ports/nrf5_sdk/nrf5_coredump_storage.c *)
(** :160-191; [aligned]: the data is aligned to words *)
Definition nrf_write (aligned : bool) (fl : list Z) (off : Z) (d : list Z) : option (bool * list Z) :=
  if negb (in_bounds size off (zlen d)) then Some (false, fl)
  else
    let a := u32 (start + off) in
    if (a mod 4 =? 0) && aligned then
      let k := zlen d / 4 * 4 in
      do fl <- nor_prog fl a (take k d);
      do fl <- nor_prog fl (u32 (a + k)) (drop k d);
      Some (true, fl)
    else do fl <- nor_prog fl a d; Some (true, fl).
(** NVMC and SPI flash erase the sector an address is in *)
Definition sector_erase (fl : list Z) (a : Z) : option (list Z) := nor_erase fl (a / sec * sec) sec.
(** :193-210, da145xx :72-94, da1469x :73-90: note the bound of the loop *)
Definition loop_erase (fl : list Z) (off n : Z) : option (bool * list Z) :=
  if negb (in_bounds size off n) then Some (false, fl)
  else if negb (off mod sec =? 0) then Some (false, fl)
  else do fl <- erase_loop sector_erase (Z.to_nat n) off n sec start fl; Some (true, fl).
(** without a SoftDevice (:125-127) *)
Definition nrf_clear (fl : list Z) : option (list Z) := nor_prog fl start [0; 0; 0; 0].
Definition nrf_port (aligned : bool) : port (list Z) :=
  mk_port (mapped_read size start) (nrf_write aligned) loop_erase nrf_clear.

(** ** DA145xx: ports/dialog/da145xx/memfault_platform_coredump_storage.c:40-120; the driver reads and
    writes any range of the SPI flash *)
Definition spi_write (fl : list Z) (off : Z) (d : list Z) : option (bool * list Z) :=
  if negb (in_bounds size off (zlen d)) then Some (false, fl)
  else do fl <- nor_prog fl (u32 (start + off)) d; Some (true, fl).
Definition da145_port : port (list Z) :=
  mk_port (mapped_read size start) spi_write loop_erase (fun fl => do r <- spi_write fl 0 [0; 0; 0; 0]; Some (snd r)).

(** ** DA1469x: ports/dialog/da1469x/memfault_platform_coredump_storage.c:49-113; the driver writes up to
    the end of a page of 256 bytes and returns how much that was *)
Fixpoint page_writes (n : nat) (a : Z) (d : list Z) (fl : list Z) : option (list Z) :=
  match d, n with
  | [], _ => Some fl
  | _, O => None
  | _, Datatypes.S n => let k := Z.min (zlen d) (256 - a mod 256) in
              do fl <- nor_prog fl a (take k d); page_writes n (u32 (a + k)) (drop k d) fl
  end.
Definition da1469_write (fl : list Z) (off : Z) (d : list Z) : option (bool * list Z) :=
  if negb (in_bounds size off (zlen d)) then Some (false, fl)
  else do fl <- page_writes (length d) (u32 (start + off)) d fl; Some (true, fl).
Definition da1469_port : port (list Z) :=
  mk_port (mapped_read size start) da1469_write loop_erase (fun fl => do r <- da1469_write fl 0 [0; 0; 0; 0]; Some (snd r)).

(** ** DA1468x: ports/dialog/da1468x/qspi_coredump_storage.c:174-241 with valid partition information, and
    Mynewt: ports/mynewt/src/memfault_platform_flash_backed_coredump.c:60-140 with an area that is not
    in use.  [start] and [size] are those of the partition; the driver reads, writes and erases ranges
    of it. *)
Definition range_erase (fl : list Z) (off n : Z) : option (bool * list Z) :=
  if negb (in_bounds size off n) then Some (false, fl)
  else do fl <- nor_erase fl (u32 (start + off)) n; Some (true, fl).
Definition da1468_write (fl : list Z) (off : Z) (d : list Z) : option (bool * list Z) :=
  if zlen d =? 0 then None                                    (* :209-211 *)
  else spi_write fl off d.
Definition da1468_port : port (list Z) := mk_port
  (fun fl off n => if n =? 0 then None else mapped_read size start fl off n)   (* :192 *)
  da1468_write range_erase (fun fl => do r <- range_erase fl 0 sec; Some (snd r)).
Definition mynewt_port : port (list Z) :=
  mk_port (mapped_read size start) spi_write range_erase (fun fl => do r <- spi_write fl 0 [0]; Some (snd r)).

(** ** STM32F4: ports/stm32cube/f4/flash_coredump_storage.c:57-137; bytes are programmed one by one and
    the one sector configured ([start], [size]) is erased whatever the arguments *)
Fixpoint byte_writes (a : Z) (d : list Z) (fl : list Z) : option (list Z) :=
  match d with [] => Some fl | b :: d => do fl <- nor_prog fl a [b]; byte_writes (u32 (a + 1)) d fl end.
Definition f4_write (fl : list Z) (off : Z) (d : list Z) : option (bool * list Z) :=
  if negb (in_bounds size off (zlen d)) then Some (false, fl)
  else do fl <- byte_writes (u32 (start + off)) d fl; Some (true, fl).
Definition f4_erase (fl : list Z) (off n : Z) : option (bool * list Z) :=
  if negb (in_bounds size off n) then Some (false, fl)
  else do fl <- nor_erase fl start size; Some (true, fl).
Definition f4_port : port (list Z) :=
  mk_port (mapped_read size start) f4_write f4_erase (fun fl => do r <- f4_write fl 0 [0; 0; 0; 0]; Some (snd r)).

(** ** ESP8266: ports/esp8266_sdk/memfault/memfault_platform_coredump_storage.c:83-195, with valid partition
    information; writes are split every 4096 bytes *)
Fixpoint esp8266_writes (n : nat) (off : Z) (d : list Z) (fl : list Z) : option (bool * list Z) :=
  match d, n with
  | [], _ => Some (true, fl)
  | _, O => None
  | _, Datatypes.S n => do r <- spi_write fl off (take 4096 d);
              if fst r then esp8266_writes n (u32 (off + 4096)) (drop 4096 d) (snd r) else Some (false, snd r)
  end.
Definition esp8266_write (fl : list Z) (off : Z) (d : list Z) : option (bool * list Z) := esp8266_writes (length d) off d fl.
(** :180-195: no check of the bounds; spi_flash_erase_range() wants whole sectors *)
Definition spi_erase_range (fl : list Z) (a n : Z) : option (bool * list Z) :=
  if negb (a mod sec =? 0) || negb (n mod sec =? 0) then Some (false, fl)
  else do fl <- nor_erase fl a n; Some (true, fl).
Definition esp8266_erase (fl : list Z) (off n : Z) : option (bool * list Z) := spi_erase_range fl (u32 (start + off)) n.
Definition esp8266_port : port (list Z) := mk_port (mapped_read size start) esp8266_write esp8266_erase
  (fun fl => if size <? 4 then Some fl else nor_prog fl start [0; 0; 0; 0]).

(** ** ESP-IDF: ports/esp_idf/memfault/common/memfault_platform_coredump.c:220-229 and :289-422, with valid
    partition information.  [start] and [size] are those of the partition, [wo] is
    CONFIG_MEMFAULT_COREDUMP_STORAGE_WRITE_OFFSET_SECTORS, [lim] is
    CONFIG_MEMFAULT_COREDUMP_STORAGE_MAX_SIZE. *)
Definition esp_size (wo lim : Z) : Z := u32 ((if lim >? 0 then Z.min size lim else size) - wo * sec).
Definition esp_write (wo : Z) (fl : list Z) (off : Z) (d : list Z) : option (bool * list Z) :=
  do fl <- nor_prog fl (u32 (start + off + wo * sec)) d; Some (true, fl).
Definition esp_read (wo : Z) (fl : list Z) (off n : Z) : option (option (list Z)) :=
  if u32 (off + n) >? size then Some None
  else do d <- read_at fl (u32 (start + off + wo * sec)) n; Some (Some d).
Definition esp_erase (wo : Z) (fl : list Z) (off n : Z) : option (bool * list Z) :=
  spi_erase_range fl (u32 (start + off)) (u32 (n + wo * sec)).
Definition esp_port (wo : Z) : port (list Z) := mk_port (esp_read wo) (esp_write wo) (esp_erase wo)
  (fun fl => if size <? 4 then Some fl else nor_prog fl (u32 (start + wo * sec)) [0; 0; 0; 0]).
End Direct.

(** ** Ports behind ports/include/memfault/ports/buffered_coredump_storage.h: [p_wr] is
    memfault_platform_coredump_storage_buffered_write() with the offset and the [W] bytes of a block.
    Addresses are the real ones, [base] is that of the flash. *)
Section Buffered.
Variables (base start size sec W : Z).
Definition at_base_read (fl : list Z) (off n : Z) : option (option (list Z)) :=
  if negb (in_bounds size off n) then Some None
  else do d <- read_at fl (u32 (start + off) - base) n; Some (Some d).

(** ** STM32L4: ports/stm32cube/l4/flash_coredump_storage.c *)
(** :131-152: the block in units of 8 bytes *)
Fixpoint dwords (n : nat) (a : Z) (d : list Z) (fl : list Z) : option (list Z) :=
  match d, n with
  | [], _ => Some fl
  | _, O => None
  | _, S n => do fl <- ecc_prog 8 fl (a - base) (take 8 d); dwords n (u32 (a + 8)) (drop 8 d) fl
  end.
Definition l4_block (fl : list Z) (off : Z) (d : list Z) : option (bool * list Z) :=
  do fl <- dwords (length d) (u32 (start + off)) d fl; Some (true, fl).
(** :154-166 *)
Definition l4_clear (fl : list Z) : option (list Z) := ecc_prog 8 fl (start - base) (fill 8 0).
(** :179-196: pages of a bank, at [bank] in the flash *)
Definition bank_erase (bank page n : Z) (fl : list Z) : option (list Z) := nor_erase fl (bank + page * sec) (n * sec).
(** :198-242; [b1] and [fe] are the ends of bank 1 and of the flash *)
Definition l4_erase (b1 fe : Z) (fl : list Z) (off n : Z) : option (bool * list Z) :=
  if negb (in_bounds size off n) then Some (false, fl)
  else
    let a := u32 (start + off) in
    let e := u32 (a + n) in
    if (a <? base) || (a >? fe) then Some (false, fl)
    else if negb (u32 (a + off) mod sec =? 0) || negb (n mod sec =? 0) then Some (false, fl)
    else if a <? b1 then
      let m := Z.min b1 e in
      do fl <- bank_erase 0 ((a - base) / sec) (u32 (m - a) / sec) fl;
      if m =? e then Some (true, fl)
      else do fl <- bank_erase (b1 - base) ((m - b1) / sec) (u32 (e - m) / sec) fl; Some (true, fl)
    else do fl <- bank_erase (b1 - base) ((a - b1) / sec) (u32 (e - a) / sec) fl; Some (true, fl).
Definition l4_port (b1 fe : Z) : port (list Z) := mk_port at_base_read l4_block (l4_erase b1 fe) l4_clear.

(** ** STM32WB: ports/stm32cube/wb/flash_coredump_storage.c:102-211; one bank *)
Definition wb_erase (fe : Z) (fl : list Z) (off n : Z) : option (bool * list Z) :=
  if negb (in_bounds size off n) then Some (false, fl)
  else
    let a := u32 (start + off) in
    let e := u32 (a + n) in
    if (a <? base) || (a >=? fe) then Some (false, fl)
    else if negb (u32 (a + off) mod sec =? 0) || negb (n mod sec =? 0) then Some (false, fl)
    else do fl <- bank_erase 0 ((a - base) / sec) (u32 (e - a) / sec) fl; Some (true, fl).
Definition wb_port (fe : Z) : port (list Z) := mk_port at_base_read l4_block (wb_erase fe) l4_clear.

(** ** STM32U5: ports/stm32cube/u5/flash_coredump_storage.c:55-163; [b2] is where bank 2 begins and [fe] the
    end of the flash; a block is a unit of the error correction; pages past the end of a bank cannot be
    erased with the pages before *)
Definition u5_block (fl : list Z) (off : Z) (d : list Z) : option (bool * list Z) :=
  if negb (in_bounds size off (zlen d)) then Some (false, fl)
  else do fl <- ecc_prog W fl (u32 (off + start) - base) d; Some (true, fl).
Definition u5_erase (b2 fe : Z) (fl : list Z) (off n : Z) : option (bool * list Z) :=
  if negb (in_bounds size off n) then Some (false, fl)
  else
    let bank := if start >=? b2 then b2 else base in
    let bank_end := if start >=? b2 then fe else b2 in
    let page := (start - bank) / sec + off / sec in
    if bank_end <? bank + (page + n / sec) * sec then None
    else do fl <- bank_erase (bank - base) page (n / sec) fl; Some (true, fl).
Definition u5_port (b2 fe : Z) : port (list Z) := mk_port at_base_read u5_block (u5_erase b2 fe)
  (fun fl => do r <- u5_erase b2 fe fl 0 sec; Some (snd r)).

(** ** EFM32/EFR32: ports/emlib/msc_coredump_storage.c:56-123; the driver programs words *)
Definition msc_write (fl : list Z) (a : Z) (d : list Z) : option (list Z) :=
  if negb (a mod 4 =? 0) || negb (zlen d mod 4 =? 0) then None else nor_prog fl (a - base) d.
Definition em_block (fl : list Z) (off : Z) (d : list Z) : option (bool * list Z) :=
  do fl <- msc_write fl (u32 (start + off)) d; Some (true, fl).
Definition em_erase (fl : list Z) (off n : Z) : option (bool * list Z) :=
  if negb (in_bounds size off n) then Some (false, fl)
  else if negb (off mod sec =? 0) || negb (n mod sec =? 0) then None
  else do fl <- erase_loop (fun fl a => nor_erase fl (a - base) sec) (Z.to_nat n) 0 n sec (u32 (start + off)) fl; Some (true, fl).
Definition em_port : port (list Z) := mk_port at_base_read em_block em_erase (fun fl => msc_write fl start [0; 0; 0; 0]).
End Buffered.

(** ** S32K1xx: ports/s32sdk/ftfc_flash_coredump_storage.c.  The device is program flash, mapped at 0,
    and data flash, mapped at 0x10000000; commands address the first from 0 and the second from
    0x800000 on.  [ps], [ds] are the sizes of their sectors. *)
Section S32.
Variables (start stop ps ds : Z).
Notation dev := (list Z * list Z)%type.
Definition DF_BASE : Z := 0x10000000.
(** :85-101: sector size and address for commands *)
Definition s32_lookup (s : dev) (a e : Z) : option (Z * Z) :=
  if (0 <=? a) && (e <=? zlen (fst s)) then Some (ps, a)
  else if (DF_BASE <=? a) && (e <=? DF_BASE + zlen (snd s)) then Some (ds, u32 (a + 0x800000 - DF_BASE))
  else None.
(** the flash controller: erasing a sector, programming 8 bytes *)
Definition s32_sector (s : dev) (fa : Z) : option dev :=
  let fa := fa mod 2 ^ 24 in
  if fa <? 0x800000 then do f <- nor_erase (fst s) (fa / ps * ps) ps; Some (f, snd s)
  else do f <- nor_erase (snd s) ((fa - 0x800000) / ds * ds) ds; Some (fst s, f).
Definition s32_phrase (s : dev) (fa : Z) (d : list Z) : option dev :=
  let fa := fa mod 2 ^ 24 in
  if fa <? 0x800000 then do f <- ecc_prog 8 (fst s) fa d; Some (f, snd s)
  else do f <- ecc_prog 8 (snd s) (fa - 0x800000) d; Some (fst s, f).
(** :170-192; note the end address *)
Fixpoint phrases (n : nat) (fa : Z) (d : list Z) (s : dev) : option dev :=
  match d, n with
  | [], _ => Some s
  | _, O => None
  | _, S n => do s <- s32_phrase s fa (take 8 d); phrases n (u32 (fa + 8)) (drop 8 d) s
  end.
Definition s32_block (s : dev) (off : Z) (d : list Z) : option (bool * dev) :=
  let a := u32 (start + off) in
  let e := u32 (u32 (a + off) + zlen d) in
  match s32_lookup s a e with
  | None => Some (false, s)
  | Some (_, fa) => if negb (zlen d mod 8 =? 0) then None
                    else do s <- phrases (length d) fa d s; Some (true, s)
  end.
(** :194-203; the memory map *)
Definition s32_read (s : dev) (off n : Z) : option (option (list Z)) :=
  if negb (in_bounds (u32 (stop - start)) off n) then Some None
  else let a := u32 (start + off) in
       do d <- (if a <? DF_BASE then read_at (fst s) a n else read_at (snd s) (a - DF_BASE) n); Some (Some d).
(** :205-224; [None] also for the remainder by 0 *)
Definition s32_erase (s : dev) (off n : Z) : option (bool * dev) :=
  let a := u32 (start + off) in
  match s32_lookup s a (u32 (a + n)) with
  | None => Some (false, s)
  | Some (sec, fa) => if n =? 0 then None
                      else if negb (u32 (a + off) mod n =? 0) || negb (n mod sec =? 0) then Some (false, s)
                      else do s <- erase_loop s32_sector (Z.to_nat n) 0 n sec fa s; Some (true, s)
  end.
(** :226-239 *)
Definition s32_clear (s : dev) : option dev :=
  match s32_lookup s start stop with None => Some s | Some (_, fa) => s32_sector s fa end.
Definition s32_port : port dev := mk_port s32_read s32_block s32_erase s32_clear.
End S32.

(** ** Clearing next to the SoftDevice: nrf5_coredump_storage.c:52-92, 96-128, 151-158.
    The SoftDevice works on one flash operation at a time, which may be another module's. *)
Inductive nrf_state := NIdle | NRequested | NInProgress.
Inductive nrf_op := OpClear | OpOther.
Record nrf := mk_nrf { nr_flash : list Z; nr_state : nrf_state; nr_op : option nrf_op }.
(** :96-128; [sd]: nrf_sdh_is_enabled(), [err]: sd_flash_write() fails with an error other than busy *)
Definition nrf_sd_clear (start : Z) (sd err : bool) (s : nrf) : option nrf :=
  if sd then match nr_op s with
             | Some _ => Some (mk_nrf (nr_flash s) NRequested (nr_op s))
             | None => if err then Some (mk_nrf (nr_flash s) NRequested None)
                       else Some (mk_nrf (nr_flash s) NInProgress (Some OpClear))
             end
  else do f <- nor_prog (nr_flash s) start [0; 0; 0; 0]; Some (mk_nrf f (nr_state s) (nr_op s)).
(** :60-78 *)
Definition nrf_op_complete (start : Z) (success sd err : bool) (s : nrf) : option nrf :=
  match nr_state s, success with
  | NIdle, _ => Some s
  | NInProgress, true => Some (mk_nrf (nr_flash s) NIdle (nr_op s))
  | _, _ => nrf_sd_clear start sd err s
  end.
(** A clear is asked for; another module starts an operation; the operation completes, well or not;
    the SoftDevice is switched off and drops it. *)
Inductive nrf_event := EvClear (sd err : bool) | EvOther | EvDone (success sd err : bool) | EvOff.
Definition nrf_step (start : Z) (ev : nrf_event) (s : nrf) : option nrf :=
  match ev with
  | EvClear sd err => nrf_sd_clear start sd err s
  | EvOther => Some (match nr_op s with None => mk_nrf (nr_flash s) (nr_state s) (Some OpOther) | Some _ => s end)
  | EvDone success sd err =>
      match nr_op s with
      | None => Some s
      | Some op =>
          do f <- (match op, success with OpClear, true => nor_prog (nr_flash s) start [0; 0; 0; 0] | _, _ => Some (nr_flash s) end);
          nrf_op_complete start success sd err (mk_nrf f (nr_state s) None)
      end
  | EvOff => Some (mk_nrf (nr_flash s) (nr_state s) None)
  end.
Fixpoint nrf_run (start : Z) (l : list nrf_event) (s : nrf) : option nrf :=
  match l with [] => Some s | ev :: l => do s <- nrf_step start ev s; nrf_run start l s end.
(** :151-158 *)
Definition nrf_coredump_read (start size : Z) (s : nrf) (off n : Z) : option (option (list Z)) :=
  match nr_state s with NIdle => mapped_read size start (nr_flash s) off n | _ => Some None end.
