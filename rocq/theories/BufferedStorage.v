(** Model of ports/include/memfault/ports/buffered_coredump_storage.h: coredump writes of any size
    turned into writes of whole blocks.

    The callback that writes a block is represented by the log of its calls: offset, data and
    whether it succeeded; call number [n] succeeds when [ok n].  [None]: memmove outside a working
    buffer. *)
From Verif Require Import Base.

(** buffered_coredump_storage.h:69-77 *)
Record wbuf := mk_wb { wb_data : list Z; wb_off : Z; wb_n : Z }.
(** A call of memfault_platform_coredump_storage_buffered_write. *)
Record bwrite := mk_bw { bw_off : Z; bw_data : list Z; bw_ok : bool }.
(** buffered_coredump_storage.h:81-82 *)
Record bsto := mk_bs { bs_hdr : wbuf; bs_dat : wbuf; bs_log : list bwrite }.

Section W.
(** MEMFAULT_COREDUMP_STORAGE_WRITE_SIZE and the size of the storage (info.size). *)
Variables (W size : Z) (ok : Z -> bool).

(** Zeroed buffer (:92, :81) *)
Definition wb_zero : wbuf := mk_wb (fill W 0) 0 0.
Definition bs_init : bsto := mk_bs wb_zero wb_zero [].

(** buffered_coredump_storage.h:86-92; [h]: the header's buffer. *)
Definition bs_write_blk (h : bool) (s : bsto) : bool * bsto :=
  let b := if h then bs_hdr s else bs_dat s in
  let r := ok (zlen (bs_log s)) in
  let log := bs_log s ++ [mk_bw (wb_off b) (wb_data b) r] in
  if r then (true, if h then mk_bs wb_zero (bs_dat s) log else mk_bs (bs_hdr s) wb_zero log)
  else (false, mk_bs (bs_hdr s) (bs_dat s) log).

(** buffered_coredump_storage.h:94-123 *)
Definition bs_try_flush (s : bsto) : bool * bsto :=
  let (r, s) := if wb_n (bs_hdr s) =? W
                then let (r, s) := if negb (wb_n (bs_dat s) =? 0) then bs_write_blk false s else (true, s) in
                     if r then bs_write_blk true s else (false, s)
                else (true, s) in
  if negb r then (false, s)
  else if wb_n (bs_dat s) =? W then bs_write_blk false s else (true, s).

(** The copy into a working buffer at [base] (:84-86, :146-153, :165-169), then the flush. *)
Definition bs_put (base pos : Z) (data : list Z) (s : bsto) : option (bool * bsto) :=
  let b := if base =? 0 then bs_hdr s else bs_dat s in
  do d <- splice (wb_data b) pos data;
  let b := mk_wb d base (u32 (wb_n b + zlen data)) in
  Some (bs_try_flush (if base =? 0 then mk_bs b (bs_dat s) (bs_log s) else mk_bs (bs_hdr s) b (bs_log s))).

(** buffered_coredump_storage.h:158-171; [n]: number of rounds, [addr] is start_addr + i. *)
Fixpoint bs_blocks (n : nat) (addr : Z) (data : list Z) (s : bsto) {struct n} : option (bool * bsto) :=
  match data, n with
  | [], _ => Some (true, s)
  | _, O => None
  | _, S n => do r <- bs_put addr 0 (take W data) s;
              let (r, s) := (r : bool * bsto) in
              if r then bs_blocks n (u32 (addr + W)) (drop W data) s else Some (false, s)
  end.

(** buffered_coredump_storage.h:125-176 *)
Definition bs_write (off : Z) (data : list Z) (s : bsto) : option (bool * bsto) :=
  if (size <? u32 (off + zlen data)) || negb (size mod W =? 0) || (size <? W) then Some (false, s)   (* :132-136 *)
  else
    let base := off / W * W in                                                                       (* :140-141 *)
    if base =? off then bs_blocks (length data) off data s
    else
      let n := Z.min (base + W - off) (zlen data) in                                                 (* :146-147 *)
      do r <- bs_put base (off - base) (take n data) s;
      let (r, s) := (r : bool * bsto) in
      if negb r then Some (false, s)
      else bs_blocks (length data) (off + n) (drop n data) s.

(** The writes of a coredump, until one fails (memfault_coredump.c:158-170). *)
Fixpoint bs_run (l : list (Z * list Z)) (s : bsto) : option (bool * bsto) :=
  match l with
  | [] => Some (true, s)
  | (off, data) :: r => do x <- bs_write off data s;
                        let (b, s) := (x : bool * bsto) in
                        if b then bs_run r s else Some (false, s)
  end.
End W.
