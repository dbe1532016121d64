(** Model of components/panics/src/memfault_coredump.c (saving a coredump, computing its size,
    finding it again) for a 32-bit little-endian target.

    Simplifications: the memory of a region is a list of bytes that does not change while it is
    saved; the platform's storage is a list of bytes, a write replaces bytes (no flash erase
    semantics), and how each platform call fares is given by [cplat].  The writes are kept in a log
    and applied to the storage afterwards: the code never reads what it wrote. *)
From Verif Require Import Base.

(** Packed little-endian fields. *)
Definition cd_le32 (v : Z) : list Z := [v mod 256; v / 256 mod 256; v / 65536 mod 256; v / 16777216 mod 256].

(** memfault_coredump.c:24, 31, 41 *)
Definition CD_MAGIC : Z := 0x45524f43.
Definition CD_VERSION : Z := 2.
Definition CD_FOOTER_MAGIC : Z := 0x504d5544.
(** memfault_coredump.c:33-39 (sMfltCoredumpHeader), 47-53 (footer), 55-61 (block) *)
Definition cd_header (total : Z) : list Z := cd_le32 CD_MAGIC ++ cd_le32 CD_VERSION ++ cd_le32 total.
Definition cd_footer (flags : Z) : list Z := cd_le32 CD_FOOTER_MAGIC ++ cd_le32 flags ++ cd_le32 0 ++ cd_le32 0.
Definition cd_block (type addr len : Z) : list Z := [type; 0; 0; 0] ++ cd_le32 addr ++ cd_le32 len.

(** platform/coredump.h:30-48: a region of memory.  [RgMemory]: its type (0 memory, 1 word access
    only, 2 image identifier, 3 MPU), region_start and the bytes there; [RgCached]: the cached block
    at region_start (coredump_impl.h:43-50) with valid_cache, cached_address and the bytes kept. *)
Inductive cregion :=
  | RgMemory (type addr : Z) (data : list Z)
  | RgCached (valid addr : Z) (data : list Z).

(** coredump.h (sMemfaultCoredumpSaveInfo) and what the save code asks the platform for:
    registers, trace reason, regions; CPU count (default_config.h:90), build id (None: not
    included or not found), device info strings (None: NULL), machine type, architecture and SDK
    regions. *)
Record cinfo := mk_cinfo { ci_regs : option (list Z); ci_reason : Z; ci_regions : list cregion }.
Record cenv := mk_cenv { ce_cpus : Z; ce_build : option (list Z); ce_serial : option (list Z); ce_swver : option (list Z);
                         ce_swtype : option (list Z); ce_hwver : option (list Z); ce_machine : Z;
                         ce_arch : list cregion; ce_sdk : list cregion }.

(** A write issued to the platform: offset, data, whether it reported success, and how many bytes
    reached the storage. *)
Record cwrite := mk_cwrite { cw_off : Z; cw_data : list Z; cw_ok : bool; cw_done : Z }.
(** The platform: both save_begin hooks agree; the storage can be read; it can be erased, to bytes
    of value [pl_erased]; [pl_fail n = Some k]: write number [n] fails after [k] bytes. *)
Record cplat := mk_cplat { pl_begin : bool; pl_read : bool; pl_erase : bool; pl_erased : Z; pl_fail : Z -> option Z }.

(** memfault_coredump.c:114-127 (sMfltCoredumpWriteCtx), with the log of writes. *)
Record cctx := mk_cctx { cx_size : Z; cx_off : Z; cx_only : bool; cx_trunc : bool; cx_err : bool; cx_log : list cwrite }.

(** memfault_coredump.c:158-170 *)
Definition cd_write (fail : Z -> option Z) (data : list Z) (c : cctx) : bool * cctx :=
  if cx_only c then (true, mk_cctx (cx_size c) (u32 (cx_off c + zlen data)) (cx_only c) (cx_trunc c) (cx_err c) (cx_log c))
  else match fail (zlen (cx_log c)) with
       | Some k => (false, mk_cctx (cx_size c) (cx_off c) (cx_only c) (cx_trunc c) true
                             (cx_log c ++ [mk_cwrite (cx_off c) data false (Z.min (Z.max 0 k) (zlen data))]))
       | None => (true, mk_cctx (cx_size c) (u32 (cx_off c + zlen data)) (cx_only c) (cx_trunc c) (cx_err c)
                          (cx_log c ++ [mk_cwrite (cx_off c) data true (zlen data)]))
       end.
(** memfault_coredump.c:219-224: [data] written word by word. *)
Fixpoint cd_write_words (fail : Z -> option Z) (n : nat) (data : list Z) (c : cctx) {struct n} : bool * cctx :=
  match n with
  | O => (true, c)
  | S n => let (ok, c) := cd_write fail (take 4 data) c in
           if ok then cd_write_words fail n (drop 4 data) c else (false, c)
  end.

(** memfault_coredump.c:172-227; [null]: block_payload is NULL. *)
Definition cd_write_payload (fail : Z -> option Z) (type addr : Z) (data : list Z) (words : bool) (c : cctx) : bool * cctx :=
  let (ok, c) := cd_write fail (cd_block type addr (zlen data)) c in          (* :200-208 *)
  if negb ok then (false, c)
  else if negb words || negb (zlen data mod 4 =? 0) then cd_write fail data c (* :210-213 *)
  else let (ok, c) := cd_write_words fail (Z.to_nat (zlen data / 4)) data c in
       if ok then (negb (cx_trunc c), c) else (false, c).                     (* :226 *)
Definition cd_write_block (fail : Z -> option Z) (type : Z) (null : bool) (data : list Z) (addr : Z) (words : bool) (c : cctx) : bool * cctx :=
  if (zlen data =? 0) || null then (true, c)                                  (* :177 *)
  else
    let total := u32 (12 + zlen data) in                                      (* :181 *)
    let free := if cx_off c <? cx_size c then cx_size c - cx_off c else 0 in  (* :182-183 *)
    if negb (cx_only c) && (free <? total) then                               (* :185 *)
      let c := mk_cctx (cx_size c) (cx_off c) (cx_only c) true (cx_err c) (cx_log c) in
      if free <? 12 then (false, c)                                           (* :190 *)
      else let n := (free - 12) / 4 * 4 in                                    (* :194 *)
           if n =? 0 then (false, c)                                          (* :195 *)
           else cd_write_payload fail type addr (take n data) words c
    else cd_write_payload fail type addr data words c.

(** memfault_coredump.c:229-234 *)
Definition cd_write_meta (fail : Z -> option Z) (type : Z) (data : list Z) (c : cctx) : bool * cctx :=
  cd_write_block fail type false data 0 false c.
(** A field that may be absent. *)
Definition cd_write_opt (fail : Z -> option Z) (type : Z) (data : option (list Z)) (c : cctx) : bool * cctx :=
  match data with Some d => cd_write_meta fail type d c | None => (true, c) end.

(** Writers run one after the other until one fails. *)
Fixpoint cd_seq (l : list (cctx -> bool * cctx)) (c : cctx) : bool * cctx :=
  match l with [] => (true, c) | f :: r => let (ok, c) := f c in if ok then cd_seq r c else (false, c) end.

(** memfault_coredump.c:281-329 *)
Definition cd_write_device_info (fail : Z -> option Z) (env : cenv) : cctx -> bool * cctx :=
  cd_seq [cd_write_opt fail 12 (ce_build env); cd_write_opt fail 2 (ce_serial env); cd_write_opt fail 10 (ce_swver env);
          cd_write_opt fail 11 (ce_swtype env); cd_write_opt fail 4 (ce_hwver env);
          cd_write_meta fail 7 (cd_le32 (ce_machine env))].
(** memfault_coredump.c:477-498; with one CPU the slice is everything. *)
Definition cd_write_regs (fail : Z -> option Z) (env : cenv) (regs : option (list Z)) : cctx -> bool * cctx :=
  match regs with
  | None => fun c => (true, c)
  | Some regs => let n := zlen regs / ce_cpus env in
                 cd_seq (map (fun i => cd_write_meta fail 0 (take n (drop (Z.of_nat i * n) regs))) (seq 0 (Z.to_nat (ce_cpus env))))
  end.

(** memfault_coredump.c:351-366; the result of the write is ignored. *)
Definition cd_pad (fail : Z -> option Z) (c : cctx) : cctx :=
  if cx_off c mod 4 =? 0 then c else snd (cd_write_meta fail 6 (fill (4 - cx_off c mod 4) 0) c).

(** memfault_coredump.c:402-427 with prv_fixup_if_cached_block (:134-156) and
    prv_region_type_to_storage_type (:236-247) *)
Definition cd_write_region (fail : Z -> option Z) (r : cregion) (c : cctx) : bool * cctx :=
  let c := cd_pad fail c in
  match r with
  | RgCached valid addr data => if valid =? 0 then (true, c) else cd_write_block fail 1 false data addr false c
  | RgMemory type addr data => cd_write_block fail (if type =? 3 then 9 else 1) (addr =? 0) data addr (type =? 1) c
  end.
Definition cd_write_regions (fail : Z -> option Z) (l : list cregion) : cctx -> bool * cctx := cd_seq (map (cd_write_region fail) l).

(** memfault_coredump.c:463-539, from the context to the end; the size of the coredump is the
    result (meaningful on success). *)
Definition cd_sections (fail : Z -> option Z) (env : cenv) (info : cinfo) (only : bool) (size : Z) : bool * Z * cctx :=
  let c := mk_cctx (if 16 <? size then size - 16 else size) 12 only false false [] in   (* :464-475 *)
  let (ok, c) := cd_seq [cd_write_regs fail env (ci_regs info); cd_write_device_info fail env;
                         cd_write_meta fail 5 (cd_le32 (ci_reason info))] c in          (* :477-507 *)
  if negb ok then (false, 0, c)
  else
    let (completed, c) := cd_seq [cd_write_regions fail (ce_arch env); cd_write_regions fail (ce_sdk env);
                                  cd_write_regions fail (ci_regions info)] c in         (* :515-517 *)
    if negb completed && cx_err c then (false, 0, c)                                    (* :519 *)
    else
      let (ok, c) := cd_write fail (cd_footer (if cx_trunc c then 1 else 0))
                       (mk_cctx size (cx_off c) (cx_only c) (cx_trunc c) (cx_err c) (cx_log c)) in   (* :523-530 *)
      if negb ok then (false, 0, c)
      else
        let total := cx_off c in
        let (ok, c) := cd_write fail (cd_header total)
                         (mk_cctx (cx_size c) 0 (cx_only c) (cx_trunc c) (cx_err c) (cx_log c)) in   (* :532-534 *)
        (ok, total, c).

(** The effect of the writes on the storage; [None]: a write outside it. *)
Definition cd_apply1 (st : list Z) (w : cwrite) : option (list Z) :=
  if (0 <=? cw_off w) && (cw_off w + zlen (cw_data w) <=? zlen st) then splice st (cw_off w) (take (cw_done w) (cw_data w)) else None.
Fixpoint cd_apply (st : list Z) (l : list cwrite) : option (list Z) :=
  match l with [] => Some st | w :: r => do st <- cd_apply1 st w; cd_apply st r end.

(** memfault_coredump.c:371-400: the magic of the header in storage [st] ([rd]: the platform can
    read it); [None]: no header. *)
Definition cd_get_header (rd : bool) (st : list Z) : option (list Z) :=
  if zlen st =? 0 then None else if rd then read_at st 0 12 else None.
Definition cd_header_valid (h : list Z) : bool := if list_eq_dec Z.eq_dec (take 4 h) (cd_le32 CD_MAGIC) then true else false.

(** memfault_coredump.c:557-561 (memfault_coredump_save) with :429-461: the result, the storage
    and the writes made. *)
Definition cd_save (pl : cplat) (env : cenv) (info : cinfo) (st : list Z) : option (bool * list Z * list cwrite) :=
  if zlen (ci_regions info) =? 0 then Some (false, st, [])                    (* :437 *)
  else if negb (pl_begin pl) then Some (false, st, [])                        (* :443 *)
  else match cd_get_header (pl_read pl) st with
       | None => Some (false, st, [])                                         (* :450 *)
       | Some h =>
           if cd_header_valid h then Some (false, st, [])                     (* :454 *)
           else if negb (pl_erase pl) then Some (false, st, [])               (* :460 *)
           else let '(ok, _, c) := cd_sections (pl_fail pl) env info false (zlen st) in
                do st <- cd_apply (fill (zlen st) (pl_erased pl)) (cx_log c);
                Some (ok, st, cx_log c)
       end.
(** memfault_coredump.c:550-555 *)
Definition cd_save_size (env : cenv) (info : cinfo) : Z :=
  if zlen (ci_regions info) =? 0 then 0
  else let '(ok, total, _) := cd_sections (fun _ => None) env info true 0 in if ok then total else 0.
(** memfault_coredump_utils.c:12-23, the platform's regions and registers being those of [info]. *)
Definition cd_check_size (env : cenv) (info : cinfo) (st : list Z) : bool := cd_save_size env info <=? zlen st.

(** memfault_coredump.c:563-578: the size announced for a coredump found in storage. *)
Definition cd_has_valid (rd : bool) (st : list Z) : option Z :=
  match cd_get_header rd st with
  | Some h => if cd_header_valid h
              then match drop 8 h with a :: b :: c :: d :: _ => Some (a + 256 * b + 65536 * c + 16777216 * d) | _ => None end
              else None
  | None => None
  end.
(** memfault_coredump.c:580-582 *)
Definition cd_read (rd : bool) (st : list Z) (off n : Z) : option (list Z) := if rd then read_at st off n else None.
