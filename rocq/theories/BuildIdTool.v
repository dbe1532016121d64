(** Model of scripts/mflt-build-id/src/mflt_build_id/__init__.py: build ids put into ELF files.

    The headers of the ELF file as pyelftools gives them are separate from the bytes of the file, of which only those
    of sections are read; [None]: an exception, before which nothing has been written.  SHA1 and CRC32 are functions
    of all bytes given to them ([update] and the second argument of zlib.crc32 continue), which the users of this
    file give. *)
From Coq Require Import String.
From Verif Require Import Base.

(** A section header: sh_addr, sh_size, sh_offset, the flags SHF_ALLOC, SHF_EXECINSTR, SHF_WRITE, and whether sh_type
    is SHT_NOBITS *)
Record sect := mk_sect { s_addr : Z; s_size : Z; s_off : Z; s_alloc : bool; s_exec : bool; s_write : bool; s_nobits : bool }.
(** A name as build_symbol_by_name_cache makes it, :82-124: [None] when it has no end *)
Definition name := option (list Z).
(** The symbols in the order of the table: name, st_value, st_size; [e_gnu]: n_desc of the first note of type
    NT_GNU_BUILD_ID, :263-274 *)
Record elf := mk_elf { e_sects : list sect; e_syms : list (name * (Z * Z)); e_little : bool; e_gnu : option (list Z) }.

(** Section.data() of pyelftools (not in /repo) *)
Definition s_data (file : list Z) (s : sect) : list Z :=
  if s_nobits s then fill (s_size s) 0 else take (s_size s) (drop (s_off s) file).

(** find_section_for_address_range, :161-180, with section_in_binary, :76-80 *)
Fixpoint find_sect (l : list sect) (a b : Z) : option sect :=
  match l with
  | [] => None
  | s :: l =>
      let e := s_addr s + s_size s in
      if s_alloc s && ((s_addr s <=? a) && (a <? e) && ((s_addr s <=? b) && (b <=? e))) then Some s else find_sect l a b
  end.
Fixpoint zs_eqb (a b : list Z) : bool :=
  match a, b with [], [] => true | x :: a, y :: b => (x =? y) && zs_eqb a b | _, _ => false end.
Definition name_eqb (a b : name) : bool :=
  match a, b with None, None => true | Some a, Some b => zs_eqb a b | _, _ => false end.
Fixpoint find_sym (l : list (name * (Z * Z))) (n : name) : option (Z * Z) :=
  match l with [] => None | (m, v) :: l => if name_eqb m n then Some v else find_sym l n end.
(** find_symbol_and_section, :143-159: value, size, section.  Its callers raise an exception when there is no symbol
    (:278-279, :319-320, :343-344, :432-433). *)
Definition lookup (e : elf) (n : name) : option (Z * Z * sect) :=
  do v <- find_sym (e_syms e) n;
  do s <- find_sect (e_sects e) (fst v) (fst v + snd v);
  Some (fst v, snd v, s).
(** get_symbol_data, :186-189, with get_symbol_offset_in_sector, :182-184 *)
Definition sym_data (file : list Z) (v n : Z) (s : sect) : list Z := take n (drop (v - s_addr s) (s_data file s)).

(** get_section_type, :191-202: whether it is SectionType.BSS, for a section with SHF_ALLOC *)
Definition is_bss (s : sect) : bool :=
  negb (s_exec s || negb (s_write s)) && s_nobits s.

(** struct.pack("<I", ...) and (">I", ...) *)
Definition pack4 (little : bool) (n : Z) : option (list Z) :=
  let l := [n mod 256; n / 256 mod 256; n / 65536 mod 256; n / 16777216] in
  if (0 <=? n) && (n <? 2 ^ 32) then Some (if little then l else rev l) else None.
(** and unpack of 4 bytes *)
Definition unpack4 (little : bool) (l : list Z) : option Z :=
  match (if little then l else rev l) with
  | [a; b; c; d] => Some (a + 256 * b + 65536 * c + 16777216 * d)
  | _ => None
  end.

(** The bytes the hash is over, :232-261 and :394-428: [mask]: the address of the section of the symbol, where the
    symbol is in it, and what is there instead; [n]: bytes left out. *)
Fixpoint hashed (mask : option (Z * Z * list Z * Z)) (file : list Z) (l : list sect) : option (list Z) :=
  match l with
  | [] => Some []
  | s :: l =>
      if negb (s_alloc s) then hashed mask file l
      else
        do a <- pack4 true (s_addr s);
        do d <- (if is_bss s then pack4 true (s_size s)
                 else Some (match mask with
                            | Some (addr, off, inst, n) =>
                                if addr =? s_addr s then take off (s_data file s) ++ inst ++ drop (off + n) (s_data file s)
                                else s_data file s
                            | None => s_data file s
                            end));
        do r <- hashed mask file l;
        Some (a ++ d ++ r)
  end.

(** fh.seek and fh.write of a file opened with "r+b" *)
Definition patch (file : list Z) (off : Z) (b : list Z) : list Z :=
  take off (file ++ fill (off - zlen file) 0) ++ b ++ drop (off + zlen b) file.

(** bytearray([1] + [0] * 19), :256 *)
Definition compiled_id : list Z := 1 :: fill 19 0.
(** bytes.hex(), :55-56, and hexdigest() *)
Definition nib (v : Z) : Z := if v <? 10 then v + 48 else v + 87.
Definition hex (l : list Z) : list Z := flat_map (fun b => [nib (b / 16); nib (b mod 16)]) l.

Section Hashes.
Variables (sha : list Z -> list Z) (crc : list Z -> Z).

(** check_or_update_sha1_build_id, :276-312: the file after it and the hash returned *)
Definition sha1_mode (e : elf) (file : list Z) (n : name) (dump_only : bool) : option (list Z * list Z) :=
  do x <- lookup e n;
  let '(v, sz, s) := x in
  if negb (sz =? 20) then None                                                   (* :281-282 *)
  else
    let off := v - s_addr s in
    do b <- hashed (Some (s_addr s, off, compiled_id, 20)) file (e_sects e);
    let h := sha b in
    if zs_eqb (sym_data file v sz s) h then Some (file, h)                       (* :293-295 *)
    else if dump_only then Some (file, h)
    else Some (patch file (s_off s + off) h, h).                                 (* :301-307 *)

(** struct sMemfaultBuildIdStorage: components/core/src/memfault_build_id_private.h; the symbols, :317 and :341 *)
Definition n_storage : name := Some (str "g_memfault_build_id").
Definition n_derived : name := Some (str "g_memfault_sdk_derived_build_id").
(** _write_and_return_build_info, :314-378: the file after it, the type, the id as text, the short length *)
Definition info (e : elf) (file : list Z) (dump_only : bool) : option (list Z * (Z * option (list Z) * option Z)) :=
  do x <- lookup e n_storage;
  let '(v, sz, s) := x in
  let data := sym_data file v sz s in
  do b2 <- get data 2;
  let short := if b2 =? 0 then None else Some b2 in                              (* :330 *)
  do ty <- get data 0;
  if ty =? 2 then do g <- e_gnu e; Some (file, (2, Some g, short))               (* :333-339 *)
  else
    do y <- lookup e n_derived;
    let '(v', sz', s') := y in
    if ty =? 3 then Some (file, (3, Some (hex (sym_data file v' sz' s')), short))
    else if negb (ty =? 1) then None
    else if dump_only then Some (file, (1, None, None))                          (* :356-357 *)
    else
      do b <- hashed None file (e_sects e);
      let h := sha b in
      let f1 := patch file (s_off s + (v - s_addr s)) [3] in
      let f2 := patch f1 (s_off s' + (v' - s_addr s')) h in
      Some (f2, (3, Some (hex h), short)).

(** check_or_update_crc_build_id, :430-469 *)
Definition crc_mode (e : elf) (file : list Z) (n : name) (dump_only : bool) : option (list Z) :=
  do x <- lookup e n;
  let '(v, _, s) := x in
  if is_bss s then None                                                          (* :435-437 *)
  else
    let off := v - s_addr s in
    do b <- hashed (Some (s_addr s, off, [], 4)) file (e_sects e);
    do current <- unpack4 (e_little e) (take 4 (drop off (s_data file s)));
    if current =? crc b then Some file
    else if dump_only then Some file
    else do c <- pack4 (e_little e) (crc b);
         Some (patch file (s_off s + off) c).

(** dump_build_info, :387-392: what is printed; a Python slice *)
Definition dump_info (e : elf) (file : list Z) (n : Z) : option (list Z) :=
  do r <- info e file true;
  do id <- snd (fst (snd r));
  Some (take (if n <? 0 then zlen id + n else n) id).

(** Truth of an argument that is a text or missing *)
Definition given (n : name) : bool := match n with Some (_ :: _) => true | _ => false end.
(** main, :478-510: the arguments --sha1, --crc and --dump; the file after it, and what --dump alone prints *)
Definition main (e : elf) (file : list Z) (sha1 crc_arg : name) (dump : option Z) : option (list Z * option (list Z)) :=
  let truth := match dump with Some d => negb (d =? 0) | None => false end in
  if given sha1 && given crc_arg then None
  else if given sha1 then do r <- sha1_mode e file sha1 truth; Some (fst r, None)
  else if given crc_arg then do f <- crc_mode e file sha1 truth; Some (f, None)    (* :504-505 *)
  else match dump with
  | None => match crc_arg with None => do r <- info e file false; Some (fst r, None) | Some _ => Some (file, None) end
  | Some d => do t <- dump_info e file d; Some (file, Some t)
  end.
End Hashes.
