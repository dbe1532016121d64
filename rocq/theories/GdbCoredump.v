(** Model of the coredumps made by a debugger: scripts/memfault_gdb.py.

    An exception of Python is [None], or where it is caught and what was done before stays, [Stop].  [rd]: reads of
    words of the target, which may fail. *)
From Coq Require Import String.
From Verif Require Import Base.
Open Scope string_scope.
Open Scope list_scope.
Open Scope Z_scope.

(** ** The file *)
(** struct.pack with "<I" *)
Definition pack_I (n : Z) : option (list Z) :=
  if (0 <=? n) && (n <? 4294967296) then Some [n mod 256; n / 256 mod 256; n / 65536 mod 256; n / 16777216 mod 256] else None.
(** _write_block, :699-701, with the format of :655; types are below 128 *)
Definition write_block (type : Z) (payload : list Z) (address : Z) : option (list Z) :=
  do a <- pack_I address;
  do n <- pack_I (zlen payload);
  Some ([type; 0; 0; 0] ++ a ++ n ++ payload).
Fixpoint all_blocks (l : list (Z * list Z * Z)) : option (list Z) :=
  match l with
  | [] => Some []
  | (type, payload, address) :: l => do b <- write_block type payload address; do r <- all_blocks l; Some (b ++ r)
  end.

(** The registers of a core: four bytes each, those found *)
Definition regs := string -> option (list Z).
(** ArmCortexMCoredumpArch.register_collection_list, :362-387 *)
Definition arm_names : list string :=
  ["r0"; "r1"; "r2"; "r3"; "r4"; "r5"; "r6"; "r7"; "r8"; "r9"; "r10"; "r11"; "r12"; "sp"; "lr"; "pc"; "xpsr"; "msp"; "psp"; "primask"; "control"].
(** concat_registers_dict_to_bytes, :537-545 *)
Definition concat_regs (names : list string) (r : regs) : list Z :=
  flat_map (fun n => match r n with Some b => b | None => [0; 0; 0; 0] end) names.

(** MemfaultCoredumpWriter, :673-683; texts in UTF-8 *)
Record writer := mk_writer { w_names : list string; w_machine : Z; w_regs : list regs; w_serial : list Z; w_version : list Z;
  w_type : list Z; w_hw : list Z; w_reason : Z; w_sections : list (Z * list Z); w_mpu : option (list Z) }.
(** _write, :688-731; [t]: what int(time()) is *)
Definition write_file (w : writer) (t file_length : Z) : option (list Z) :=
  do m <- pack_I 0x45524F43; do v <- pack_I 1; do n <- pack_I file_length;
  do mt <- pack_I (w_machine w); do tr <- pack_I (w_reason w); do td <- pack_I t;
  do b <- all_blocks
    (map (fun r => (0, concat_regs (w_names w) r, 0)) (w_regs w)
     ++ [(2, w_serial w, 0); (10, w_version w, 0); (11, w_type w, 0); (4, w_hw w, 0); (7, mt, 0); (5, tr, 0); (1, td, 0xFFFFFFFC)]
     ++ map (fun s => (1, snd s, fst s)) (w_sections w)
     ++ match w_mpu w with Some (x :: d) => [(9, x :: d, 0)] | _ => [] end);
  Some (m ++ v ++ n ++ b).
(** write, :733-745: first only counted; the time may be another one in the second run *)
Definition write_core (w : writer) (t1 t2 : Z) : option (list Z) :=
  do f <- write_file w t1 0;
  write_file w t2 (zlen f).

(** ** Reading memory: read_memory_until_error, :800-809; [rd addr n]: read_memory() *)
Fixpoint read_until (rd : Z -> Z -> option (list Z)) (fuel : nat) (addr end_ : Z) : list Z :=
  match fuel with
  | 0%nat => []
  | S fuel =>
      if addr <? end_
      then match rd addr (Z.min 4096 (end_ - addr)) with
           | Some d => d ++ read_until rd fuel (addr + 4096) end_
           | None => []
           end
      else []
  end.
Definition read_memory_until_error (rd : Z -> Z -> option (list Z)) (start size : Z) : list Z :=
  read_until rd (Z.to_nat size) start (start + size).

(** ** Which memory *)
(** Section, :748-754 *)
Record section := mk_section { x_addr : Z; x_size : Z; x_name : string; x_ro : bool }.
(** substring and startswith of Python *)
Fixpoint starts (p s : string) : bool :=
  match p, s with
  | EmptyString, _ => true
  | String a p, String b s => Ascii.eqb a b && starts p s
  | _, _ => false
  end.
Fixpoint inside (p s : string) : bool :=
  starts p s || match s with EmptyString => false | String _ s => inside p s end.
(** should_capture_section, :225-238, and is_debug_info_section, :221-222 *)
Definition should_capture (x : section) : bool :=
  if x_size x =? 0 then false
  else if (x_name x =? ".text")%string then false
  else if starts ".debug_" (x_name x) then false
  else if existsb (fun n => inside n (x_name x)) [".heap"; ".bss"; ".data"; ".stack"] then true
  else negb (x_ro x).
(** The sort by address, :474 *)
Fixpoint insert (a : Z * Z) (l : list (Z * Z)) : list (Z * Z) :=
  match l with [] => [a] | b :: l => if fst a <? fst b then a :: b :: l else b :: insert a l end.
Definition sort_addr (l : list (Z * Z)) : list (Z * Z) := fold_left (fun acc a => insert a acc) l [].
(** The loop of _merge_memory_regions, :475-489, with the last region so far; regions as address and size *)
Fixpoint merge (prev : Z * Z) (l : list (Z * Z)) : list (Z * Z) :=
  match l with
  | [] => [prev]
  | r :: l =>
      if fst r <=? fst prev + snd prev
      then merge (fst prev, Z.max (snd prev) (fst r + snd r - fst prev)) l
      else prev :: merge r l
  end.
Definition merge_regions (l : list (Z * Z)) : list (Z * Z) :=
  match sort_addr l with [] => [] | r :: l => merge r l end.
(** _is_ram, :494-501 *)
Definition is_ram (a : Z) : bool :=
  let b := Z.land a 0xF0000000 in (b =? 0x20000000) || (b =? 0x30000000) || (b =? 0x60000000) || (b =? 0x80000000).
(** guess_ram_regions of ARM, :491-511; a set has no order, this is one it may have *)
Definition capture_size : Z := 1024 * 1024.
Definition guess_ram (l : list section) : list (Z * Z) :=
  let l := map (fun x => (x_addr x, capture_size)) (filter should_capture l) in
  map (fun a => (a, capture_size)) (filter is_ram (map fst (merge_regions l))).

(** ** Registers at the exception: check_and_patch_reglist_for_fault, :153-218 *)
Inductive outcome := Done (r : string -> option Z) | Stop (r : string -> option Z).
Definition result (o : outcome) : string -> option Z := match o with Done r => r | Stop r => r end.
Definition upd (r : string -> option Z) (n : string) (v : Z) : string -> option Z :=
  fun m => if (m =? n)%string then Some v else r m.
(** _pc_in_vector_table, :139-150; errors count as no *)
Definition pc_in_table (rd : Z -> option Z) (r : string -> option Z) (n : Z) : bool :=
  match (do vtor <- rd 0xE000ED08; do pc <- r "pc"; do h <- rd (vtor + n * 4); Some (Z.ldiff h 1 =? pc)) with
  | Some b => b
  | None => false
  end.
(** The loop of :209-212 *)
Fixpoint restore (rd : Z -> option Z) (sp idx : Z) (names : list string) (r : string -> option Z) : outcome :=
  match names with
  | [] => Done r
  | n :: names =>
      match rd (sp + idx * 4) with
      | Some v => restore rd sp (idx + 1) names (upd r n v)
      | None => Stop r
      end
  end.
(** [yes]: the answer of the user, :189-202.  Register values as numbers. *)
Definition patch_fault (rd : Z -> option Z) (yes : bool) (r : string -> option Z) : outcome :=
  match r "xpsr" with
  | None => Stop r
  | Some xpsr =>
      let n := Z.land xpsr 0xF in                                              (* :155 *)
      if (n <? 2) || (10 <? n) then Done r
      else match r "lr" with
      | None => Stop r
      | Some exc_return =>
          if negb (Z.shiftr exc_return 28 =? 0xF) then Stop r                  (* :179-181 *)
          else if Z.land exc_return 32 =? 0 then Stop r                        (* :185-186 *)
          else if negb (pc_in_table rd r n) && negb yes then Stop r
          else match r (if negb (Z.land exc_return 4 =? 0) then "psp" else "msp") with   (* :204-205 *)
          | None => Stop r
          | Some sp =>
              match restore rd sp 0 ["r0"; "r1"; "r2"; "r3"; "r12"; "lr"; "pc"; "xpsr"] r with
              | Stop r => Stop r
              | Done r =>
                  match r "xpsr" with
                  | None => Stop r
                  | Some x =>
                      let o := if Z.land exc_return 16 =? 0 then 0x68 else 0x20 in   (* :214 *)
                      let o := if negb (Z.land x 512 =? 0) then o + 4 else o in      (* :215-216 *)
                      if sp + o <? 4294967296 then Done (upd r "sp" (sp + o)) else Stop r
                  end
              end
          end
      end
  end.
