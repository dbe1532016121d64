(** Independent specification of the coredump image (https://mflt.io/mcu-coredump-format): a header,
    blocks, a footer; and of what a saved coredump must contain. *)
From Verif Require Import Base Coredump.

Definition le (l : list Z) : Z := fold_right (fun b n => b + 256 * n) 0 l.
(** A block: its type, address and data, and the offset in the image it starts at. *)
Record dblock := mk_dblock { d_type : Z; d_addr : Z; d_data : list Z }.
Fixpoint parse_blocks (fuel : nat) (off : Z) (l : list Z) : option (list (Z * dblock)) :=
  match fuel, l with
  | _, [] => Some []
  | O, _ => None
  | S fuel, _ =>
      let len := le (take 4 (drop 8 l)) in
      if (12 <=? zlen l) && (len <=? zlen l - 12) && (0 <? len)
      then do r <- parse_blocks fuel (off + 12 + len) (drop (12 + len) l);
           Some ((off, mk_dblock (le (take 1 l)) (le (take 4 (drop 4 l))) (take len (drop 12 l))) :: r)
      else None
  end.
(** Magics "CORE" and "DUMP", version 2, the size of the image; footer flags. *)
Definition parse_dump (img : list Z) : option (list (Z * dblock) * Z) :=
  if (28 <=? zlen img) && (le (take 4 img) =? 0x45524f43) && (le (take 4 (drop 4 img)) =? 2) && (le (take 4 (drop 8 img)) =? zlen img)
     && (le (take 4 (drop (zlen img - 16) img)) =? 0x504d5544)
  then do b <- parse_blocks (Z.to_nat (zlen img)) 12 (take (zlen img - 28) (drop 12 img));
       Some (b, le (take 4 (drop (zlen img - 12) img)))
  else None.

(** ** What is to be saved *)
Definition some_block (type : Z) (data : option (list Z)) : list dblock :=
  match data with Some (x :: d) => [mk_dblock type 0 (x :: d)] | _ => [] end.
Definition word (v : Z) : list Z := [v mod 256; v / 256 mod 256; v / 65536 mod 256; v / 16777216 mod 256].
(** The registers of each CPU, equal slices. *)
Fixpoint slices (n : nat) (k : Z) (l : list Z) : list (list Z) :=
  match n with O => [] | S n => take k l :: slices n k (drop k l) end.
Definition meta_blocks (env : cenv) (info : cinfo) : list dblock :=
  match ci_regs info with
  | Some regs => flat_map (fun s => some_block 0 (Some s)) (slices (Z.to_nat (ce_cpus env)) (zlen regs / ce_cpus env) regs)
  | None => []
  end
  ++ some_block 12 (ce_build env) ++ some_block 2 (ce_serial env) ++ some_block 10 (ce_swver env)
  ++ some_block 11 (ce_swtype env) ++ some_block 4 (ce_hwver env)
  ++ [mk_dblock 7 0 (word (ce_machine env)); mk_dblock 5 0 (word (ci_reason info))].
(** A region is saved unless empty, at address 0, or a cached block not valid. *)
Definition region_block (r : cregion) : list dblock :=
  match r with
  | RgMemory type addr data => if (zlen data =? 0) || (addr =? 0) then [] else [mk_dblock (if type =? 3 then 9 else 1) addr data]
  | RgCached valid addr data => if (zlen data =? 0) || (valid =? 0) then [] else [mk_dblock 1 addr data]
  end.
Definition memory_blocks (env : cenv) (info : cinfo) : list dblock :=
  flat_map region_block (ce_arch env ++ ce_sdk env ++ ci_regions info).

(** Padding is not content. *)
Definition content_blocks (l : list (Z * dblock)) : list dblock := filter (fun b => negb (d_type b =? 6)) (map snd l).
(** [saved] is [all], or when truncated its beginning, the last block possibly cut. *)
Definition beginning (all saved : list dblock) : Prop :=
  exists k, saved = take k all \/
    exists b rest n, drop k all = b :: rest /\ 0 < n < zlen (d_data b) /\ n mod 4 = 0 /\
                     saved = take k all ++ [mk_dblock (d_type b) (d_addr b) (take n (d_data b))].

(** ** The size needed: 12 bytes before the data of each block, and padding so that the block of a
    region starts at a multiple of 4 (padding is there for regions that are not saved, too). *)
Definition block_size (b : dblock) : Z := 12 + zlen (d_data b).
Definition blocks_size (l : list dblock) : Z := fold_right (fun b n => block_size b + n) 0 l.
Definition region_end (off : Z) (r : cregion) : Z :=
  off + (if off mod 4 =? 0 then 0 else 12 + (4 - off mod 4)) + blocks_size (region_block r).
Definition size_needed (env : cenv) (info : cinfo) : Z :=
  fold_left region_end (ce_arch env ++ ce_sdk env ++ ci_regions info) (12 + blocks_size (meta_blocks env info)) + 16.

(** A write of padding: the head of a padding block, or its zeros. *)
Definition padding_write (w : cwrite) : Prop :=
  exists n, 1 <= n <= 3 /\ (cw_data w = [6; 0; 0; 0; 0; 0; 0; 0; n; 0; 0; 0] \/ cw_data w = fill n 0).

(** ** Assumptions *)
Definition region_ok (r : cregion) : Prop :=
  match r with
  | RgMemory type addr data => is_u32 addr /\ zlen data < 4294967284
  | RgCached valid addr data => is_u32 addr /\ zlen data < 4294967284
  end.
Definition field_ok (d : option (list Z)) : Prop := match d with Some d => zlen d < 4294967284 | None => True end.
Definition dump_ok (env : cenv) (info : cinfo) : Prop :=
  1 <= ce_cpus env /\ is_u32 (ce_machine env) /\ is_u32 (ci_reason info) /\ field_ok (ci_regs info) /\
  Forall field_ok [ce_build env; ce_serial env; ce_swver env; ce_swtype env; ce_hwver env] /\
  Forall region_ok (ce_arch env ++ ce_sdk env ++ ci_regions info).

(** ** Losing power *)
(** Storage [c] in which every byte is the one in [a] or the one in [b]. *)
Definition mixed (a b c : list Z) : Prop :=
  zlen b = zlen a /\ zlen c = zlen a /\ forall i x, get c i = Some x -> get a i = Some x \/ get b i = Some x.
Definition overwritten (st : list Z) (w : cwrite) : list Z := take (cw_off w) st ++ cw_data w ++ drop (cw_off w + zlen (cw_data w)) st.
