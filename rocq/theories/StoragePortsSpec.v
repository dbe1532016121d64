(** What the storage of coredumps has to do, whatever it is made of.  [emb w] is the device with
    content [w] in the storage and everything around it fixed: a result [emb w'] says that nothing
    outside the storage has changed. *)
From Verif Require Import Base Coredump StoragePorts.

Section Storage.
Context {S : Type}.
Variables (p : port S) (emb : list Z -> S) (size e : Z).

Definition replaced (w : list Z) (off : Z) (d : list Z) : list Z := take off w ++ d ++ drop (off + zlen d) w.
(** Reads give what is there. *)
Definition reads_back : Prop := forall w off n, zlen w = size -> 0 <= off -> 0 < n -> off + n <= size ->
  p_rd p (emb w) off n = Some (Some (take n (drop off w))).
(** The storage can be erased, to bytes [e]. *)
Definition erases_all : Prop := forall w, zlen w = size -> p_er p (emb w) 0 size = Some (true, emb (fill size e)).
(** Writes such as [P] replace bytes that are erased. *)
Definition writes (P : Z -> list Z -> Prop) : Prop := forall w off d, zlen w = size -> P off d -> bytes d -> 0 <= off -> off + zlen d <= size ->
  take (zlen d) (drop off w) = fill (zlen d) e -> p_wr p (emb w) off d = Some (true, emb (replaced w off d)).
(** After clearing there is no coredump. *)
Definition clears : Prop := forall w, zlen w = size -> bytes w ->
  exists w', p_clr p (emb w) = Some (emb w') /\ zlen w' = size /\ cd_has_valid true w' = None.
Definition stores (P : Z -> list Z -> Prop) : Prop := reads_back /\ erases_all /\ writes P /\ clears.

(** Operations reaching out of the storage are refused, nothing happens. *)
Definition refuses_reads : Prop := forall w off n, zlen w = size -> 0 <= off -> 0 < n -> size < off + n -> off + n < 2 ^ 32 -> p_rd p (emb w) off n = Some None.
Definition refuses_writes : Prop := forall w off d, zlen w = size -> 0 <= off -> d <> [] -> size < off + zlen d -> off + zlen d < 2 ^ 32 ->
  p_wr p (emb w) off d = Some (false, emb w).
Definition refuses_erases : Prop := forall w off n, zlen w = size -> 0 <= off -> 0 <= n -> size < off + n -> off + n < 2 ^ 32 -> p_er p (emb w) off n = Some (false, emb w).
(** An erase within the storage erases what it was asked to if it says so. *)
Definition honest_erases : Prop := forall w off n s, zlen w = size -> 0 <= off -> 0 <= n -> off + n <= size ->
  p_er p (emb w) off n = Some (true, s) -> s = emb (replaced w off (fill n e)).
(** Ranges of whole sectors are erased. *)
Definition erases_sectors (sec : Z) : Prop := forall w off n, zlen w = size -> 0 <= off -> 0 <= n -> off + n <= size -> off mod sec = 0 -> n mod sec = 0 ->
  p_er p (emb w) off n = Some (true, emb (replaced w off (fill n e))).
End Storage.

(** Direct writes, and writes of whole blocks. *)
Definition some_bytes : Z -> list Z -> Prop := fun _ d => d <> [].
Definition whole_blocks (W : Z) : Z -> list Z -> Prop := fun off d => zlen d = W /\ off mod W = 0.

(** Writes one after the other, up to the first refused. *)
Fixpoint write_all {S} (p : port S) (l : list (Z * list Z)) (s : S) : option (bool * S) :=
  match l with
  | [] => Some (true, s)
  | (off, d) :: l => match p_wr p s off d with Some (true, s) => write_all p l s | r => r end
  end.

(** What is to be saved consists of bytes. *)
Definition region_bytes (r : cregion) : Prop := match r with RgMemory _ _ d | RgCached _ _ d => bytes d end.
Definition field_bytes (d : option (list Z)) : Prop := match d with Some d => bytes d | None => True end.
Definition dump_bytes (env : cenv) (info : cinfo) : Prop :=
  Forall field_bytes [ci_regs info; ce_build env; ce_serial env; ce_swver env; ce_swtype env; ce_hwver env] /\
  Forall region_bytes (ce_arch env ++ ce_sdk env ++ ci_regions info).
