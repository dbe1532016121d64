(** Independent specification of the storage self-test: what the storage must do for it to pass. *)
From Verif Require Import Base StorageTest.

(** The byte at offset [i] of the test pattern: 12 bytes counting up, 7 counting down, again. *)
Definition test_byte (i : Z) : Z := let k := i mod 19 in if k <? 12 then 160 + k else 107 - k.
Definition test_image (size : Z) : list Z := map (fun k => test_byte (Z.of_nat k)) (seq 0 (Z.to_nat size)).
Definition blank (b : Z) : Prop := b = 0 \/ b = 255.

Section P.
Context {S : Type}.
(** Reads do not change the storage and, when they succeed, give its contents. *)
Definition reads_contents (p : port S) (c : S -> list Z) : Prop :=
  (forall s, zlen (c s) = po_size p) /\
  forall off buf s ok b s', po_read p off buf s = (ok, b, s') -> s' = s /\
    (ok = true -> 0 <= off -> off + zlen buf <= po_size p -> b = take (zlen buf) (drop off (c s))).
(** Storage that does what it is told and never fails; an erased byte is [e]. *)
Definition works (p : port S) (c : S -> list Z) (e : Z) : Prop :=
  reads_contents p c /\ (forall off buf s, fst (fst (po_read p off buf s)) = true) /\
  (forall s, fst (po_begin p s) = true) /\
  (forall s, exists s', po_erase p 0 (po_size p) s = (true, s') /\ c s' = fill (po_size p) e) /\
  (forall off d s, 0 <= off -> off + zlen d <= po_size p ->
     exists s', po_write p off d s = (true, s') /\ splice (c s) off d = Some (c s')) /\
  (forall s, exists rest, c (po_clear p s) = e :: rest).
End P.
