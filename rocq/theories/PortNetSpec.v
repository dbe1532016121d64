(** What the lwIP and Mbed TLS metrics should be, independent of the code (apart from the calls and outputs,
    which are the interface). *)
From Verif Require Import Base PortNet.

(** True counters: each report is what was counted since the one before. *)
Fixpoint counts_expected (prev : list Z) (l : list (list Z)) : list (list Z) :=
  match l with
  | [] => []
  | c :: l' => map (fun x => snd x - fst x) (combine prev c) :: counts_expected c l'
  end.
(** As many counters as before, none goes down, each by less than [lim]. *)
Fixpoint counting (lim : Z) (prev : list Z) (l : list (list Z)) : Prop :=
  match l with
  | [] => True
  | c :: l' => Forall2 (fun p x => 0 <= x - p < lim) prev c /\ counting lim c l'
  end.

(** Mbed TLS: the blocks the application holds (address and size). *)
Definition held := list (Z * Z).
Definition held_bytes (h : held) : Z := fold_right (fun b n => snd b + n) 0 h.
Fixpoint give_back (p : Z) (h : held) : held :=
  match h with
  | [] => []
  | b :: h' => if fst b =? p then h' else b :: give_back p h'
  end.
(** The blocks held after a call, if the heap gives a block, at [real], the caller gets the memory behind
    the first [ov] bytes. *)
Definition after_op (ov : Z) (h : held) (o : mb_op) : held :=
  match o with
  | MCalloc n size real => if real =? 0 then h else (real + ov, n * size) :: h
  | MFree p => give_back p h
  end.
(** The calls keep to the rules: the real heap gives memory inside the address space which is not in use,
    the application frees what it holds (or NULL), and what it holds stays below [lim] bytes. *)
Fixpoint mb_legal (ov lim : Z) (h : held) (l : list mb_op) : Prop :=
  match l with
  | [] => True
  | o :: l' =>
      match o with
      | MCalloc n size real => 0 <= n /\ 0 <= size /\ n * size + ov < 2^32 /\
          (real = 0 \/ 0 < real /\ real + ov + n * size <= 2^32 /\ (real + ov < 2^32) /\ Forall (fun b => fst b <> real + ov) h)
      | MFree p => p = 0 \/ In p (map fst h)
      end /\ held_bytes (after_op ov h o) < lim /\ mb_legal ov lim (after_op ov h o) l'
  end.
(** The calls of the real heap that belong to a call. *)
Definition outs_expected (ov : Z) (o : mb_op) : list mb_out :=
  match o with
  | MCalloc n size real => [ORealCalloc 1 (n * size + ov); OReturn (if real =? 0 then 0 else real + ov)]
  | MFree p => if p =? 0 then [] else [ORealFree (p - ov)]
  end.
(** The blocks held after each call. *)
Fixpoint histories (ov : Z) (h : held) (l : list mb_op) : list held :=
  match l with
  | [] => []
  | o :: l' => let h' := after_op ov h o in h' :: histories ov h' l'
  end.
Definition held_after (ov : Z) (l : list mb_op) : held := fold_left (after_op ov) l [].
(** The most that was held at any time. *)
Definition most (hs : list held) : Z := fold_right (fun h m => Z.max (held_bytes h) m) 0 hs.
