(** What the heap statistics report (heap_stats.h:10-40, heap_stats_impl.h:26-59): the list that starts
    at the head holds the most recent blocks in use, newest first, at most as many as the pool has
    entries. *)
From Verif Require Import Base HeapStats.

(** Following the list as a reader of the coredump would: at most [fuel] entries. *)
Fixpoint follow (fuel : nat) (pool : list hentry) (i : Z) : option (list hentry) :=
  if i =? 65535 then Some []
  else match fuel with
       | O => None
       | S f => if i <? 0 then None else
                match nth_error pool (Z.to_nat i) with
                | None => None
                | Some e => match follow f pool (he_next e) with Some r => Some (e :: r) | None => None end
                end
       end.

Definition block := (Z * Z * Z)%type.                  (* lr, pointer, size *)
Definition b_ptr (b : block) : Z := snd (fst b).
Definition block_of (e : hentry) : block := (he_lr e, he_ptr e, he_size e).

(** Pointers of all live blocks; the tracked ones, newest first; the most blocks live at a time. *)
Record hview := mk_hv { v_live : list Z; v_track : list block; v_most : Z }.

(** [None]: the caller breaks the contract: an allocation of a live pointer, a free of a block that is
    not live (or was allocated before the statistics started), or 2^32 blocks live. *)
Definition hv_step (n : Z) (v : hview) (o : heap_op) : option hview :=
  match o with
  | HMalloc lr ptr size =>
      if ptr =? 0 then Some v
      else if existsb (Z.eqb ptr) (v_live v) || (4294967295 <=? zlen (v_live v)) then None
      else
        let keep := if zlen (v_track v) =? n then removelast (v_track v) else v_track v in
        Some (mk_hv (ptr :: v_live v) ((lr, ptr, size mod 2147483648) :: keep) (Z.max (v_most v) (1 + zlen (v_live v))))
  | HFree ptr =>
      if ptr =? 0 then Some v
      else if existsb (Z.eqb ptr) (v_live v)
      then Some (mk_hv (remove Z.eq_dec ptr (v_live v)) (filter (fun b => negb (b_ptr b =? ptr)) (v_track v)) (v_most v))
      else None
  | HReset => Some (mk_hv [] [] 0)
  end.
Fixpoint hv_run (n : Z) (v : hview) (ops : list heap_op) : option hview :=
  match ops with [] => Some v | o :: r => do v <- hv_step n v o; hv_run n v r end.

(** Has a block been seen since the last reset? *)
Fixpoint seen (b : bool) (ops : list heap_op) : bool :=
  match ops with
  | [] => b
  | HMalloc _ ptr _ :: r => seen (b || negb (ptr =? 0)) r
  | HFree _ :: r => seen b r
  | HReset :: r => seen false r
  end.
Definition sized (o : heap_op) : Prop := match o with HMalloc _ _ size => size mod 2147483648 <> 0 | _ => True end.
