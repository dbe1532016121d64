(** Model of components/core/src/memfault_heap_stats.c with MEMFAULT_IN_USE_BLOCK_COUNT_AUTOMATIC.
    [None]: an index outside the pool, or the assertion of line 144. *)
From Verif Require Import Base.

Definition list_end : Z := 65535.                                  (* heap_stats_impl.h:27 *)
(** heap_stats_impl.h:29-45 *)
Record hentry := mk_he { he_lr : Z; he_ptr : Z; he_size : Z; he_used : bool; he_next : Z }.
(** heap_stats_impl.h:47-58 and the pool *)
Record heap := mk_hp { hp_count : Z; hp_max : Z; hp_head : Z; hp_pool : list hentry }.

(** memfault_heap_stats.c:36-40, 54-62; [n] is MEMFAULT_HEAP_STATS_MAX_COUNT. *)
Definition heap_init (n : nat) : heap := mk_hp 0 0 list_end (repeat (mk_he 0 0 0 false 0) n).

Fixpoint lupd {A} (l : list A) (i : nat) (f : A -> A) : list A :=
  match l, i with
  | [], _ => []
  | x :: r, O => f x :: r
  | x :: r, S i => x :: lupd r i f
  end.

(** memfault_heap_stats.c:75-87; [i] is the index of the first entry of the list. *)
Fixpoint prev_from (l : list hentry) (i : Z) (idx : Z) : Z :=
  match l with
  | [] => list_end
  | e :: r => if he_used e && (he_next e =? idx) then u16 i else prev_from r (i + 1) idx
  end.
Definition prev_entry (pool : list hentry) (idx : Z) : Z := prev_from pool 0 idx.

(** memfault_heap_stats.c:93-119 *)
Fixpoint new_from (l : list hentry) (i unused : Z) : Z * bool :=
  match l with
  | [] => (unused, false)
  | e :: r => if he_used e then new_from r (i + 1) unused
              else if he_size e =? 0 then (u16 i, true)
              else new_from r (i + 1) (if unused =? list_end then u16 i else unused)
  end.
Definition new_index (pool : list hentry) : Z :=
  let (i, never) := new_from pool 0 list_end in
  if never then i else if negb (i =? list_end) then i else prev_entry pool list_end.

(** memfault_heap_stats.c:120-125 *)
Definition count_up (s : heap) : heap :=
  let n := u32 (hp_count s + 1) in
  mk_hp n (if hp_max s <? n then n else hp_max s) (hp_head s) (hp_pool s).
(** memfault_heap_stats.c:127-129 *)
Definition count_down (s : heap) : heap := mk_hp (u32 (hp_count s - 1)) (hp_max s) (hp_head s) (hp_pool s).

Definition in_pool (pool : list hentry) (i : Z) : bool := (0 <=? i) && (i <? zlen pool).
Definition set_next (n : Z) (e : hentry) : hentry := mk_he (he_lr e) (he_ptr e) (he_size e) (he_used e) n.

(** memfault_heap_stats.c:130-169 *)
Definition heap_malloc (s : heap) (lr ptr size : Z) : option heap :=
  if ptr =? 0 then Some s
  else
    let s := count_up s in
    let i := new_index (hp_pool s) in
    if (i =? list_end) || negb (in_pool (hp_pool s) i) then None                            (* :144 *)
    else
      let e := mk_he lr ptr (Z.land size 2147483647) true (hp_head s) in                    (* :147-157 *)
      let pool := lupd (hp_pool s) (Z.to_nat i) (fun _ => e) in
      let p := prev_entry pool i in                                                         (* :162 *)
      if p =? list_end then Some (mk_hp (hp_count s) (hp_max s) i pool)
      else if in_pool pool p then Some (mk_hp (hp_count s) (hp_max s) i (lupd pool (Z.to_nat p) (set_next list_end)))
      else None.

(** memfault_heap_stats.c:181-183: the first entry in use with the pointer *)
Fixpoint find_ptr (l : list hentry) (i : nat) (ptr : Z) : option nat :=
  match l with
  | [] => None
  | e :: r => if (he_ptr e =? ptr) && he_used e then Some i else find_ptr r (S i) ptr
  end.
(** memfault_heap_stats.c:171-204 *)
Definition heap_free (s : heap) (ptr : Z) : option heap :=
  if ptr =? 0 then Some s
  else
    let s := count_down s in
    match find_ptr (hp_pool s) 0 ptr with
    | None => Some s
    | Some i =>
        do e <- nth_error (hp_pool s) i;
        let pool := lupd (hp_pool s) i (fun e => mk_he (he_lr e) (he_ptr e) (he_size e) false (he_next e)) in
        let p := prev_entry pool (u16 (Z.of_nat i)) in                                      (* :187 *)
        let head := if hp_head s =? Z.of_nat i then he_next e else hp_head s in             (* :190 *)
        do pool <- (if p =? list_end then Some pool
                    else if in_pool pool p then Some (lupd pool (Z.to_nat p) (set_next (he_next e))) else None);
        Some (mk_hp (hp_count s) (hp_max s) head (lupd pool i (set_next list_end)))         (* :201 *)
    end.

Inductive heap_op := HMalloc (lr ptr size : Z) | HFree (ptr : Z) | HReset.
Definition heap_step (s : heap) (o : heap_op) : option heap :=
  match o with
  | HMalloc lr ptr size => heap_malloc s lr ptr size
  | HFree ptr => heap_free s ptr
  | HReset => Some (heap_init (length (hp_pool s)))
  end.
Fixpoint heap_run (s : heap) (ops : list heap_op) : option heap :=
  match ops with [] => Some s | o :: r => do s <- heap_step s o; heap_run s r end.

(** memfault_heap_stats.c:64-68 *)
Definition heap_empty (s : heap) : option bool := do e <- nth_error (hp_pool s) 0; Some (he_size e =? 0).
