(** Model of components/util/src/memfault_circular_buffer.c.
    Simplifications: NULL arguments are not represented (the NULL checks of :19, :35, :60,
    :82, :113, :128, :148 are therefore omitted); the caller's destination buffer of a read is
    the returned list, so it is assumed to have room for [data_len] bytes. *)
From Verif Require Import Base.

(** include/memfault/util/circular_buffer.h:24-29; [st] is the memory behind [storage]. *)
Record cbuf := mk_cbuf { rd : Z; sz : Z; tot : Z; st : list Z }.

(** memfault_circular_buffer.c:17-32; [storage] is the memory handed over, [storage_len] the
    length claimed.  Outer [None]: memset outside [storage]; inner [None]: returns false. *)
Definition cb_init (storage : list Z) (storage_len : Z) : option (option cbuf) :=
  if storage_len =? 0 then Some None
  else do m <- splice storage 0 (fill storage_len 0);
       Some (Some (mk_cbuf 0 0 storage_len m)).

(** memfault_circular_buffer.c:33-57.  Outer [None]: out-of-bounds access; inner [None]:
    returns false. *)
Definition cb_read (c : cbuf) (offset data_len : Z) : option (option (list Z)) :=
  if sz c <? u32 (offset + data_len) then Some None                       (* :40 *)
  else
    let read_idx := u32 (rd c + offset) mod tot c in                      (* :44 *)
    let avail := tot c - read_idx in                                      (* :45 *)
    let n := if avail >? data_len then data_len else avail in             (* :46 *)
    do a <- read_at (st c) read_idx n;                                    (* :50 *)
    let rem := data_len - n in                                            (* :52 *)
    do b <- (if rem =? 0 then Some [] else read_at (st c) 0 rem);         (* :53-55 *)
    Some (Some (a ++ b)).

(** memfault_circular_buffer.c:59-77: returns the index pointed at and the length. *)
Definition cb_get_read_pointer (c : cbuf) (offset : Z) : option (Z * Z) :=
  if sz c <? offset then None                                             (* :65 *)
  else
    let read_idx := u32 (rd c + offset) mod tot c in                      (* :69 *)
    Some (read_idx, Z.min (tot c - read_idx) (sz c - offset)).            (* :70-74 *)

(** memfault_circular_buffer.c:93-109, the loop.  The callback [f] sees the calls made so far,
    the destination offset and the bytes; the trace of calls is returned.  [None]: access out
    of bounds or fuel exhausted. *)
Fixpoint cb_rwc_loop (fuel : nat) (c : cbuf) (offset data_len bytes_left : Z)
    (f : list (Z * list Z) -> Z -> list Z -> bool) (tr : list (Z * list Z))
  : option (bool * list (Z * list Z)) :=
  match fuel with
  | O => None
  | S k =>
      if bytes_left =? 0 then Some (true, tr)                             (* :94 *)
      else
        let dst := data_len - bytes_left in                               (* :95 *)
        match cb_get_read_pointer c (u32 (offset + dst)) with             (* :96 *)
        | None => Some (false, tr)
        | Some (idx, plen) =>
            let n := Z.min bytes_left plen in                             (* :103 *)
            do d <- read_at (st c) idx n;
            let tr' := tr ++ [(dst, d)] in
            if f tr dst d                                                 (* :104 *)
            then cb_rwc_loop k c offset data_len (bytes_left - n) f tr'   (* :107 *)
            else Some (false, tr')
        end
  end.

(** memfault_circular_buffer.c:78-110 *)
Definition cb_read_with_callback (c : cbuf) (offset data_len : Z)
    (f : list (Z * list Z) -> Z -> list Z -> bool) : option (bool * list (Z * list Z)) :=
  if sz c <? u32 (offset + data_len) then Some (false, [])                (* :88 *)
  else cb_rwc_loop (S (Z.to_nat data_len)) c offset data_len data_len f [].

(** memfault_circular_buffer.c:112-124 *)
Definition cb_consume (c : cbuf) (n : Z) : bool * cbuf :=
  if sz c <? n then (false, c)
  else (true, mk_cbuf (u32 (rd c + n) mod tot c) (sz c - n) (tot c) (st c)).

(** memfault_circular_buffer.c:126-138 *)
Definition cb_consume_from_end (c : cbuf) (n : Z) : bool * cbuf :=
  if sz c <? n then (false, c)
  else (true, mk_cbuf (rd c) (sz c - n) (tot c) (st c)).

(** memfault_circular_buffer.c:140-150 *)
Definition cb_get_write_size (c : cbuf) : Z := tot c - sz c.

(** memfault_circular_buffer.c:152-186 *)
Definition cb_write_at_offset (c : cbuf) (offset_from_end : Z) (data : list Z)
  : option (bool * cbuf) :=
  let data_len := zlen data in
  if sz c <? offset_from_end then Some (false, c)                         (* :158 *)
  else
    let new_bytes := if data_len >? offset_from_end then data_len - offset_from_end else 0 in
    if cb_get_write_size c <? new_bytes then Some (false, c)              (* :164 *)
    else
      let write_idx := u32 (rd c + sz c - offset_from_end) mod tot c in   (* :168 *)
      let avail := tot c - write_idx in                                   (* :170 *)
      let n := if avail >? data_len then data_len else avail in           (* :172 *)
      do m <- splice (st c) write_idx (take n data);                      (* :176 *)
      let rem := data_len - n in                                          (* :178 *)
      do m <- (if rem =? 0 then Some m else splice m 0 (drop n data));    (* :179-181 *)
      Some (true, mk_cbuf (rd c) (u32 (sz c + new_bytes)) (tot c) m).     (* :183 *)

(** memfault_circular_buffer.c:187-190 *)
Definition cb_write (c : cbuf) (data : list Z) : option (bool * cbuf) :=
  cb_write_at_offset c 0 data.

(** memfault_circular_buffer.c:198-203 *)
Definition cb_get_read_size (c : cbuf) : Z := sz c.

(** ** Sequences of calls *)
Inductive cb_op :=
| OWrite (data : list Z)
| OWriteAt (offset_from_end : Z) (data : list Z)
| ORead (offset len : Z)
| OPtr (offset : Z)
| OReadCb (offset len : Z) (f : list (Z * list Z) -> Z -> list Z -> bool)
| OConsume (n : Z)
| OConsumeEnd (n : Z)
| OReadSize
| OWriteSize.

(** What the caller observes. [RView] is the memory seen through a returned pointer. *)
Inductive cb_res :=
| RBool (b : bool)
| RData (d : option (list Z))
| RView (d : option (list Z))
| RCalls (b : bool) (tr : list (Z * list Z))
| RSize (n : Z).

(** Dispatch of one call to the functions above (test harness of the model, no C counterpart). *)
Definition cb_step (c : cbuf) (o : cb_op) : option (cb_res * cbuf) :=
  match o with
  | OWrite d => do r <- cb_write c d; Some (RBool (fst r), snd r)
  | OWriteAt k d => do r <- cb_write_at_offset c k d; Some (RBool (fst r), snd r)
  | ORead k n => do r <- cb_read c k n; Some (RData r, c)
  | OPtr k => match cb_get_read_pointer c k with
              | None => Some (RView None, c)
              | Some (idx, l) => do d <- read_at (st c) idx l; Some (RView (Some d), c)
              end
  | OReadCb k n f => do r <- cb_read_with_callback c k n f; Some (RCalls (fst r) (snd r), c)
  | OConsume n => let (b, c') := cb_consume c n in Some (RBool b, c')
  | OConsumeEnd n => let (b, c') := cb_consume_from_end c n in Some (RBool b, c')
  | OReadSize => Some (RSize (cb_get_read_size c), c)
  | OWriteSize => Some (RSize (cb_get_write_size c), c)
  end.

Fixpoint cb_run (c : cbuf) (ops : list cb_op) : option (list cb_res * cbuf) :=
  match ops with
  | [] => Some ([], c)
  | o :: r => do x <- cb_step c o;
              do y <- cb_run (snd x) r;
              Some (fst x :: fst y, snd y)
  end.
