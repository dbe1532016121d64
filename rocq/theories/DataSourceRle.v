(** Model of components/core/src/memfault_data_source_rle.c.
    The backing data source is its queue of messages (oldest first); the buffer handed to
    [read_msg] is represented by the bytes written at its start.  [None]: a read of the backing
    message outside of it, or a loop that does not end. *)
From Verif Require Import Base Rle.

(** memfault_data_source_rle.c:47-54 *)
Inductive ds_state := DsInactive | DsFinding | DsWriting.
(** memfault_data_source_rle.c:56-75; [temp_buf] carries no state from one use to the next and is
    omitted.  [ds_active] is [s_active_data_source != NULL] (one source uses it: coredumps). *)
Record ds := mk_ds {
  ds_active : bool;
  ds_size : Z; ds_total : Z; ds_ctx : rle_ctx;
  ds_st : ds_state; ds_woff : Z; ds_done : Z; ds_enc : Z }.
(** memfault_data_source_rle.c:45, :78 *)
Definition ds_init : ds := mk_ds false 0 0 rle_init DsInactive 0 0 0.

Definition set_ctx (d : ds) (c : rle_ctx) : ds :=
  mk_ds (ds_active d) (ds_size d) (ds_total d) c (ds_st d) (ds_woff d) (ds_done d) (ds_enc d).
Definition set_st (d : ds) (s : ds_state) : ds :=
  mk_ds (ds_active d) (ds_size d) (ds_total d) (ds_ctx d) s (ds_woff d) (ds_done d) (ds_enc d).

(** memfault_data_source_rle.c:77-85 *)
Definition ds_set_active (d : ds) (source : bool) : ds :=
  if Bool.eqb source (ds_active d) then d
  else mk_ds source 0 0 rle_init DsInactive 0 0 0.

(** memfault_data_source_rle.c:87-106 *)
Definition ds_size_piece (d : ds) (piece : list Z) : option ds :=
  do x <- rle_feed (length piece) (ds_ctx d) piece;                    (* :90-94 *)
  let c := snd x in
  if negb (curr_offset c =? ds_size d) then Some (set_ctx d c)         (* :96-100 *)
  else do c <- rle_finalize c; Some (set_st (set_ctx d c) DsFinding).  (* :102-105 *)

(** memfault_data_source_rle.c:229-240; [done] is [bytes_processed]. *)
Fixpoint ds_size_loop (fuel : nat) (msg : list Z) (d : ds) (done : Z) : option ds :=
  if done =? ds_size d then Some d
  else match fuel with
       | O => None
       | S f =>
           let n := Z.min (u32 (ds_size d - done)) 128 in               (* :235-236 *)
           do p <- read_at msg done n;                                  (* :237 *)
           do d <- ds_size_piece d p;
           ds_size_loop f msg d (u32 (done + n))
       end.
(** memfault_data_source_rle.c:226-246 *)
Definition ds_compute (msg : list Z) (d : ds) : option ds :=
  do d <- ds_size_loop (S (length msg)) msg d 0;
  Some (mk_ds (ds_active d) (ds_size d) (total_rle_size (ds_ctx d)) rle_init
              (ds_st d) (ds_woff d) (ds_done d) (ds_enc d)).           (* :242-244 *)

(** memfault_data_source_rle.c:252-268: the size reported, or [None] for "no message". *)
Definition ds_has_more (q : list (list Z)) (d : ds) : option (option Z * ds) :=
  match q with
  | [] => Some (None, d)                                               (* :254-257 *)
  | msg :: _ =>
      let d := mk_ds (ds_active d) (zlen msg) (ds_total d) (ds_ctx d) (ds_st d) (ds_woff d) (ds_done d) (ds_enc d) in
      if negb (ds_total d =? 0) then Some (Some (ds_total d), d)       (* :261-264 *)
      else do d <- ds_compute msg d; Some (Some (ds_total d), d)
  end.

(** memfault_data_source_rle.c:108-124 *)
Definition ds_backing_offset (d : ds) : Z :=
  match ds_st d with
  | DsFinding => ds_done d
  | _ =>
      let w := write_info (ds_ctx d) in
      if ds_woff d <? zlen (w_header w) then w_start w
      else u32 (w_start w + u32 (ds_woff d - zlen (w_header w)))
  end.

(** memfault_data_source_rle.c:126-140 *)
Definition ds_prepare (d : ds) (data : list Z) : option ds :=
  do x <- rle_encode (ds_ctx d) data;                                  (* :129 *)
  let (n, c) := x in
  do c <- (if zlen data =? 0 then rle_finalize c else Some c);         (* :130-132 *)
  let d := mk_ds (ds_active d) (ds_size d) (ds_total d) c (ds_st d) (ds_woff d) (u32 (ds_done d + n)) (ds_enc d) in
  Some (if w_available (write_info c) then set_st d DsWriting else d). (* :135-139 *)

(** memfault_data_source_rle.c:142-179: the bytes placed in a buffer of [buf_len] bytes. *)
Definition ds_build (msg : list Z) (d : ds) (buf_len : Z) : option (list Z * ds) :=
  let w := write_info (ds_ctx d) in
  if negb (w_available w) then Some ([], d)                            (* :143-146 *)
  else
    let hlen := zlen (w_header w) in
    let woff := ds_woff d in
    let hn := if woff <? hlen then Z.min buf_len (u32 (hlen - woff)) else 0 in (* :153-154 *)
    do h <- (if woff <? hlen then read_at (w_header w) woff hn else Some []);   (* :155 *)
    let woff := u32 (woff + hn) in                                     (* :156 *)
    let buf_len := u32 (buf_len - hn) in                               (* :157 *)
    if (ds_woff d <? hlen) && (buf_len =? 0) then                      (* :158-161 *)
      Some (h, mk_ds (ds_active d) (ds_size d) (ds_total d) (ds_ctx d) (ds_st d) woff (ds_done d) (u32 (ds_enc d + hn)))
    else
      let d := mk_ds (ds_active d) (ds_size d) (ds_total d) (ds_ctx d) (ds_st d) woff (ds_done d) (ds_enc d) in
      let total := u32 (hlen + w_len w) in                             (* :164 *)
      let n := Z.min buf_len (u32 (total - woff)) in                   (* :165 *)
      do b <- read_at msg (ds_backing_offset d) n;                     (* :167-168 *)
      let woff := u32 (woff + n) in                                    (* :169 *)
      let enc := u32 (ds_enc d + u32 (hn + n)) in                      (* :171, :177 *)
      if woff =? total then                                            (* :172-176 *)
        let c := ds_ctx d in
        let c := mk_rle (total_rle_size c) rle_no_write (last_byte c) (seq_start c) (rstate c) (seq_count c)
                        (num_repeats c) (curr_offset c) in
        Some (h ++ b, mk_ds (ds_active d) (ds_size d) (ds_total d) c DsFinding 0 (ds_done d) enc)
      else Some (h ++ b, mk_ds (ds_active d) (ds_size d) (ds_total d) (ds_ctx d) (ds_st d) woff (ds_done d) enc).

(** memfault_data_source_rle.c:181-186: bytes written, and how much of the buffer is left. *)
Definition ds_fill (msg : list Z) (d : ds) (buf_len : Z) : option (list Z * Z * ds) :=
  do x <- ds_build msg d buf_len;
  let (out, d) := x in Some (out, u32 (buf_len - zlen out), d).

(** memfault_data_source_rle.c:201-221, the loop and what follows it. *)
Fixpoint ds_read_loop (fuel : nat) (msg : list Z) (d : ds) (buf_len : Z) : option (list Z * ds) :=
  if ds_done d =? ds_size d then
    do d <- ds_prepare d [];                                           (* :219 *)
    do x <- ds_fill msg d buf_len;                                     (* :220 *)
    let '(out, _, d) := x in Some (out, d)
  else
    match fuel with
    | O => None
    | S f =>
        let n := Z.min (u32 (ds_size d - ds_done d)) 128 in            (* :205-206 *)
        do p <- read_at msg (ds_backing_offset d) n;                   (* :208-209 *)
        do d <- ds_prepare d p;                                        (* :210 *)
        do x <- ds_fill msg d buf_len;                                 (* :213 *)
        let '(out, rest, d) := x in
        if rest =? 0 then Some (out, d)
        else do y <- ds_read_loop f msg d rest;
             let (out', d) := y in Some (out ++ out', d)
    end.

(** memfault_data_source_rle.c:188-222: return value and the bytes written. *)
Definition ds_read (msg : list Z) (d : ds) (offset buf_len : Z) : option (bool * list Z * ds) :=
  if negb (offset =? ds_enc d) then Some (false, [], d)                (* :189-192 *)
  else
    do x <- ds_fill msg d buf_len;                                     (* :196 *)
    let '(out, rest, d) := x in
    if rest =? 0 then Some (true, out, d)                              (* :197-199 *)
    else do y <- ds_read_loop (S (length msg)) msg d rest;
         let (out', d) := y in Some (true, out ++ out', d).

(** memfault_data_source_rle.c:270-273 *)
Definition ds_mark (q : list (list Z)) (d : ds) : list (list Z) * ds :=
  (tl q, mk_ds (ds_active d) 0 0 rle_init DsInactive 0 0 0).

(** ** Histories *)
Inductive ds_op := DActive (source : bool) | DHasMore | DRead (offset len : Z) | DMark | DPush (msg : list Z).
Inductive ds_res := RMore (size : option Z) | RRead (ok : bool) (out : list Z) | RNone.

Definition ds_step (q : list (list Z)) (d : ds) (o : ds_op) : option (ds_res * list (list Z) * ds) :=
  match o with
  | DActive s => Some (RNone, q, ds_set_active d s)
  | DHasMore => if negb (ds_active d) then None else            (* NULL dereference *)
      do x <- ds_has_more q d; let (r, d) := x in Some (RMore r, q, d)
  | DRead off len =>
      if negb (ds_active d) then None else
      match q with
      | [] => None
      | msg :: _ => do x <- ds_read msg d off len; let '(ok, out, d) := x in Some (RRead ok out, q, d)
      end
  | DMark => if negb (ds_active d) then None else let (q, d) := ds_mark q d in Some (RNone, q, d)
  | DPush m => Some (RNone, q ++ [m], d)
  end.
Fixpoint ds_run (q : list (list Z)) (d : ds) (ops : list ds_op) : option (list ds_res * list (list Z) * ds) :=
  match ops with
  | [] => Some ([], q, d)
  | o :: r => do x <- ds_step q d o; let '(res, q, d) := x in
              do y <- ds_run q d r; let '(rs, q, d) := y in Some (res :: rs, q, d)
  end.
