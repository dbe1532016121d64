(** Model of components/util/src/memfault_rle.c *)
From Verif Require Import Base Varint.

(** include/memfault/util/rle.h:28-32 *)
Inductive rle_state := RInit | RRepeat | RNonRepeat.

(** include/memfault/util/rle.h:34-46, [header_len] is [zlen w_header]. *)
Record rle_write := mk_rw { w_available : bool; w_header : list Z; w_start : Z; w_len : Z }.
Definition rle_no_write : rle_write := mk_rw false [] 0 0.

(** include/memfault/util/rle.h:48-80 *)
Record rle_ctx := mk_rle {
  total_rle_size : Z; write_info : rle_write; last_byte : Z; seq_start : Z;
  rstate : rle_state; seq_count : Z; num_repeats : Z; curr_offset : Z }.

(** The all-zero context callers start from ([sMemfaultRleCtx ctx = { 0 }]). *)
Definition rle_init : rle_ctx := mk_rle 0 rle_no_write 0 0 RInit 0 0 0.

(** memfault_rle.c:19-43.  [size_t]/[uint32_t] arithmetic wraps; the [(int)] cast of :29 is
    [s32].  [None]: the varint did not fit (never happens, see VarintProofs). *)
Definition rle_change (c : rle_ctx) : option rle_ctx :=
  let rep := match rstate c with RRepeat => true | _ => false end in     (* :21 *)
  let wlen := if rep then 1 else seq_count c in                          (* :26 *)
  let rle_size := s32 (if rep then seq_count c else u32 (- seq_count c)) in (* :29 *)
  do hdr <- varint_si32 rle_size;                                        (* :31 *)
  let total := u32 (total_rle_size c + zlen hdr + wlen) in               (* :33 *)
  let wi := mk_rw true hdr (seq_start c) wlen in                         (* :23-27 *)
  if rep
  then Some (mk_rle total wi (last_byte c) (curr_offset c) (rstate c) 0  (* :35-37 *)
                    (num_repeats c) (curr_offset c))
  else Some (mk_rle total wi (last_byte c) (u32 (curr_offset c - num_repeats c)) (rstate c)
                    (num_repeats c) (num_repeats c) (curr_offset c)).    (* :39-41 *)

(** memfault_rle.c:45-47 *)
Definition rle_finalize (c : rle_ctx) : option rle_ctx := rle_change c.

Definition set_state (c : rle_ctx) (s : rle_state) : rle_ctx :=
  mk_rle (total_rle_size c) (write_info c) (last_byte c) (seq_start c) s (seq_count c)
         (num_repeats c) (curr_offset c).
Definition set_nr (c : rle_ctx) (n : Z) : rle_ctx :=
  mk_rle (total_rle_size c) (write_info c) (last_byte c) (seq_start c) (rstate c) (seq_count c)
         n (curr_offset c).
Definition set_sc (c : rle_ctx) (n : Z) : rle_ctx :=
  mk_rle (total_rle_size c) (write_info c) (last_byte c) (seq_start c) (rstate c) n
         (num_repeats c) (curr_offset c).

(** memfault_rle.c:61-108, the body of the loop for one byte. *)
Definition rle_byte (c : rle_ctx) (byte : Z) : option rle_ctx :=
  let is_rep := negb (curr_offset c =? 0) && (last_byte c =? byte) in    (* :64 *)
  let c := set_nr c (if is_rep then u32 (num_repeats c + 1) else 0) in   (* :65-69 *)
  do c <- match rstate c with
          | RRepeat =>                                                   (* :72-79 *)
              do c <- (if is_rep then Some c else rle_change c);
              Some (set_state c RNonRepeat)
          | RNonRepeat =>                                                (* :80-92 *)
              if is_rep && (2 <=? num_repeats c)
              then rle_change (set_sc c (u32 (seq_count c - num_repeats c)))
              else Some c
          | RInit => Some (set_state c RNonRepeat)                       (* :93-95 *)
          end;
  let c := if (1 <=? num_repeats c) && (seq_count c =? num_repeats c)    (* :100 *)
           then set_state c RRepeat else c in
  Some (mk_rle (total_rle_size c) (write_info c) byte (seq_start c) (rstate c)
               (u32 (seq_count c + 1)) (num_repeats c) (u32 (curr_offset c + 1))). (* :106-108 *)

(** memfault_rle.c:60-112, the loop; stops after the byte that made a write available. *)
Fixpoint rle_loop (c : rle_ctx) (buf : list Z) : option rle_ctx :=
  match buf with
  | [] => Some c
  | b :: r => do c <- rle_byte c b;
              if w_available (write_info c) then Some c else rle_loop c r (* :109 *)
  end.

(** memfault_rle.c:49-115: returns the number of bytes processed and the context. *)
Definition rle_encode (c : rle_ctx) (buf : list Z) : option (Z * rle_ctx) :=
  if zlen buf =? 0 then Some (0, c)                                      (* :50 *)
  else
    let c0 := mk_rle (total_rle_size c) rle_no_write (last_byte c) (seq_start c) (rstate c)
                     (seq_count c) (num_repeats c) (curr_offset c) in    (* :56 *)
    do c' <- rle_loop c0 buf;
    Some (u32 (curr_offset c' - curr_offset c), c').                     (* :114 *)

(** The documented way to drive the encoder (rle.h:82-95, used by
    memfault_data_source_rle.c:87-124): offer the rest of a piece until all of it has been
    processed, collecting every write reported.  [fuel] bounds the calls. *)
Fixpoint rle_feed (fuel : nat) (c : rle_ctx) (piece : list Z) : option (list rle_write * rle_ctx) :=
  match piece with
  | [] => Some ([], c)
  | _ =>
      match fuel with
      | O => None
      | S f =>
          do x <- rle_encode c piece;
          let (n, c') := x in
          do y <- rle_feed f c' (drop n piece);
          Some ((if w_available (write_info c') then [write_info c'] else []) ++ fst y, snd y)
      end
  end.

Fixpoint rle_feed_all (c : rle_ctx) (pieces : list (list Z)) : option (list rle_write * rle_ctx) :=
  match pieces with
  | [] => Some ([], c)
  | p :: r => do x <- rle_feed (length p) c p;
              do y <- rle_feed_all (snd x) r;
              Some (fst x ++ fst y, snd y)
  end.

(** All writes for a stream given in pieces, including the final flush. *)
Definition rle_run (pieces : list (list Z)) : option (list rle_write * rle_ctx) :=
  do x <- rle_feed_all rle_init pieces;
  do c <- rle_finalize (snd x);
  Some (fst x ++ [write_info c], c).

(** What the consumer of a write emits: the header, then [w_len] source bytes. *)
Definition rle_emit (source : list Z) (w : rle_write) : option (list Z) :=
  do d <- read_at source (w_start w) (w_len w); Some (w_header w ++ d).
Fixpoint rle_emit_all (source : list Z) (ws : list rle_write) : option (list Z) :=
  match ws with
  | [] => Some []
  | w :: r => do a <- rle_emit source w; do b <- rle_emit_all source r; Some (a ++ b)
  end.
