(** The lwIP and Mbed TLS metrics. *)
From Verif Require Import Base PortMetrics.

(** ** lwIP *)

(** ports/lwip/memfault_lwip_metrics.c:19-32 SET_PROTOCOL_METRICS, one counter: [cur] is the counter of the
    stack, [prev] what was seen before ([uint32_t], modified by addition); gives the metric and the new
    previous value. *)
Definition lw_count (prev cur : Z) : Z * Z := let d := u32 (cur - prev) in (d, u32 (prev + d)).

(** ports/lwip/memfault_lwip_metrics.c:34-48 memfault_lwip_heartbeat_collect_data: the counters sent,
    received and dropped of TCP and of UDP, as far as configured, in one list. *)
Fixpoint lw_collect (prevs curs : list Z) : list Z * list Z :=
  match prevs, curs with
  | p :: ps, c :: cs =>
      let '(d, p') := lw_count p c in let '(ds, ps') := lw_collect ps cs in (d :: ds, p' :: ps')
  | _, _ => ([], [])
  end.
Fixpoint lw_run (prevs : list Z) (l : list (list Z)) : list (list Z) :=
  match l with
  | [] => []
  | c :: l' => let '(ds, ps) := lw_collect prevs c in ds :: lw_run ps l'
  end.

(** ** Mbed TLS *)

(** ports/mbedtls/memfault_mbedtls_metrics.c:34 s_mbedtls_metrics, and the metadata in front of each block:
    the address of a block of the real heap with what is in its [requested_size]. *)
Record mb_state := mk_mb { mb_used : Z; mb_max : Z; mb_meta : list (Z * Z) }.
Definition mb_init : mb_state := mk_mb 0 0 [].

(** A call of the application, with what __real_mbedtls_calloc returns in it (0: NULL). *)
Inductive mb_op := MCalloc (n size real : Z) | MFree (ptr : Z).
(** The calls of the real functions, and the pointer returned to the application. *)
Inductive mb_out := ORealCalloc (n size : Z) | ORealFree (ptr : Z) | OReturn (ptr : Z).

Fixpoint meta_at (a : Z) (l : list (Z * Z)) : option Z :=
  match l with
  | [] => None
  | (b, v) :: l' => if b =? a then Some v else meta_at a l'
  end.
Fixpoint meta_drop (a : Z) (l : list (Z * Z)) : list (Z * Z) :=
  match l with
  | [] => []
  | (b, v) :: l' => if b =? a then l' else (b, v) :: meta_drop a l'
  end.

(** ports/mbedtls/memfault_mbedtls_metrics.c:41-66 __wrap_mbedtls_calloc and 72-86 __wrap_mbedtls_free ([ov]:
    ALLOC_METADATA_OVERHEAD; [None]: metadata is read where there is no block) *)
Definition mb_step (ov : Z) (s : mb_state) (o : mb_op) : option (list mb_out * mb_state) :=
  match o with
  | MCalloc n size real =>
      let requested := u32 (n * size) in
      let total := u32 (requested + ov) in
      if real =? 0 then Some ([ORealCalloc 1 total; OReturn 0], s)
      else
        let used := s32 (mb_used s + requested) in
        let max := if s32 (mb_max s) <? used then u32 used else mb_max s in
        Some ([ORealCalloc 1 total; OReturn (u32 (real + ov))], mk_mb used max ((real, requested) :: mb_meta s))
  | MFree ptr =>
      if ptr =? 0 then Some ([], s)
      else
        let orig := u32 (ptr - ov) in
        do v <- meta_at orig (mb_meta s) ;
        Some ([ORealFree orig], mk_mb (s32 (mb_used s - v)) (mb_max s) (meta_drop orig (mb_meta s)))
  end.
Fixpoint mb_run (ov : Z) (s : mb_state) (l : list mb_op) : option (list (list mb_out) * mb_state) :=
  match l with
  | [] => Some ([], s)
  | o :: l' =>
      do r <- mb_step ov s o ;
      do rs <- mb_run ov (snd r) l' ;
      Some (fst r :: fst rs, snd rs)
  end.
