(** Model of components/core/src/memfault_serializer_helper.c and
    memfault_reboot_tracking_serializer.c (the encoding part), over the event storage. *)
From Verif Require Import Base Cbor EventStorage.

(** An encode callback (include/memfault/core/serializer_helper.h,
    MemfaultSerializerHelperEncodeCallback): it may make any encoder calls, decide on what to do
    next from what they return, and finally returns whether the encoding succeeded. *)
Inductive eprog := ERet (ok : bool) | ECall (o : cbor_op) (k : bool -> eprog).

Fixpoint eprog_run (e : cbor_enc) (p : eprog) : bool * cbor_enc :=
  match p with
  | ERet b => (b, e)
  | ECall o k => let (b, e) := cbor_do e o in eprog_run e (k b)
  end.

(** [p && q], and the calls of a list chained with [&&]. *)
Fixpoint e_and (p q : eprog) : eprog :=
  match p with
  | ERet b => if b then q else ERet false
  | ECall o k => ECall o (fun b => e_and (k b) q)
  end.
Fixpoint e_all (ops : list cbor_op) : eprog :=
  match ops with
  | [] => ERet true
  | o :: r => ECall o (fun b => if b then e_all r else ERet false)
  end.

(** What the helpers read from the platform and the build configuration: the strings of
    sMemfaultDeviceInfo (memfault_platform_get_device_info), MEMFAULT_EVENT_INCLUDE_DEVICE_SERIAL,
    the build id when MEMFAULT_EVENT_INCLUDE_BUILD_ID is set and memfault_build_info_read
    succeeds, MEMFAULT_EVENT_INCLUDED_BUILD_ID_SIZE_BYTES, and the current time in seconds when
    memfault_platform_time_get_current succeeds with a Unix time. *)
Record senv := mk_senv {
  en_serial : list Z; en_swtype : list Z; en_swver : list Z; en_hwver : list Z;
  en_with_serial : bool; en_build : option (list Z); en_build_len : Z; en_time : option Z }.

(** memfault_serializer_helper.c:32-36, :74-97 *)
Definition e_str (key : Z) (s : list Z) : eprog := e_all [OpUnsigned key; OpString s].
Definition e_u32 (key v : Z) : eprog := e_all [OpUnsigned key; OpUnsigned v].
Definition e_s32 (key v : Z) : eprog := e_all [OpUnsigned key; OpSigned v].
Definition e_bytes (key : Z) (b : list Z) : eprog := e_all [OpUnsigned key; OpBytes b].

(** memfault_serializer_helper.c:38-72 *)
Definition e_device (env : senv) : eprog :=
  e_and (if en_with_serial env then e_str 7 (en_serial env) else ERet true)
    (e_and (e_str 10 (en_swtype env)) (e_and (e_str 9 (en_swver env)) (e_str 6 (en_hwver env)))).

(** memfault_serializer_helper.c:108-159 with the time given ([None]: no Unix time); the result of
    the dictionary head (:129) is ignored. *)
Definition e_metadata_with_time (env : senv) (type : Z) (time : option Z) : eprog :=
  let pairs := 1 + (match time with Some _ => 1 | None => 0 end) + (if en_with_serial env then 1 else 0) + 3
               + (match en_build env with Some _ => 1 | None => 0 end) + 1 + 1 in     (* :121-127 *)
  ECall (OpDict pairs) (fun _ =>                                                      (* :129 *)
    e_and (e_u32 2 type)                                                              (* :131 *)
    (e_and (e_u32 3 1)                                                                (* :135 *)
    (e_and (e_device env)                                                             (* :140 *)
    (e_and (match en_build env with
            | Some id => e_bytes 11 (take (en_build_len env) id)                      (* :149 *)
            | None => ERet true end)
           (match time with Some t => e_u32 1 (u32 t) | None => ERet true end))))).    (* :156 *)
(** memfault_serializer_helper.c:99-106 *)
Definition e_metadata (env : senv) (type : Z) : eprog := e_metadata_with_time env type (en_time env).

(** memfault_serializer_helper.c:161-191 *)
Definition e_trace (env : senv) (reason_key reason pc lr extra : Z) : eprog :=
  let n := u32 (1 + (if pc =? 0 then 0 else 1) + (if lr =? 0 then 0 else 1) + extra) in (* :167 *)
  e_and (e_metadata env 2)                                                            (* :163 *)
  (e_and (e_all [OpUnsigned 4; OpDict n])                                             (* :170 *)
  (e_and (e_u32 reason_key reason)                                                    (* :175 *)
  (e_and (if pc =? 0 then ERet true else e_u32 2 pc)                                  (* :180 *)
         (if lr =? 0 then ERet true else e_u32 3 lr)))).                              (* :185 *)

(** ** Storing an event *)
Record sh := mk_sh { sh_es : es; sh_drops : Z; sh_last : Z }.

(** memfault_serializer_helper.c:197-202 for every call the encoder makes to its writer (the
    results of append are ignored, :201; they come back to nobody, so the appends are modelled
    after the callback instead of during it). *)
Fixpoint sh_appends (s : es) (ws : list (list Z)) : option es :=
  match ws with
  | [] => Some s
  | d :: r => do x <- es_append s d; sh_appends (snd x) r
  end.

(** memfault_serializer_helper.c:204-232 *)
Definition sh_encode (s : sh) (p : eprog) : option (bool * sh) :=
  do x <- es_begin (sh_es s);                                                         (* :207 *)
  let (space, st) := x in
  let (ok, e) := eprog_run (cbor_init space) p in                                     (* :213-214 *)
  do st <- sh_appends st (map snd (ce_writes e));
  do st <- es_finish st (negb ok);                                                    (* :217-218 *)
  Some (ok, if negb ok then mk_sh st (u32 (sh_drops s + 1)) (sh_last s)               (* :220-224 *)
            else if sh_drops s =? 0 then mk_sh st (sh_drops s) (sh_last s)
            else mk_sh st 0 (u32 (sh_last s + sh_drops s))).                          (* :225-229 *)

(** memfault_serializer_helper.c:234-239 *)
Definition sh_read_drops (s : sh) : Z * sh := (u32 (sh_last s + sh_drops s), mk_sh (sh_es s) 0 0).

(** memfault_serializer_helper.c:241-247 *)
Definition sh_compute_size (p : eprog) : Z := cbor_deinit (snd (eprog_run cbor_size_only_init p)).
(** memfault_serializer_helper.c:249-262 *)
Definition sh_check_size (storage_size : Z) (p : eprog) : bool := negb (storage_size <? sh_compute_size p).

(** Histories: serializers, drop counter reads and direct storage calls. *)
Inductive sh_op := SEncode (p : eprog) | SReadDrops | SStore (o : es_op).
Inductive sh_res := RSaved (b : bool) | RDrops (n : Z) | RStore (r : es_res).
Definition sh_step (cfg : es_cfg) (s : sh) (o : sh_op) : option (sh_res * sh) :=
  match o with
  | SEncode p => do x <- sh_encode s p; let (b, s) := x in Some (RSaved b, s)
  | SReadDrops => let (n, s) := sh_read_drops s in Some (RDrops n, s)
  | SStore o => do x <- es_step cfg (sh_es s) o; let (r, st) := x in Some (RStore r, mk_sh st (sh_drops s) (sh_last s))
  end.
Fixpoint sh_run (cfg : es_cfg) (s : sh) (ops : list sh_op) : option (list sh_res * sh) :=
  match ops with
  | [] => Some ([], s)
  | o :: r => do x <- sh_step cfg s o; let (res, s) := x in
              do y <- sh_run cfg s r; let (rs, s) := y in Some (res :: rs, s)
  end.

(** memfault_reboot_tracking_serializer.c:25-48; info of a reset: reason, pc, lr, reg0,
    coredump_saved (a C bool, encoded 0 or 1). *)
Record reset_info := mk_ri { ri_reason : Z; ri_pc : Z; ri_lr : Z; ri_reg0 : Z; ri_coredump : Z }.
Definition e_reboot (env : senv) (i : reset_info) : eprog :=
  e_and (e_trace env 1 (ri_reason i) (ri_pc i) (ri_lr i) (1 + (if ri_reg0 i =? 0 then 0 else 1)))
  (e_and (if ri_reg0 i =? 0 then ERet true else e_u32 4 (ri_reg0 i))
         (e_u32 5 (ri_coredump i))).
(** memfault_reboot_tracking_serializer.c:55-67; kMfltRebootReason_HardFault = 0x9400 (reboot_reason_types.h) *)
Definition worst_reset : reset_info := mk_ri 37888 4294967295 4294967295 4294967295 1.
Definition reboot_worst_size (env : senv) : Z := sh_compute_size (e_reboot env worst_reset).
