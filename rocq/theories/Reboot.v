(** Model of components/core/src/memfault_ram_reboot_info_tracking.c and of
    memfault_reboot_tracking_collect_reset_info (memfault_reboot_tracking_serializer.c:69-107).
    The reboot reason enum is a 32-bit unsigned integer.  [None]: undefined behaviour (a shift by too
    much). *)
From Verif Require Import Base EventStorage SerializerHelper.

Definition magic : Z := 0x21544252.                              (* :25 *)
Definition not_set : Z := 0xffffffff.                            (* :38 *)

(** memfault_reboot_tracking_private.h:20-46: the retained memory, by its fields (the reserved ones
    are left out; the layout is not modelled). *)
Record rinfo := mk_rin {
  i_magic : Z; i_version : Z; i_crashes : Z; i_saved : Z; i_reason : Z; i_pc : Z; i_lr : Z;
  i_reg0 : Z; i_sessions : Z }.
(** [rt_ptr]: s_mflt_reboot_info is not NULL.  [rt_data]: s_reboot_reason_data when valid (reason of
    this boot, prior stored reason). *)
Record rt := mk_rt { rt_ptr : bool; rt_mem : rinfo; rt_data : option (Z * Z) }.

Definition set_mem (s : rt) (m : rinfo) : rt := mk_rt (rt_ptr s) m (rt_data s).
(** memfault_ram_reboot_info_tracking.c:75-79 *)
Definition fresh : rinfo := mk_rin magic 2 0 0 not_set 0 0 0 0.
(** memfault_ram_reboot_info_tracking.c:65-81 *)
Definition check_or_init (s : rt) : option rt :=
  if negb (rt_ptr s) then None
  else if i_magic (rt_mem s) =? magic then Some s else Some (set_mem s fresh).

(** memfault_ram_reboot_info_tracking.c:83-100 *)
Definition read_info (m : rinfo) : option reset_info :=
  if (i_reason m =? not_set) && (i_reg0 m =? 0) then None
  else Some (mk_ri (i_reason m) (i_pc m) (i_lr m) (i_reg0 m) (if i_saved m =? 1 then 1 else 0)).

(** memfault_ram_reboot_info_tracking.c:142-164 with :109-121 *)
Definition record_event (s : rt) (reason : Z) (reg : option (Z * Z)) : rt :=
  let m := rt_mem s in
  let data := Some (reason, if i_reason m =? not_set then reason else i_reason m) in
  if negb (i_reason m =? not_set) then mk_rt (rt_ptr s) m data
  else match reg with
       | None => mk_rt (rt_ptr s) (mk_rin (i_magic m) (i_version m) (i_crashes m) (i_saved m) reason (i_pc m) (i_lr m) (i_reg0 m) (i_sessions m)) data
       | Some (pc, lr) => mk_rt (rt_ptr s) (mk_rin (i_magic m) (i_version m) (i_crashes m) (i_saved m) reason pc lr (i_reg0 m) (i_sessions m)) data
       end.
(** memfault_ram_reboot_info_tracking.c:123-140 *)
Definition unexpected (d : Z * Z) : bool :=
  let (reg, prior) := d in
  let r := if prior =? not_set then reg else prior in
  (r =? 0) || (0x8000 <=? r).

(** memfault_ram_reboot_info_tracking.c:173-197; [load]: what memfault_reboot_tracking_load
    puts in the memory, if anything; [info]: bootup_info (reason, register). *)
Definition rt_boot (s : rt) (addr : bool) (load : option rinfo) (info : option (Z * Z)) : rt :=
  let s := mk_rt addr (rt_mem s) (rt_data s) in
  if negb addr then s
  else
    let s := match load with Some m => set_mem s m | None => s end in
    match check_or_init s with
    | None => s
    | Some s =>
        let m := rt_mem s in
        let '(reason, m) := match info with
          | None => (0, m)
          | Some (reason, reg) =>
              (reason, mk_rin (i_magic m) (i_version m) (i_crashes m) (i_saved m) (i_reason m) (i_pc m) (i_lr m) reg (i_sessions m))
          end in
        let s := record_event (set_mem s m) reason None in
        match rt_data s with
        | Some d => if unexpected d then
                      let m := rt_mem s in
                      set_mem s (mk_rin (i_magic m) (i_version m) (u8 (i_crashes m + 1)) (i_saved m) (i_reason m) (i_pc m) (i_lr m) (i_reg0 m) (i_sessions m))
                    else s
        | None => s
        end
    end.

Inductive rt_op :=
| TReset (mem : option rinfo)          (* the device resets; [Some m]: the memory was not retained and now is [m] *)
| TBoot (addr : bool) (load : option rinfo) (info : option (Z * Z))
| TMark (reason : Z) (reg : option (Z * Z)) | TSaved | TRead | TClear | TCount | TResetCount
| TReason | TUnexpected | TClearReason | TBooted
| TSession (active : bool) (i : Z) | TClearSessions | TWasActive (i : Z).
Inductive rt_res := TOk | TInfo (i : option reset_info) | TNum (n : Z) | TBool (b : bool) | TReasons (d : option (Z * Z)).

(** memfault_ram_reboot_info_tracking.c:199-317.  Results: -1 of get_reboot_reason and
    get_unexpected_reboot_occurred is [TReasons None]; the pointers passed to them are not NULL. *)
Definition rt_step (s : rt) (o : rt_op) : option (rt_res * rt) :=
  match o with
  | TReset mem => Some (TOk, mk_rt false (match mem with Some m => m | None => rt_mem s end) None)
  | TBoot addr load info => Some (TOk, rt_boot s addr load info)
  | TMark reason reg =>
      match check_or_init s with None => Some (TOk, s) | Some s => Some (TOk, record_event s reason reg) end
  | TSaved =>
      match check_or_init s with
      | None => Some (TOk, s)
      | Some s => let m := rt_mem s in
          Some (TOk, set_mem s (mk_rin (i_magic m) (i_version m) (i_crashes m) 1 (i_reason m) (i_pc m) (i_lr m) (i_reg0 m) (i_sessions m)))
      end
  | TRead =>
      match check_or_init s with None => Some (TInfo None, s) | Some s => Some (TInfo (read_info (rt_mem s)), s) end
  | TClear =>
      match check_or_init s with
      | None => Some (TOk, s)
      | Some s => let m := rt_mem s in
          Some (TOk, set_mem s (mk_rin (i_magic m) (i_version m) (i_crashes m) 0 not_set 0 0 0 (i_sessions m)))
      end
  | TCount => match check_or_init s with None => Some (TNum 0, s) | Some s => Some (TNum (i_crashes (rt_mem s)), s) end
  | TResetCount =>
      match check_or_init s with
      | None => Some (TOk, s)
      | Some s => let m := rt_mem s in
          Some (TOk, set_mem s (mk_rin (i_magic m) (i_version m) 0 (i_saved m) (i_reason m) (i_pc m) (i_lr m) (i_reg0 m) (i_sessions m)))
      end
  | TReason => Some (TReasons (rt_data s), s)
  | TUnexpected => Some (match rt_data s with Some d => TBool (unexpected d) | None => TReasons None end, s)
  | TClearReason => Some (TOk, mk_rt (rt_ptr s) (rt_mem s) None)
  | TBooted => Some (TBool (rt_ptr s && (i_magic (rt_mem s) =? magic)), s)
  | TSession active i =>
      match check_or_init s with
      | None => Some (TOk, s)
      | Some s =>
          if (0 <=? i) && (i <? 31) then
            let m := rt_mem s in
            let v := if active then Z.lor (i_sessions m) (2 ^ i) else Z.land (i_sessions m) (u32 (- 2 ^ i - 1)) in
            Some (TOk, set_mem s (mk_rin (i_magic m) (i_version m) (i_crashes m) (i_saved m) (i_reason m) (i_pc m) (i_lr m) (i_reg0 m) v))
          else None
      end
  | TClearSessions =>
      match check_or_init s with
      | None => Some (TOk, s)
      | Some s => let m := rt_mem s in
          Some (TOk, set_mem s (mk_rin (i_magic m) (i_version m) (i_crashes m) (i_saved m) (i_reason m) (i_pc m) (i_lr m) (i_reg0 m) 0))
      end
  | TWasActive i =>
      match check_or_init s with
      | None => Some (TBool false, s)
      | Some s => if (0 <=? i) && (i <? 31)
                  then Some (TBool (negb (Z.land (i_sessions (rt_mem s)) (2 ^ i) =? 0)), s) else None
      end
  end.
Fixpoint rt_run (s : rt) (ops : list rt_op) : option (list rt_res * rt) :=
  match ops with
  | [] => Some ([], s)
  | o :: r => do x <- rt_step s o; let (res, s) := x in
              do y <- rt_run s r; let (rs, s) := y in Some (res :: rs, s)
  end.

(** ** Collecting the reset info into event storage *)
(** memfault_reboot_tracking_serializer.c:69-107, impl not NULL; the size check only logs. *)
Definition rt_collect (env : senv) (s : rt) (st : sh) : option (Z * rt * sh) :=
  do x <- rt_step s TRead;
  match x with
  | (TInfo (Some i), s) =>
      do y <- sh_encode st (e_reboot env i);
      let (ok, st) := y in
      if negb ok then Some (-2, s, st)
      else do z <- rt_step s TClear; let (_, s) := z in Some (0, s, st)
  | (_, s) => Some (0, s, st)
  end.
Inductive rc_op := CTrack (o : rt_op) | CStore (o : sh_op) | CCollect.
Inductive rc_res := RTrack (r : rt_res) | RSh (r : sh_res) | RCollect (z : Z).
Definition rc_step (cfg : es_cfg) (env : senv) (s : rt) (st : sh) (o : rc_op) : option (rc_res * rt * sh) :=
  match o with
  | CTrack o => do x <- rt_step s o; let (r, s) := x in Some (RTrack r, s, st)
  | CStore o => do x <- sh_step cfg st o; let (r, st) := x in Some (RSh r, s, st)
  | CCollect => do x <- rt_collect env s st; let '(z, s, st) := x in Some (RCollect z, s, st)
  end.
Fixpoint rc_run (cfg : es_cfg) (env : senv) (s : rt) (st : sh) (ops : list rc_op) : option (list rc_res * rt * sh) :=
  match ops with
  | [] => Some ([], s, st)
  | o :: r => do x <- rc_step cfg env s st o; let '(res, s, st) := x in
              do y <- rc_run cfg env s st r; let '(rs, s, st) := y in Some (res :: rs, s, st)
  end.
