(** What reboot tracking promises, written from include/memfault/core/reboot_tracking.h.

    What is remembered: the first reason recorded since the last was consumed with the registers
    recorded with it, whether a coredump was saved, the last reset register, the crashes since the
    count was cleared (as a number that never wraps), and which sessions are active. *)
From Verif Require Import Base EventStorage EventStorageSpec SerializerHelper SerializerHelperSpec Reboot.

Record known := mk_known {
  k_first : option Z; k_pc : Z; k_lr : Z; k_cd : bool; k_reg : Z; k_crashes : Z; k_active : Z -> bool }.
Definition nothing : known := mk_known None 0 0 false 0 0 (fun _ => false).
(** Memory without the magic value is empty; reason 0xffffffff means none recorded. *)
Definition recall (m : rinfo) : known :=
  if i_magic m =? 0x21544252 then
    mk_known (if i_reason m =? 0xffffffff then None else Some (i_reason m)) (i_pc m) (i_lr m) (i_saved m =? 1)
             (i_reg0 m) (i_crashes m) (fun i => Z.testbit (i_sessions m) i)
  else nothing.

(** [r_up]: tracking is initialized; [r_boot]: the reason of this boot as last recorded, and the one
    in effect. *)
Record rview := mk_rv { r_up : bool; r_k : known; r_boot : option (Z * Z) }.
Definition start (m : rinfo) : rview := mk_rv false (recall m) None.

(** Unknown and error reasons are crashes. *)
Definition crash (r : Z) : bool := (r =? 0) || (32768 <=? r).
Definition or_first (k : known) (r : Z) : Z := match k_first k with Some f => f | None => r end.
Definition note (k : known) (r : Z) (reg : option (Z * Z)) : known :=
  match k_first k with
  | Some _ => k
  | None => let '(pc, lr) := match reg with Some x => x | None => (k_pc k, k_lr k) end in
            mk_known (Some r) pc lr (k_cd k) (k_reg k) (k_crashes k) (k_active k)
  end.
Definition consumed (k : known) : known := mk_known None 0 0 false 0 (k_crashes k) (k_active k).
Definition with_crashes (k : known) (n : Z) : known := mk_known (k_first k) (k_pc k) (k_lr k) (k_cd k) (k_reg k) n (k_active k).
Definition with_active (k : known) (f : Z -> bool) : known := mk_known (k_first k) (k_pc k) (k_lr k) (k_cd k) (k_reg k) (k_crashes k) f.
Definition with_reg (k : known) (r : Z) : known := mk_known (k_first k) (k_pc k) (k_lr k) (k_cd k) r (k_crashes k) (k_active k).
Definition with_cd (k : known) : known := mk_known (k_first k) (k_pc k) (k_lr k) true (k_reg k) (k_crashes k) (k_active k).

Definition boot (v : rview) (load : option rinfo) (info : option (Z * Z)) : rview :=
  let k := match load with Some m => recall m | None => r_k v end in
  let reason := match info with Some (r, _) => r | None => 0 end in
  let k := match info with Some (_, reg) => with_reg k reg | None => k end in
  let f := or_first k reason in
  let k := note k reason None in
  mk_rv true (if crash f then with_crashes k (k_crashes k + 1) else k) (Some (reason, f)).

Definition upd (v : rview) (k : known) : rview := mk_rv (r_up v) k (r_boot v).
Definition info_of (k : known) : option reset_info :=
  match k_first k with
  | Some r => Some (mk_ri r (k_pc k) (k_lr k) (k_reg k) (if k_cd k then 1 else 0))
  | None => None
  end.
(** [None]: a session number of 31 or more. *)
Definition rv_step (v : rview) (o : rt_op) : option (rt_res * rview) :=
  let k := r_k v in
  let when_up (k : known) := if r_up v then upd v k else v in
  match o with
  | TReset mem => Some (TOk, mk_rv false (match mem with Some m => recall m | None => k end) None)
  | TBoot addr load info => Some (TOk, if addr then boot v load info else mk_rv false k (r_boot v))
  | TMark r reg => Some (TOk, if r_up v then mk_rv true (note k r reg) (Some (r, or_first k r)) else v)
  | TSaved => Some (TOk, when_up (with_cd k))
  | TRead => Some (TInfo (if r_up v then info_of k else None), v)
  | TClear => Some (TOk, when_up (consumed k))
  | TCount => Some (TNum (if r_up v then k_crashes k mod 256 else 0), v)
  | TResetCount => Some (TOk, when_up (with_crashes k 0))
  | TReason => Some (TReasons (r_boot v), v)
  | TUnexpected => Some (match r_boot v with Some (_, f) => TBool (crash f) | None => TReasons None end, v)
  | TClearReason => Some (TOk, mk_rv (r_up v) k None)
  | TBooted => Some (TBool (r_up v), v)
  | TSession a i =>
      if r_up v then
        if (0 <=? i) && (i <? 31)
        then Some (TOk, upd v (with_active k (fun j => if j =? i then a else k_active k j))) else None
      else Some (TOk, v)
  | TClearSessions => Some (TOk, when_up (with_active k (fun _ => false)))
  | TWasActive i =>
      if r_up v then if (0 <=? i) && (i <? 31) then Some (TBool (k_active k i), v) else None
      else Some (TBool false, v)
  end.
Fixpoint rv_run (v : rview) (ops : list rt_op) : option (list rt_res * rview) :=
  match ops with
  | [] => Some ([], v)
  | o :: r => do x <- rv_step v o; let (res, v) := x in
              do y <- rv_run v r; let (rs, v) := y in Some (res :: rs, v)
  end.

(** The crash count is a byte; reasons are values of the enum (16 bits). *)
Definition rinfo_ok (m : rinfo) : Prop := is_u8 (i_crashes m).
Definition rt_op_ok (o : rt_op) : Prop :=
  match o with
  | TReset (Some m) => rinfo_ok m
  | TBoot _ load info =>
      match load with Some m => rinfo_ok m | None => True end /\
      match info with Some (r, _) => is_u16 r | None => True end
  | TMark r _ => is_u16 r
  | _ => True
  end.

(** ** Collecting *)
(** A pending reason is consumed exactly when its event went into storage. *)
Definition rc_spec (cfg : es_cfg) (cap : Z) (env : senv) (v : rview) (q : ssv) (o : rc_op) : option (rc_res * rview * ssv) :=
  match o with
  | CTrack o => do x <- rv_step v o; let (r, v) := x in Some (RTrack r, v, q)
  | CStore o => do x <- ssv_step cfg cap q o; let (r, q) := x in Some (RSh r, v, q)
  | CCollect =>
      match (if r_up v then info_of (r_k v) else None) with
      | None => Some (RCollect 0, v, q)
      | Some i =>
          do x <- ssv_step cfg cap q (SEncode (e_reboot env i));
          match x with
          | (RSaved true, q) => Some (RCollect 0, upd v (consumed (r_k v)), q)
          | (_, q) => Some (RCollect (-2), v, q)
          end
      end
  end.
Fixpoint rc_spec_run (cfg : es_cfg) (cap : Z) (env : senv) (v : rview) (q : ssv) (ops : list rc_op) : option (list rc_res * rview * ssv) :=
  match ops with
  | [] => Some ([], v, q)
  | o :: r => do x <- rc_spec cfg cap env v q o; let '(res, v, q) := x in
              do y <- rc_spec_run cfg cap env v q r; let '(rs, v, q) := y in Some (res :: rs, v, q)
  end.
Definition rc_op_ok (o : rc_op) : Prop :=
  match o with CTrack o => rt_op_ok o | CStore o => shop_ok o | CCollect => True end.
