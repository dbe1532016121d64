(** What the GDB script shall get from the target. *)
From Coq Require Import String.
From Verif Require Import Base GdbCoredumpSpec.
Open Scope string_scope.
Open Scope list_scope.
Open Scope Z_scope.

(** Bytes in hexadecimal, as GDB servers send them. *)
Definition hex_digit (v : Z) : Z := if v <? 10 then 48 + v else 87 + v.
Definition hex (l : list Z) : list Z := flat_map (fun b => [hex_digit (b / 16); hex_digit (b mod 16)]) l.
(** A Cortex-M with an MPU: a register selects the region the two others show. *)
Record mpu_dev := mk_dev { d_cpuid : Z; d_type : Z; d_ctrl : Z; d_rnr : Z; d_rbar : Z -> Z; d_rasr : Z -> Z }.
Definition dev_read (d : mpu_dev) (a : Z) : option Z :=
  if a =? 0xE000ED00 then Some (d_cpuid d) else if a =? 0xE000ED90 then Some (d_type d) else if a =? 0xE000ED94 then Some (d_ctrl d)
  else if a =? 0xE000ED98 then Some (d_rnr d) else if a =? 0xE000ED9C then Some (d_rbar d (d_rnr d)) else if a =? 0xE000EDA0 then Some (d_rasr d (d_rnr d)) else None.
Definition select (d : mpu_dev) (i : Z) : mpu_dev := mk_dev (d_cpuid d) (d_type d) (d_ctrl d) i (d_rbar d) (d_rasr d).
Definition dev_write (d : mpu_dev) (a v : Z) : option mpu_dev := if a =? 0xE000ED98 then Some (select d v) else None.
Definition regions (d : mpu_dev) : Z := d_type d / 256 mod 256.
Definition dev_ok (d : mpu_dev) : Prop :=
  is_u32 (d_cpuid d) /\ is_u32 (d_type d) /\ is_u32 (d_ctrl d) /\ forall i, is_u32 (d_rbar d i) /\ is_u32 (d_rasr d i).
Definition cortex (d : mpu_dev) (part : Z) : Prop := d_cpuid d / 16 mod 4096 = part.
(** The calls up to and with the first whose post is not accepted (202). *)
Fixpoint until_refused {A} (status : A -> Z) (l : list A) : list A :=
  match l with [] => [] | x :: l => if status x =? 202 then x :: until_refused status l else [x] end.
(** Yes, in some way people say it. *)
Definition says_yes (a : list Z) : Prop :=
  In a [str "y"; str "Y"; str "yes"; str "Yes"; str "YES"].
