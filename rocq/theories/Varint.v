(** Model of components/util/src/memfault_varint.c *)
From Verif Require Import Base.

(** memfault_varint.c:8-18, the [while] loop of [memfault_encode_varint_u32].
    Returns the bytes written to [buf]; [None] = the loop did not finish in [fuel]
    iterations (excluded by [varint_u32_total]). *)
Fixpoint varint_loop (fuel : nat) (value : Z) : option (list Z) :=
  match fuel with
  | O => None
  | S f =>
      if 128 <=? value                                   (* :12 *)
      then do r <- varint_loop f (Z.shiftr value 7);     (* :14 *)
           Some (Z.lor 128 (Z.land value 127) :: r)      (* :13 *)
      else Some [Z.land value 255]                       (* :16 *)
  end.

(** memfault_varint.c:8-18.  The caller's buffer is the returned list (its length is the
    returned [size_t]). *)
Definition varint_u32 (value : Z) : option (list Z) := varint_loop 6 (u32 value).

(** memfault_varint.c:31: [((uint32_t)value << 1) ^ (uint32_t)(value >> 31)], arithmetic
    right shift of the signed value. *)
Definition zigzag (value : Z) : Z :=
  Z.lxor (u32 (Z.shiftl (u32 value) 1)) (u32 (Z.shiftr value 31)).

(** memfault_varint.c:20-33 *)
Definition varint_si32 (value : Z) : option (list Z) := varint_u32 (zigzag value).
