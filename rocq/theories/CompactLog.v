(** Model of components/core/src/memfault_compact_log_serializer.c and of the format macro of
    include/memfault/core/compact_log_helpers.h.  [None]: undefined behaviour (count of leading zeros
    of 0, an argument read with another type than it has, more arguments read than passed). *)
From Coq Require Import String.
From Verif Require Import Base Cbor SerializerHelper.

(** compact_log_helpers.h:33-36 and the promotion rules :95-170; a 64-bit integer is read as unsigned
    and cast back (memfault_compact_log_serializer.c:66-69), which gives the signed value; a double is
    its bits; a string may be NULL. *)
Inductive larg := AInt (v : Z) | ALong (v : Z) | ADouble (bits : Z) | AStr (s : option (list Z)).
Definition arg_type (a : larg) : Z := match a with AInt _ => 0 | ALong _ => 1 | ADouble _ => 2 | AStr _ => 3 end.

(** compact_log_helpers.h:185-230 *)
Fixpoint fmt_bits (args : list larg) : Z :=
  match args with [] => 0 | a :: r => Z.lor (Z.shiftl (arg_type a) (2 * zlen r)) (fmt_bits r) end.
Definition compressed_fmt (args : list larg) : Z := Z.lor (fmt_bits args) (Z.shiftl 1 (2 * zlen args)).

(** MEMFAULT_CLZ: leading zeros of a 32-bit value other than 0. *)
Definition clz32 (v : Z) : Z := 31 - Z.log2 v.

(** memfault_compact_log_serializer.c:54-107, the loop from argument [i] of [n] on. *)
Fixpoint compact_loop (k : nat) (fmt n i : Z) (args : list larg) : option eprog :=
  match k with
  | O => Some (ERet true)
  | S k =>
      let type := Z.land (Z.shiftr fmt ((n - i - 1) * 2)) 3 in                         (* :58 *)
      match args with
      | [] => None
      | a :: r =>
          do rest <- compact_loop k fmt n (i + 1) r;
          match a with
          | AInt v => if type =? 0 then Some (e_and (e_all [OpSigned v]) rest) else None             (* :63-67 *)
          | ALong v => if type =? 1 then Some (e_and (e_all [OpArray 1; OpLong v]) rest) else None   (* :69-76 *)
          | ADouble b => if type =? 2 then Some (e_and (e_all [OpDouble b]) rest) else None          (* :78-103 *)
          | AStr s => if type =? 3 then Some (e_and (e_all [OpString (match s with Some s => s | None => str "(null)" end)]) rest)
                      else None                                                        (* :105-109 *)
          end
      end
  end.
(** memfault_compact_log_serializer.c:32-121; [start] is the address of __start_log_fmt. *)
Definition compact_serialize (start log_id fmt : Z) (args : list larg) : option eprog :=
  if fmt =? 0 then None
  else
    let n := (31 - clz32 fmt) / 2 in                                                   (* :37 *)
    do body <- compact_loop (Z.to_nat n) fmt n 0 args;
    Some (e_and (e_all [OpArray (u32 (1 + n)); OpUnsigned (u32 (log_id - start))]) body).   (* :39-51 *)
