(** Independent specification of base-128 varints and zig-zag (protobuf encoding spec,
    referred to by components/include/memfault/util/varint.h). *)
From Verif Require Import Base.

(** Base-128 reader: low groups first, high bit set on all but the last byte.  Returns the
    value and the unread remainder. *)
Fixpoint leb_read (l : list Z) : option (Z * list Z) :=
  match l with
  | [] => None
  | b :: r =>
      if b <? 128 then Some (b, r)
      else match leb_read r with
           | Some (v, r') => Some (b - 128 + 128 * v, r')
           | None => None
           end
  end.

(** Zig-zag decoding: even numbers are non-negative, odd numbers negative. *)
Definition unzigzag (u : Z) : Z := if Z.even u then u / 2 else - ((u + 1) / 2).
