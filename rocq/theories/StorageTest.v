(** Model of components/panics/src/memfault_coredump_storage_debug.c: the self-test of a port's
    coredump storage.

    The port is a record of functions on a state of any type.  A read is given the bytes of the
    buffer it is to fill and returns the bytes there afterwards (as many).  Log output is left out.
    [None]: a loop that does not end (the storage's size is so large that the 32-bit offset wraps). *)
From Verif Require Import Base.

(** components/include/memfault/panics/platform/coredump.h *)
Record port (S : Type) := mk_port {
  po_size : Z;                                         (* info.size *)
  po_begin : S -> bool * S;                            (* memfault_port_coredump_save_begin() and memfault_platform_coredump_save_begin() *)
  po_erase : Z -> Z -> S -> bool * S;
  po_write : Z -> list Z -> S -> bool * S;
  po_read : Z -> list Z -> S -> bool * list Z * S;
  po_clear : S -> S }.
Arguments po_size {S}. Arguments po_begin {S}. Arguments po_erase {S}. Arguments po_write {S}.
Arguments po_read {S}. Arguments po_clear {S}.

(** memfault_coredump_storage_debug.c:34-47 *)
Inductive st_op := TPrepare | TErase | TWrite | TClear | TGetInfo.
Inductive st_res := RSuccess | RApiFail | RReadFailed | RCompareFailed.
(** memfault_coredump_storage_debug.c:49-57; zero-initialised; expected_buf is only logged *)
Record st_result := mk_str { sr_op : st_op; sr_res : st_res; sr_off : Z; sr_size : Z }.
Definition str_init : st_result := mk_str TPrepare RSuccess 0 0.

(** memfault_coredump_storage_debug.c:79-84 *)
Definition st_erased (b : Z) : bool := (b =? 0x00) || (b =? 0xff).
(** memfault_coredump_storage_debug.c:139-144 *)
Definition st_pattern1 : list Z := [0xa0; 0xa1; 0xa2; 0xa3; 0xa4; 0xa5; 0xa6; 0xa7; 0xa8; 0xa9; 0xaa; 0xab].
Definition st_pattern2 : list Z := [0x5f; 0x5e; 0x5d; 0x5c; 0x5b; 0x5a; 0x59].
(** patterns[num_writes % 2] cut to the room left (:164-169, :191-196) *)
Definition st_piece (num size off : Z) : list Z :=
  let p := if num mod 2 =? 0 then st_pattern1 else st_pattern2 in
  take (Z.min (zlen p) (size - off)) p.

Section P.
Context {S : Type} (p : port S).

(** :121-128: index of the first byte that is not erased *)
Fixpoint st_find (j : Z) (l : list Z) : option Z :=
  match l with [] => None | b :: l => if st_erased b then st_find (j + 1) l else Some j end.

(** memfault_coredump_storage_debug.c:111-129 *)
Fixpoint st_check_erased (n : nat) (i : Z) (s : S) {struct n} : option (option st_result * S) :=
  if po_size p <=? i then Some (None, s)
  else match n with
  | O => None
  | Datatypes.S n =>
      let k := Z.min 16 (po_size p - i) in
      let '(ok, b, s) := po_read p i (fill k 0xef) s in
      if negb ok then Some (Some (mk_str TErase RReadFailed i k), s)
      else match st_find 0 b with
           | Some j => Some (Some (mk_str TErase RCompareFailed (j + i) 1), s)
           | None => st_check_erased n (u32 (i + 16)) s
           end
  end.

(** memfault_coredump_storage_debug.c:161-177 *)
Fixpoint st_write_all (n : nat) (off num : Z) (s : S) {struct n} : option (option st_result * Z * S) :=
  if po_size p <=? off then Some (None, off, s)
  else match n with
  | O => None
  | Datatypes.S n =>
      let d := st_piece num (po_size p) off in
      let (ok, s) := po_write p off d s in
      if negb ok then Some (Some (mk_str TWrite RApiFail off (zlen d)), off, s)
      else st_write_all n (u32 (off + zlen d)) (u32 (num + 1)) s
  end.

(** memfault_coredump_storage_debug.c:187-213 *)
Fixpoint st_read_all (n : nat) (off num : Z) (s : S) {struct n} : option (option st_result * S) :=
  if po_size p <=? off then Some (None, s)
  else match n with
  | O => None
  | Datatypes.S n =>
      let d := st_piece num (po_size p) off in
      let '(ok, b, s) := po_read p off (fill (zlen d) 0xef) s in
      if negb ok then Some (Some (mk_str TWrite RReadFailed off (zlen d)), s)
      else if negb (if list_eq_dec Z.eq_dec b d then true else false)
           then Some (Some (mk_str TWrite RCompareFailed off (zlen d)), s)
           else st_read_all n (u32 (off + zlen d)) (u32 (num + 1)) s
  end.

Definition st_fail (r : st_result) (s : S) : option (bool * st_result * S) := Some (false, r, s).

(** memfault_coredump_storage_debug.c:86-219; the result is s_test_result afterwards *)
Definition st_begin (s : S) : option (bool * st_result * S) :=
  let size := po_size p in
  if size =? 0 then st_fail (mk_str TGetInfo RApiFail 0 size) s
  else
    let (ok, s) := po_begin p s in
    if negb ok then st_fail (mk_str TPrepare RApiFail 0 size) s
    else
      let (ok, s) := po_erase p 0 size s in
      if negb ok then st_fail (mk_str TErase RApiFail 0 size) s
      else
        do c <- st_check_erased (Z.to_nat size) 0 s;
        let (r, s) := (c : option st_result * S) in
        match r with
        | Some r => st_fail r s
        | None =>
            do w <- st_write_all (Z.to_nat size) 12 1 s;
            let '(r, off, s) := (w : option st_result * Z * S) in
            match r with
            | Some r => st_fail r s
            | None =>
                let (ok, s) := po_write p 0 st_pattern1 s in
                if negb ok then st_fail (mk_str TWrite RApiFail off 12) s
                else
                  do c <- st_read_all (Z.to_nat size) 0 0 s;
                  let (r, s) := (c : option st_result * S) in
                  match r with
                  | Some r => st_fail r s
                  | None => Some (true, mk_str TPrepare RSuccess 0 0, s)
                  end
            end
        end.

(** memfault_coredump_storage_debug.c:221-242, memfault_coredump.c:580-582 *)
Definition st_verify_clear (t : st_result) (s : S) : bool * st_result * S :=
  let s := po_clear p s in
  let '(ok, b, s) := po_read p 0 [0xef] s in
  if negb ok then (false, mk_str TClear RReadFailed 0 1, s)
  else match b with
       | x :: _ => if st_erased x then (true, t, s) else (false, mk_str TClear RCompareFailed 0 1, s)
       | [] => (false, mk_str TClear RCompareFailed 0 1, s)
       end.

(** memfault_coredump_storage_debug.c:262-267, without the log *)
Definition st_finish (t : st_result) (s : S) : bool * st_result * S :=
  match sr_res t with
  | RSuccess => st_verify_clear t s
  | _ => (false, t, s)
  end.
End P.
