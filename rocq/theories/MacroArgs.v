(** Model of the macros that count, check and describe the arguments of a compact log
    (include/memfault/core/preprocessor.h, compact_log_compile_time_checks.h and
    compact_log_helpers.h), as the preprocessor and the compiler work them out.

    Simplified: an argument is its type and its value as a constant expression, if it is one; the text of
    the messages and the printf check are left out; the platform's int has 4 bytes. *)
From Verif Require Import Base.

(** The types an argument may have.  Integers and pointers by their size; char pointers with sign and
    const (those with volatile are other pointers). *)
Inductive csign := CPlain | CSigned | CUnsigned.
Inductive cty := TFloat | TDouble | TLongDouble | TCharPtr (s : csign) (const : bool) | TInt (size : Z) | TPtr (size : Z).
Record carg := mk_carg { c_ty : cty; c_const : option Z }.

(** compact_log_helpers.h:33-36 *)
Definition TO_INT32 : Z := 0.
Definition TO_INT64 : Z := 1.
Definition TO_DOUBLE : Z := 2.
Definition TO_STR : Z := 3.
(** sizeof((arg) + 0): integers are promoted to int, of 4 bytes. *)
Definition size_plus_0 (t : cty) : Z :=
  match t with TInt n => Z.max 4 n | TPtr n => n | _ => 8 end.
(** compact_log_helpers.h:168-180, C: _Generic *)
Definition promo_c (t : cty) : Z :=
  match t with
  | TFloat | TDouble | TLongDouble => TO_DOUBLE
  | TCharPtr _ _ => TO_STR
  | _ => if size_plus_0 t <=? 4 then TO_INT32 else TO_INT64
  end.
(** compact_log_helpers.h:70-122, C++: the default, the one for small types, and those for exactly one type
    (which win) *)
Definition promo_exact (t : cty) : option Z :=
  match t with
  | TFloat | TDouble | TLongDouble => Some TO_DOUBLE
  | TCharPtr CPlain _ | TCharPtr CSigned _ | TCharPtr CUnsigned _ => Some TO_STR
  | _ => None
  end.
Definition promo_cpp (t : cty) : Z :=
  match promo_exact t with Some p => p | None => if size_plus_0 t <=? 4 then TO_INT32 else TO_INT64 end.

(** What a macro is handed: its arguments, in order. *)
Inductive ptok := PDummy | PArg (a : carg) | PNum (n : Z) | PFmt (k : nat).
Definition down_from (n : nat) : list nat := rev (seq 0 (S n)).
(** preprocessor.h:24-32: [count] is the parameter after dummy and 32 others. *)
Definition count_tok (args : list carg) : option ptok :=
  nth_error (PDummy :: map PArg args ++ map (fun k => PNum (Z.of_nat k)) (down_from 32)) 33.
(** compact_log_helpers.h:205-213: [NAME] is the parameter after 16 others. *)
Definition name_tok (args : list carg) : option ptok :=
  nth_error (PDummy :: map PArg args ++ map PFmt (down_from 15)) 16.
(** The value of a constant expression. *)
Definition const_of (t : option ptok) : option Z :=
  match t with Some (PNum n) => Some n | Some (PArg a) => c_const a | _ => None end.

Section Lang.
(** The promotion of C or of C++. *)
Context (promo : cty -> Z).
(** compact_log_helpers.h:215 *)
Definition encode_op (a : carg) (shift : Z) : Z := Z.shiftl (promo (c_ty a)) shift.
(** compact_log_helpers.h:188-203: _MF_FMT_k; [None]: a wrong number of arguments. *)
Fixpoint mf_fmt (k : nat) (args : list carg) : option Z :=
  match k, args with
  | O, [] => Some 0
  | 1%nat, [x] => Some (encode_op x 0)
  | S (S _ as k'), x :: r => do v <- mf_fmt k' r; Some (Z.lor (encode_op x (2 * Z.of_nat k')) v)
  | _, _ => None
  end.
(** compact_log_helpers.h:208-213; [None]: an argument is called like a function. *)
Definition for_each (args : list carg) : option Z :=
  match name_tok args with Some (PFmt k) => mf_fmt k args | _ => None end.
(** compact_log_helpers.h:233-235 *)
Definition log_fmt (args : list carg) : option Z :=
  do v <- for_each args;
  do n <- const_of (count_tok args);
  Some (Z.lor v (Z.shiftl 1 (2 * n))).
(** compact_log_compile_time_checks.h:26 and :40-46; [None]: not a constant expression. *)
Definition check (args : list carg) : option bool := do n <- const_of (count_tok args); Some (n <=? 15).
(** log.h:93-98: a log is compiled when the check holds and the format is a number. *)
Definition compiles (args : list carg) : bool :=
  match check args, log_fmt args with Some true, Some _ => true | _, _ => false end.
End Lang.
