(** Call trees: which encoder calls serialize a nested document, and the value meant.  Part of
    the specification of C12 (no code of the SDK is modelled here). *)
From Verif Require Import Base Cbor CborSpec.

Inductive doc :=
| DUnsigned (v : Z) | DSigned (v : Z) | DLong (v : Z) | DDouble (bits : Z) | DNull
| DBytes (b : list Z) | DString (s : list Z)
| DBytesIn (pieces : list (list Z)) | DStringIn (pieces : list (list Z))
| DArray (l : list doc) | DMap (l : list (doc * doc)).

(** The calls a user of the API makes for a document (cbor.h: strings may be given in one call
    or announced and then joined in pieces). *)
Fixpoint doc_ops (d : doc) : list cbor_op :=
  match d with
  | DUnsigned v => [OpUnsigned v]
  | DSigned v => [OpSigned v]
  | DLong v => [OpLong v]
  | DDouble b => [OpDouble b]
  | DNull => [OpNull]
  | DBytes b => [OpBytes b]
  | DString s => [OpString s]
  | DBytesIn p => OpBytesBegin (zlen (concat p)) :: map OpJoin p
  | DStringIn p => OpStringBegin (zlen (concat p)) :: map OpJoin p
  | DArray l => OpArray (zlen l) :: flat_map doc_ops l
  | DMap l => OpDict (zlen l) :: flat_map (fun kv => doc_ops (fst kv) ++ doc_ops (snd kv)) l
  end.

Fixpoint doc_value (d : doc) : item :=
  match d with
  | DUnsigned v | DSigned v | DLong v => IInt v
  | DDouble b => IFloat64 b
  | DNull => INull
  | DBytes b => IBytes b
  | DString s => IText s
  | DBytesIn p => IBytes (concat p)
  | DStringIn p => IText (concat p)
  | DArray l => IArray (map doc_value l)
  | DMap l => IMap (map (fun kv => (doc_value (fst kv), doc_value (snd kv))) l)
  end.

(** Arguments in the range of their C types. *)
Fixpoint doc_ok (d : doc) : Prop :=
  match d with
  | DUnsigned v => is_u32 v
  | DSigned v => is_s32 v
  | DLong v => is_s64 v
  | DDouble b => is_u64 b
  | DNull => True
  | DBytes b | DString b => is_u32 (zlen b)
  | DBytesIn p | DStringIn p => is_u32 (zlen (concat p))
  | DArray l => is_u32 (zlen l) /\ (fix all (l : list doc) := match l with [] => True | x :: r => doc_ok x /\ all r end) l
  | DMap l => is_u32 (zlen l) /\
      (fix all (l : list (doc * doc)) := match l with [] => True | x :: r => (doc_ok (fst x) /\ doc_ok (snd x)) /\ all r end) l
  end.

(** The write callback calls start at [off] and follow each other without gap or overlap. *)
Fixpoint contiguous (off : Z) (ws : list (Z * list Z)) : Prop :=
  match ws with
  | [] => True
  | (o, d) :: r => o = off /\ d <> [] /\ contiguous (off + zlen d) r
  end.

(** Size of the arguments of a call: the data plus at most nine bytes of head. *)
Definition op_data (o : cbor_op) : list Z := match o with OpJoin d | OpBytes d | OpString d => d | _ => [] end.
Definition calls_bound (ops : list cbor_op) : Z := fold_right (fun o a => 9 + zlen (op_data o) + a) 0 ops.
