(** Model of components/metrics/src/memfault_metrics_serializer.c: the event of a session (the heartbeat
    is the last session, ids_impl.h:111-124; 0 when there is no other), over the metrics of Metrics.v and the encoder calls of SerializerHelper.v. *)
From Verif Require Import Base Cbor SerializerHelper Metrics.

(** sMemfaultMetricInfo as the iterator hands it out (memfault_metrics.c:1179-1195 and the iterator
    :677-699): session, type and what there is to write. *)
Definition mentry : Type := (Z * mtype * mitem)%type.
Fixpoint me_entries_from (defs : list mdef) (s : mstate) (n : nat) (idx : Z) {struct n} : option (list mentry) :=
  match n with
  | O => Some []
  | S n => do f <- me_find defs s idx;
           match f with
           | None => None
           | Some i => do x <- me_item s i;
                       do r <- me_entries_from defs s n (idx + 1);
                       Some ((md_session (mi_def i), md_type (mi_def i), x) :: r)
           end
  end.
Definition me_entries (defs : list mdef) (s : mstate) : option (list mentry) :=
  me_entries_from defs s (length defs) 0.

(** memfault_metrics.c:1214-1230 *)
Fixpoint num_metrics (session : Z) (l : list mentry) : Z :=
  match l with [] => 0 | (k, _, _) :: r => (if k =? session then 1 else 0) + num_metrics session r end.

(** memfault_metrics_serializer.c:36-55, :68-83: the value written; for the worst case the largest
    numbers, but the string as it is. *)
Definition w_item (worst : bool) (t : mtype) (x : mitem) : mitem :=
  if worst then match t with
                | MTimer | MUnsigned => IUnsigned 4294967295
                | MSigned => ISigned (-2147483648)
                | MString => x
                end
  else x.
Definition item_op (x : mitem) : cbor_op :=
  match x with IUnsigned v => OpUnsigned v | ISigned v => OpSigned v | INull => OpNull | IText c => OpString c end.

(** memfault_metrics_serializer.c:57-91 called by the iterator, which stops at the first [false]
    (memfault_metrics.c:1204); [ok]: state->encode_success. *)
Fixpoint e_writers (session : Z) (worst ok : bool) (l : list mentry) : eprog :=
  match l with
  | [] => ERet ok
  | (k, t, x) :: r =>
      if k =? session then ECall (item_op (w_item worst t x)) (fun b => if b then e_writers session worst true r else ERet false)
      else e_writers session worst true r                                 (* :62-65 *)
  end.
(** memfault_metrics_serializer.c:93-117; keys of serializer_key_ids.h:14-46.  encode_success is false
    at first (:125, :161). *)
Definition e_session (env : senv) (worst : bool) (session : Z) (l : list mentry) : eprog :=
  e_and (e_metadata env 1)                                                (* :97 *)
  (e_and (e_all [OpUnsigned 4; OpDict 2; OpUnsigned 2; OpUnsigned session; OpUnsigned 1; OpArray (num_metrics session l)])
         (e_writers session worst false l)).                              (* :112 *)
(** memfault_metrics_serializer.c:124-136 *)
Definition session_worst_size (env : senv) (session : Z) (l : list mentry) : Z := sh_compute_size (e_session env true session l).
