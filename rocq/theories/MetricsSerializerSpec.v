(** What the event of a session means. *)
From Verif Require Import Base CborSpec SerializerHelper SerializerHelperSpec Metrics MetricsSpec.

Definition m_value (x : mitem) : item :=
  match x with
  | IUnsigned v | ISigned v => IInt v
  | Metrics.INull => ISimple 22
  | Metrics.IText c => CborSpec.IText c
  end.
(** An event of type 1 with the session's number and the values of its metrics in the order of the table. *)
Definition session_item (env : senv) (session : Z) (l : list mitem) : item :=
  event_item env 1 (en_time env) (IMap [(IInt 2, IInt session); (IInt 1, IArray (map m_value l))]).

(** Tables that can be meant: not empty, strings of less than 64 KiB, less than 60000 metrics. *)
Definition table_ok (defs : list mdef) : Prop :=
  defs <> [] /\ zlen defs < 60000 /\ Forall (fun d => 0 <= md_range d < 65536) defs.
Definition no_strings (session : Z) (defs : list mdef) : Prop :=
  Forall (fun d => md_session d = session -> md_type d <> MString) defs.
