(** What the event of test_trace says: the argument, or how many words there were. *)
From Coq Require Import String.
From Verif Require Import Base CborSpec SerializerHelper SerializerHelperSpec TraceEvent TraceEventSpec.
Open Scope string_scope. Open Scope list_scope. Open Scope Z_scope.

Definition argument (argv : list (list Z)) : option (list Z) := match argv with _ :: a :: _ => Some a | _ => None end.
Definition test_trace_item (cfg : tcfg) (env : senv) (reason pc lr id_n id_s : Z) (argv : list (list Z)) : item :=
  let offset id := IInt ((id - tc_start cfg) mod 4294967296) in
  match argument argv, tc_compact cfg with
  | Some a, true => trace_item env reason 0 lr None [(IInt 9, IArray [offset id_s; IText a])]
  | Some a, false => trace_item env reason pc lr None [(IInt 8, IBytes (take (tc_max cfg - 1) a))]
  | None, true => trace_item env reason 0 lr None [(IInt 9, IArray [offset id_n; IInt (match argv with [] => 0 | _ => 1 end)])]
  | None, false => trace_item env reason pc lr None
      [(IInt 8, IBytes (take (tc_max cfg - 1) (str (match argv with [] => "Example Trace Event. Num Args 0" | _ => "Example Trace Event. Num Args 1" end))))]
  end.
(** A compact log has room for its array, offset (5 bytes), the string's length (3) and the string. *)
Definition room (cfg : tcfg) (argv : list (list Z)) : Prop :=
  tc_compact cfg = true -> 9 + zlen (match argument argv with Some a => a | None => [] end) <= tc_max cfg.
