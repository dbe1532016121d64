(** Specification of the CMSIS-Pack. *)
From Coq Require Import String.
From Verif Require Import Base EclipsePatch EclipsePatchSpec CmsisPack.
Open Scope string_scope.
Open Scope list_scope.
Open Scope Z_scope.

Definition quiet (n : list Z) : Prop := name_ok n /\ ~ In 34 n.
Definition penv_ok (e : penv) : Prop :=
  Forall literal (p_sdk e) /\ Forall literal (p_comps e) /\ Forall name_ok (p_comps e) /\ Forall (Forall quiet) (p_fs e) /\
  match p_port e with None => True | Some port => Forall literal port end.
(** The directories asked for; whether only files of directories in them *)
Definition asked (e : penv) : list (bool * list (list Z)) :=
  map (fun c => (true, p_sdk e ++ [str "components"; c])) (p_comps e) ++
  match p_port e with
  | None => []
  | Some port => (false, p_sdk e ++ str "ports" :: port) ::
                 (if path_dec port [str "dialog"; str "da1469x"] then [(true, p_sdk e ++ [str "ports"; str "freertos"])] else [])
  end.
(** The name of a file from the directory of the SDK *)
Definition named (sdk f : list (list Z)) (n : list Z) : Prop := exists r, f = sdk ++ r /\ 47 :: n = slashed r.
Definition part_ok (e : penv) (a : bool * list (list Z)) (l : list (list Z)) : Prop :=
  exists g, Forall2 (named (p_sdk e)) g l /\ (forall f, In f g <-> In f (p_fs e) /\ source (fst a) (snd a) f) /\ (NoDup (p_fs e) -> NoDup g).
