(** Specification of the Arduino library. *)
From Coq Require Import String.
From Verif Require Import Base.
Open Scope string_scope.
Open Scope list_scope.
Open Scope Z_scope.

(** The text of an include of a header in memfault/, up to the header's name there *)
Definition blank (w : Z) : Prop :=
  9 <= w <= 13 \/ 28 <= w <= 32 \/ 8192 <= w <= 8202 \/ In w [133; 160; 5760; 8232; 8233; 8239; 8287; 12288].
Definition include_of (s : list Z) : Prop :=
  exists w, blank w /\ s = str "#include" ++ w :: 34 :: str "memfault/".
Definition has_include (s : list Z) : Prop := exists a i b, include_of i /\ s = a ++ i ++ b.
(** An include of the library: from its directory src *)
Definition lib_include : list Z := str "#include " ++ 34 :: str "memfault-firmware-sdk/components/include/memfault/".
(** The directories that do not come along: three, and all of ports/ but panics *)
Definition dropped (f : list (list Z)) : Prop :=
  exists d n r, f = d :: n :: r /\ (In d [str ".circleci"; str "examples"; str "tests"] \/ d = str "ports" /\ n <> str "panics" /\ r <> []).
(** Where a file of the SDK comes to be *)
Definition placed (f g : list (list Z)) : Prop :=
  f = [str "LICENSE"] /\ g = [str "LICENSE.txt"] \/ (f = [str "VERSION"] \/ f = [str "CHANGELOG.md"]) /\ g = f \/
  ~ In f [[str "LICENSE"]; [str "VERSION"]; [str "CHANGELOG.md"]] /\ g = str "src" :: str "memfault-firmware-sdk" :: f.
(** The files whose includes are changed *)
Definition visible (f : list (list Z)) : Prop := Forall (fun n => hd 0 n <> 46) f.
Definition changed (f : list (list Z)) : Prop :=
  visible f /\ ((exists i n, f = i ++ [n ++ str ".c"]) \/ (exists i n, f = i ++ [n ++ str ".h"]) \/
                (exists d, f = [d; str "include"; str "memfault"; str "metrics"; str "heartbeat_config.def"])).
(** The name of a header as a path *)
Fixpoint joined (h : list (list Z)) : list Z := match h with [] => [] | [n] => n | n :: r => n ++ 47 :: joined r end.
