(** Specification of include paths and linker flags. *)
From Coq Require Import String.
From Verif Require Import Base EclipsePatchSpec EclipseFlags.
Open Scope string_scope.
Open Scope list_scope.
Open Scope Z_scope.

Definition begins (p s : list Z) : Prop := exists b, s = p ++ b.
(** Options of include paths of the three IDEs *)
Definition includes (o : opt) : Prop :=
  begins (str "ilg.gnuarmeclipse.managedbuild.cross.option.c.compiler.include.paths") (o_id o) \/
  begins (str "gnu.c.compiler.option.include.paths") (o_id o) \/
  begins (str "com.st.stm32cube.ide.mcu.gnu.managedbuild.tool.c.compiler.option.includepaths") (o_id o).
(** [b]: those of [a] without the script's *)
Inductive others : list (list Z) -> list (list Z) -> Prop :=
| ot_nil : others [] []
| ot_keep v a b : ~ infix (str "memfault_includes") v -> others a b -> others (v :: a) (v :: b)
| ot_drop v a b : infix (str "memfault_includes") v -> others a b -> others (v :: a) b.
Definition include_values : list (list Z) :=
  [str """${workspace_loc:/${ProjName}/memfault_includes/components/include}""";
   str """${workspace_loc:/${ProjName}/memfault_includes/ports/include}"""].
(** Options of linker flags as text *)
Definition linker_text (o : opt) : Prop :=
  begins (str "ilg.gnuarmeclipse.managedbuild.cross.option.c.linker.other") (o_id o) /\ begins (str "Other linker flags") (o_name o).
Definition flag : list Z := str "-Wl,--build-id".
(** What becomes of an option *)
Definition option_done (o o' : opt) : Prop :=
  o_id o' = o_id o /\ o_name o' = o_name o /\ o_text o' = o_text o /\
  (includes o -> exists k, others (o_list o) k /\ o_list o' = k ++ include_values) /\ (~ includes o -> o_list o' = o_list o) /\
  (linker_text o -> infix flag (o_value o') /\ (o_value o' = o_value o \/ o_value o' = o_value o ++ 32 :: flag)) /\ (~ linker_text o -> o_value o' = o_value o).
(** Tools of STM32CubeIDE that link, and their options of other flags *)
Definition st_tool (t : tool) : Prop := begins (str "com.st.stm32cube.ide.mcu.gnu.managedbuild.tool.c.linker") (t_id t).
Definition st_other (o : opt) : Prop := begins (str "com.st.stm32cube.ide.mcu.gnu.managedbuild.tool.c.linker.option.otherflags") (o_id o).
Definition has_other (t : tool) : Prop := exists o, In o (t_opts t) /\ st_other o.
(** What becomes of a tool *)
Definition tool_done (t t' : tool) : Prop :=
  t_id t' = t_id t /\
  exists new l, t_opts t' = new ++ l /\ Forall2 option_done (t_opts t) l /\
    (st_tool t /\ ~ has_other t -> exists o, new = [o] /\ st_other o /\ o_list o = [flag]) /\
    (~ (st_tool t /\ ~ has_other t) -> new = []).
(** A root element starts after [h] *)
Definition root_after (tag data h : list Z) : Prop :=
  exists w post, data = h ++ 60 :: w ++ tag ++ post /\ Forall (fun c => c = 32 \/ 9 <= c <= 13) w.
