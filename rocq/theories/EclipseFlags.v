(** Model of the part of the Eclipse script that sets include paths and linker flags in a .cproject file:
    scripts/eclipse_patch.py:83-99 and :260-392.

    The file is a list of tools (options outside of any tool are those of one with another id), each with its options, each
    with the values of its listOptionValue children and the text between them; white space is left out, and options and
    tools hold no others.  A missing attribute is an empty one, as option.get says.  [None]: an exception. *)
From Coq Require Import String.
From Verif Require Import Base EclipsePatch.
Open Scope string_scope.
Open Scope list_scope.
Open Scope Z_scope.

Record opt := mk_opt { o_id : list Z; o_name : list Z; o_value : list Z; o_list : list (list Z); o_text : list Z }.
Record tool := mk_tool { t_id : list Z; t_opts : list opt }.

(** _find_include_nodes, :290-299 *)
Definition is_include (o : opt) : bool :=
  starts (str "ilg.gnuarmeclipse.managedbuild.cross.option.c.compiler.include.paths") (o_id o) ||
  starts (str "gnu.c.compiler.option.include.paths") (o_id o) ||
  starts (str "com.st.stm32cube.ide.mcu.gnu.managedbuild.tool.c.compiler.option.includepaths") (o_id o).
(** memfault_sdk_include_paths and the quotes, :301-304 and :317 *)
Definition quoted (s : list Z) : list Z := 34 :: s ++ [34].
Definition sdk_paths : list (list Z) :=
  [quoted (str "${workspace_loc:/${ProjName}/memfault_includes/components/include}");
   quoted (str "${workspace_loc:/${ProjName}/memfault_includes/ports/include}")].
(** :306-319; the first value is needed for its tail *)
Definition set_includes (o : opt) : option opt :=
  if is_include o
  then match o_list o with
       | [] => None
       | l => Some (mk_opt (o_id o) (o_name o) (o_value o) (filter (fun v => negb (contains (str "memfault_includes") v)) l ++ sdk_paths) (o_text o))
       end
  else Some o.

Definition st_linker : list Z := str "com.st.stm32cube.ide.mcu.gnu.managedbuild.tool.c.linker".
Definition st_flags : list Z := str "com.st.stm32cube.ide.mcu.gnu.managedbuild.tool.c.linker.option.otherflags".
(** generate_st_build_id_flag, :94-99: the flag and what follows it *)
Definition build_id_flag : list Z := str "-Wl,--build-id".
Definition flag_tail : list Z := str "q".
(** :353-360 *)
Definition add_flag (o : opt) : opt :=
  if starts st_flags (o_id o)
  then if existsb (contains (str "--build-id")) (o_list o) then o
       else mk_opt (o_id o) (o_name o) (o_value o) (build_id_flag :: o_list o) (flag_tail ++ o_text o)
  else o.
(** :341-360; generate_st_linker_option, :83-91 *)
Definition set_st (t : tool) : tool :=
  if starts st_linker (t_id t)
  then if existsb (fun o => starts st_flags (o_id o)) (t_opts t) then t
       else mk_tool (t_id t) (map add_flag (mk_opt st_flags [] [] [] [] :: t_opts t))
  else t.
(** :366-376; [options] was read before :349 *)
Definition is_ld (o : opt) : bool :=
  starts (str "ilg.gnuarmeclipse.managedbuild.cross.option.c.linker.other") (o_id o) && starts (str "Other linker flags") (o_name o).
Definition set_ld (o : opt) : opt :=
  if is_ld o && negb (contains (str "-Wl,--build-id") (o_value o))
  then mk_opt (o_id o) (o_name o) (o_value o ++ str " -Wl,--build-id") (o_list o) (o_text o)
  else o.
(** The three passes, :282-376, tool by tool: none looks at another tool.  The option :348 adds is none the last pass looks for. *)
Definition patch_tool (t : tool) : option tool :=
  do l <- all_some (map set_includes (t_opts t));
  let t := set_st (mk_tool (t_id t) l) in
  Some (mk_tool (t_id t) (map set_ld (t_opts t))).
Definition patch_tools (d : list tool) : option (list tool) := all_some (map patch_tool d).

(** ** What precedes the first element, :279-280: the group takes as much as it can *)
Definition is_ws (c : Z) : bool := (c =? 32) || ((9 <=? c) && (c <=? 13)).
Fixpoint skip_ws (s : list Z) : list Z := match s with c :: r => if is_ws c then skip_ws r else s | [] => [] end.
Definition root_here (tag s : list Z) : bool := match s with c :: r => (c =? 60) && starts tag (skip_ws r) | [] => false end.
Fixpoint find_header (tag s : list Z) : option (list Z) :=
  match s with
  | [] => None
  | c :: r => match find_header tag r with
              | Some h => Some (c :: h)
              | None => if root_here tag s then Some [] else None
              end
  end.
Definition header (tag data : list Z) : list Z := match find_header tag data with Some h => h | None => [] end.
(** :385-392: the file; [written]: what tree.write writes, which starts with the element *)
Definition cproject_out (tag data written : list Z) : list Z := header tag data ++ written.
