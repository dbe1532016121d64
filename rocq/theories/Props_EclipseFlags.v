(** C126: what the Eclipse script puts into the build settings. *)
From Coq Require Import String.
From Verif Require Import Base EclipsePatch EclipsePatchSpec EclipseFlags EclipseFlagsSpec EclipseFlagsProofs.
Open Scope string_scope.
Open Scope list_scope.
Open Scope Z_scope.

(** If every option of include paths has one, the file is patched.  Then every such option has the paths it had, in order,
    without those of the script, and then the two of the SDK; every option of other linker flags asks for a build id; a tool
    of STM32CubeIDE that links and has no option of other flags gets one that asks for it; and nothing else changes. *)
Theorem C126_settings d : Forall (fun t => Forall (fun o => includes o -> o_list o <> []) (t_opts t)) d ->
  exists d', patch_tools d = Some d' /\ Forall2 tool_done d d'.
Proof. intros H. destruct (tools_total d H) as (d' & E). exists d'. split; [exact E|]. now apply tools_ok. Qed.
Print Assumptions C126_settings.

(** Whenever a file is patched, that is what becomes of it, and a second run changes nothing. *)
Theorem C126_again d d' : patch_tools d = Some d' -> Forall2 tool_done d d' /\ patch_tools d' = Some d'.
Proof. intros H. split; [now apply tools_ok|now apply tools_again in H]. Qed.
Print Assumptions C126_again.

(** What precedes the element written is all up to the last place of the file that looks like its start; with no other such
    place it is what preceded it before. *)
Theorem C126_header tag data written h : tag <> [] -> (forall c r, tag = c :: r -> c <> 32 /\ ~ 9 <= c <= 13) ->
  root_after tag data h -> (forall h', root_after tag data h' -> zlen h' <= zlen h) -> cproject_out tag data written = h ++ written.
Proof.
  intros N T R M. assert (O : tag_ok tag) by (destruct tag as [|c r]; [easy|]; cbn; specialize (T c r eq_refl); unfold is_ws; lia).
  assert (F := find_ok tag data O). unfold cproject_out, header. destruct (find_header tag data) as [k|]; [|now elim (F h)]. destruct F as [Rk Mk].
  f_equal. specialize (M k Rk). specialize (Mk h R). assert (L : zlen h = zlen k) by lia. destruct R as (w & p & E & _). destruct Rk as (w' & p' & E' & _).
  rewrite E in E'. apply (f_equal (take (zlen h))) in E'. rewrite take_app_exact in E' by lia. rewrite L in E'. now rewrite take_app_exact in E' by lia.
Qed.
Print Assumptions C126_header.

(** A tool of STM32CubeIDE that has an option of other linker flags already is not told to make a build id. *)
Definition st_ex (l : list (list Z)) : tool := mk_tool (str "com.st.stm32cube.ide.mcu.gnu.managedbuild.tool.c.linker.1")
  [mk_opt (str "com.st.stm32cube.ide.mcu.gnu.managedbuild.tool.c.linker.option.otherflags.2") [] [] l []].
Theorem C126_other_flags_refuted l : (forall v, In v l -> ~ infix (str "--build-id") v) ->
  exists t', patch_tools [st_ex l] = Some [t'] /\ t' = st_ex l /\ st_tool t' /\
    forall o v, In o (t_opts t') -> In v (o_value o :: o_list o) -> ~ infix (str "--build-id") v.
Proof.
  intros H. exists (st_ex l). split; [reflexivity|]. split; [reflexivity|]. split; [now exists (str ".1")|].
  intros o v [<-|[]] [<-|I]; [|now apply H]. intros (a & b & E). now destruct a.
Qed.
Print Assumptions C126_other_flags_refuted.

(** The option added holds a stray letter besides the flag. *)
Theorem C126_stray_text_refuted : exists d t', patch_tools d = Some [t'] /\ exists o, t_opts t' = [o] /\ o_list o = [flag] /\ o_text o = str "q" /\
  forall t o', In t d -> In o' (t_opts t) -> o_text o' = [].
Proof.
  exists [mk_tool (str "com.st.stm32cube.ide.mcu.gnu.managedbuild.tool.c.linker.1") []]. eexists. split; [vm_compute; reflexivity|].
  eexists. split; [reflexivity|]. split; [reflexivity|]. split; [reflexivity|]. intros t o' [<-|[]] [].
Qed.
Print Assumptions C126_stray_text_refuted.

(** An option of include paths without any: the file is not patched. *)
Theorem C126_no_includes_refuted d t o : In t d -> In o (t_opts t) -> includes o -> o_list o = [] -> patch_tools d = None.
Proof.
  intros I J K L. destruct (patch_tools d) as [d'|] eqn:E; [|reflexivity]. exfalso. unfold patch_tools in E. apply all_some_forall2 in E.
  clear - I J K L E. induction E as [|x y d d' E _ IH]; [easy|]. destruct I as [<-|I]; [|now apply IH].
  destruct (patch_tool_parts _ _ E) as (l & A & _). apply all_some_forall2 in A. clear - J K L A. induction A as [|p q a b E _ IH]; [easy|].
  destruct J as [<-|J]; [|now apply IH]. unfold set_includes in E. apply include_spec in K. rewrite K, L in E. easy.
Qed.
Print Assumptions C126_no_includes_refuted.

(** A comment that names the element: the whole file up to it is written in front of the new one. *)
Theorem C126_header_refuted : exists data written, root_after (str "cproject") data (str "<?x?>") /\
  cproject_out (str "cproject") data written = str "<?x?><cproject/><!-- " ++ written.
Proof.
  exists (str "<?x?><cproject/><!-- <cproject -->"), (str "<cproject />"). split; [|vm_compute; reflexivity].
  exists [], (str "/><!-- <cproject -->"). split; [reflexivity|constructor].
Qed.
Print Assumptions C126_header_refuted.

(** Dialog: a path of its own, an old one of the SDK, linker flags. *)
Definition ilg (s : string) : list Z := str ("ilg.gnuarmeclipse.managedbuild.cross.option.c." ++ s).
Example C126_case :
  patch_tools [mk_tool (str "x") [mk_opt (ilg "compiler.include.paths.7") [] [] [str "inc"; str "old/memfault_includes/x"; str "b"] []; mk_opt (str "z") [] (str "k") [str "memfault_includes"] []];
               mk_tool (str "com.st.stm32cube.ide.mcu.gnu.managedbuild.tool.c.linker.9") [mk_opt (ilg "linker.other.5") (str "Other linker flags") (str "-v") [] []]] =
  Some [mk_tool (str "x") [mk_opt (ilg "compiler.include.paths.7") [] [] ([str "inc"; str "b"] ++ include_values) []; mk_opt (str "z") [] (str "k") [str "memfault_includes"] []];
        mk_tool (str "com.st.stm32cube.ide.mcu.gnu.managedbuild.tool.c.linker.9") [new_opt; mk_opt (ilg "linker.other.5") (str "Other linker flags") (str "-v -Wl,--build-id") [] []]].
Proof. vm_compute. reflexivity. Qed.
