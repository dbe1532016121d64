(** C128: the Arduino library made of the SDK. *)
From Coq Require Import String.
From Verif Require Import Base EclipsePatch EclipsePatchSpec EclipsePatchProofs Arduino ArduinoSpec ArduinoProofs.
Open Scope string_scope.
Open Scope list_scope.
Open Scope Z_scope.

(** Every include of a header in memfault/, wherever it is, is turned into one of the library, and what is between is
    unchanged; a text without one is unchanged, no such include is left, and a second run changes nothing. *)
Theorem C128_text s :
  (forall a i b, include_of i -> s = a ++ i ++ b -> sub 0 s = sub 0 a ++ lib_include ++ sub 0 b) /\
  (~ has_include s -> sub 0 s = s) /\ ~ has_include (sub 0 s) /\ sub 0 (sub 0 s) = sub 0 s.
Proof.
  split; [intros a i b I ->; apply sub_include, I|]. split; [apply sub_none|]. split; [apply sub_all|apply sub_none, sub_all].
Qed.
Print Assumptions C128_text.

(** The library holds exactly the files of the SDK that are not in the directories dropped, each in its place, the includes
    of the C files, the headers and the file of metrics changed, and the files of the port with their texts. *)
Theorem C128_files there port fs lib : arduinoify there port fs = Some lib ->
  forall g u, In (g, u) lib <->
    (exists f t, In (f, t) fs /\ ~ dropped f /\ placed f g /\ (changed f /\ u = sub 0 t \/ ~ changed f /\ u = t)) \/
    (exists p, port = Some p /\ g <> [] /\ In (str "ports" :: p ++ g, u) fs).
Proof.
  intros A g u. rewrite (arduino_parts _ _ _ _ A), in_app_iff. split.
  - intros [I|I].
    + right. destruct port as [p|]; [|destruct I]. exists p. split; [reflexivity|]. unfold port_files in I. apply in_map_iff in I as ((f & t) & E & I).
      cbn [fst snd] in E. injection E as E1 E2. apply filter_In in I as (I & B). cbn [fst] in B. unfold below in B.
      destruct (path_dec _ _) as [P|]; [|discriminate]. apply Nat.ltb_lt in B.
      replace (List.length p + 1)%nat with (List.length (str "ports" :: p)) in E1 by (cbn; lia).
      pose proof (firstn_skipn (List.length (str "ports" :: p)) f) as S. rewrite P, E1 in S. subst t. rewrite <- S in I. split; [|exact I].
      intros ->. rewrite app_nil_r in S. subst f. lia.
    + left. apply in_map_iff in I as ((f & t) & E & I). apply filter_In in I as (I & G). unfold patch_file in E. cbn [fst snd] in *. injection E as <- <-.
      exists f, t. split; [exact I|]. split; [|split; [apply place_spec|]].
      * rewrite <- gone_spec. destruct (gone f); [discriminate|congruence].
      * destruct (patched f) eqn:P; [left; split; [apply patched_spec, P|reflexivity]|right]. split; [|reflexivity]. rewrite <- patched_spec, P. discriminate.
  - intros [(f & t & I & D & P & U)|(p & -> & N & I)].
    + right. assert (E : g = place f).
      { pose proof (place_spec f) as Q. destruct P as [(-> & ->)|[([->| ->] & ->)|(M & ->)]]; try reflexivity.
        destruct Q as [(-> & _)|[([->| ->] & _)|(_ & ->)]]; try reflexivity; exfalso; apply M; cbn [In]; auto. }
      assert (V : u = if patched f then sub 0 t else t).
      { destruct (patched f) eqn:Q; destruct U as [(C & ->)|(C & ->)]; try reflexivity; exfalso.
        - apply C, patched_spec, Q.
        - apply patched_spec in C. congruence. }
      subst g u. change (place f, if patched f then sub 0 t else t) with (patch_file (f, t)). apply in_map, filter_In. split; [exact I|]. cbn.
      destruct (gone f) eqn:G; [|reflexivity]. exfalso. apply D, gone_spec, G.
    + left. unfold port_files. apply in_map_iff. exists (str "ports" :: p ++ g, u). cbn [fst snd]. split.
      * replace (List.length p + 1)%nat with (List.length (str "ports" :: p)) by (cbn; lia). change (str "ports" :: p ++ g) with ((str "ports" :: p) ++ g).
        rewrite skipn_app, skipn_all, Nat.sub_diag. reflexivity.
      * apply filter_In. split; [exact I|]. cbn [fst]. unfold below. change (str "ports" :: p ++ g) with ((str "ports" :: p) ++ g).
        rewrite firstn_app, firstn_all, Nat.sub_diag, firstn_O, app_nil_r. destruct (path_dec _ _) as [_|X]; [|congruence].
        apply Nat.ltb_lt. rewrite app_length. destruct g; [congruence|cbn; lia].
Qed.
Print Assumptions C128_files.

(** If a file that is kept and changed includes a header of components/include, what it includes in the library is there. *)
Theorem C128_resolves there port fs lib f t a i h b ht : arduinoify there port fs = Some lib -> In (f, t) fs -> ~ dropped f -> changed f ->
  include_of i -> ~ In 35 (joined h) -> t = a ++ i ++ joined h ++ 34 :: b ->
  In (str "components" :: str "include" :: str "memfault" :: h, ht) fs ->
  let name := [str "memfault-firmware-sdk"; str "components"; str "include"; str "memfault"] ++ h in
  exists t' a' b' ht', In (str "src" :: str "memfault-firmware-sdk" :: f, t') lib /\
    (h <> [] -> t' = a' ++ str "#include " ++ 34 :: joined name ++ 34 :: b') /\ In (str "src" :: name, ht') lib.
Proof.
  intros A I D C J N E H name. pose proof (kept_in _ _ _ _ _ _ A I D) as K. rewrite (changed_place f C), (proj2 (patched_spec f) C) in K.
  assert (Dh : ~ dropped (str "components" :: str "include" :: str "memfault" :: h)).
  { intros (d & n & r & F & [Q|(Q & _)]); injection F as <- _ _; [|discriminate]. destruct Q as [Q|[Q|[Q|[]]]]; discriminate. }
  pose proof (kept_in _ _ _ _ _ _ A H Dh) as L.
  assert (P : place (str "components" :: str "include" :: str "memfault" :: h) = str "src" :: name).
  { destruct (place_spec (str "components" :: str "include" :: str "memfault" :: h)) as [(Q & _)|[([Q|Q] & _)|(_ & Q)]]; [discriminate..|exact Q]. }
  rewrite P in L. eexists _, (sub 0 a), (sub 0 b), _. split; [exact K|]. split; [|exact L].
  intros Hn. rewrite E, sub_include by exact J. f_equal. rewrite sub_no_hash.
  - change (joined h ++ 34 :: b) with (joined h ++ [34] ++ b). replace (sub 0 (34 :: b)) with (34 :: sub 0 b) by (cbn [sub]; reflexivity).
    subst name. destruct h as [|x h]; [congruence|]. unfold lib_include. rewrite <- app_assoc. f_equal.
  - apply Forall_forall. intros c Ic ->. apply N, Ic.
Qed.
Print Assumptions C128_resolves.

Definition mini (main port_file : file) : list file :=
  [([str "LICENSE"], []); ([str "VERSION"], []); ([str "CHANGELOG.md"], []); ([str ".circleci"; str "c"], []); ([str "examples"; str "e.c"], []);
   ([str "tests"; str "t.c"], []); ([str "components"; str "include"; str "memfault"; str "components.h"], str "x"); main; port_file].

(** Not so for headers of ports/include, which is dropped: the include leads to where there is no file. *)
Theorem C128_port_header_refuted : exists fs lib t,
  arduinoify false None fs = Some lib /\
  In ([str "components"; str "a.c"], str "#include " ++ 34 :: str "memfault/ports/freertos.h" ++ [34]) fs /\
  In ([str "ports"; str "include"; str "memfault"; str "ports"; str "freertos.h"], t) fs /\
  In ([str "src"; str "memfault-firmware-sdk"; str "components"; str "a.c"], lib_include ++ str "ports/freertos.h" ++ [34]) lib /\
  Forall (fun f => last (fst f) [] <> str "freertos.h") lib.
Proof.
  exists (mini ([str "components"; str "a.c"], str "#include " ++ 34 :: str "memfault/ports/freertos.h" ++ [34])
    ([str "ports"; str "include"; str "memfault"; str "ports"; str "freertos.h"], [1])). eexists. exists [1].
  split; [vm_compute; reflexivity|]. split; [vm_compute; auto 20|]. split; [vm_compute; auto 20|]. split; [vm_compute; auto 20|].
  repeat (constructor; [vm_compute; discriminate|]). constructor.
Qed.
Print Assumptions C128_port_header_refuted.

(** Nor for the files of a port: they are copied before the includes are changed, and keep them.  And with a port there is no
    second run over the same directory. *)
Theorem C128_port_include_refuted : exists fs lib,
  arduinoify false (Some [str "p"]) fs = Some lib /\ arduinoify true (Some [str "p"]) fs = None /\
  In ([str "src"; str "b.c"], str "#include " ++ 34 :: str "memfault/components.h" ++ [34]) lib /\
  Forall (fun f => fst f <> [str "src"; str "memfault"; str "components.h"]) lib.
Proof.
  exists (mini ([str "components"; str "a.c"], []) ([str "ports"; str "p"; str "src"; str "b.c"], str "#include " ++ 34 :: str "memfault/components.h" ++ [34])).
  eexists. split; [vm_compute; reflexivity|]. split; [vm_compute; reflexivity|]. split; [vm_compute; auto 20|].
  repeat (constructor; [vm_compute; discriminate|]). constructor.
Qed.
Print Assumptions C128_port_include_refuted.

(** A text with two includes, one over a tab, and one that is not of memfault/; a file of the panics port is kept. *)
Example C128_case :
  let q := 34 in
  sub 0 (str "#include " ++ q :: str "a.h" ++ q :: 10 :: str "#include" ++ 9 :: q :: str "memfault/b.h" ++ q :: 10 :: str "#include " ++ q :: str "memfault/c.h" ++ [q]) =
  str "#include " ++ q :: str "a.h" ++ q :: 10 :: lib_include ++ str "b.h" ++ q :: 10 :: lib_include ++ str "c.h" ++ [q] /\
  option_map (fun l => last l ([], [])) (arduinoify true None (mini ([str "components"; str "a.c"], []) ([str "ports"; str "panics"; str "src"; str "p.c"], [7]))) =
  Some ([str "src"; str "memfault-firmware-sdk"; str "ports"; str "panics"; str "src"; str "p.c"], [7]).
Proof. vm_compute. auto. Qed.
