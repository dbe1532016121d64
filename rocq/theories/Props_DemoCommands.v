(** C137: what the demo commands test_log and reboot leave behind. *)
From Coq Require Import String.
From Verif Require Import Base SerializerHelper Reboot RebootSpec RebootProofs DemoCommands DemoCommandsSpec.
Open Scope string_scope. Open Scope list_scope. Open Scope Z_scope.

(** Where nothing else saves, each line is saved once under its level, with the SDK's saving on or off. *)
Theorem C137_four_lines : forall c, l_macros c <> MPrinting -> l_esp c = false -> (l_macros c = MSaving -> l_disable c = false) ->
  (forall l, l_os c l = []) -> test_log c = four_lines.
Proof.
  intros [m d e o] M E S O. cbn [l_macros l_disable l_esp l_os] in *. subst e. unfold test_log, log_call. cbn [l_macros l_disable l_esp l_os].
  destruct m; [|rewrite (S eq_refl); reflexivity|congruence]. rewrite !O. destruct d; reflexivity.
Qed.
Print Assumptions C137_four_lines.

(** ESP-IDF with its hook: each line it shows once, but all under Info; without the hook none. *)
Theorem C137_esp_idf : forall shown, test_log (esp_idf true shown) = as_info (lines_shown shown) /\ test_log (esp_idf false shown) = [].
Proof.
  intros p. split; [|reflexivity]. unfold test_log, log_call, lines_shown, four_lines, esp_idf. cbn [l_macros l_disable l_esp l_os andb negb app filter fst].
  destruct (p 0), (p 1), (p 2), (p 3); reflexivity.
Qed.
Print Assumptions C137_esp_idf.

(** Zephyr: what the backend is shown, and then all four again. *)
Theorem C137_zephyr : forall backend shown, test_log (zephyr backend shown) = (if backend then lines_shown shown else []) ++ four_lines.
Proof.
  intros b p. unfold test_log, log_call, lines_shown, four_lines, zephyr. cbn [l_macros l_disable l_esp l_os andb negb app filter fst].
  destruct b; [|reflexivity]. cbn [andb]. destruct (p 0), (p 1), (p 2), (p 3); reflexivity.
Qed.
Print Assumptions C137_zephyr.

(** Refuted: on each port the command leaves every line once. Zephyr has each line twice; the macros of Particle and Mynewt (which do not offer the command) save none. *)
Theorem C137_each_once_refuted :
  ~ (forall c x, In c [plain false; plain true; psoc6; zephyr true (fun _ => true)] -> In x four_lines ->
       exists a b, test_log c = a ++ x :: b /\ ~ In x a /\ ~ In x b) /\
  ~ (forall c x, In c [plain false; plain true; psoc6; particle_or_mynewt] -> In x four_lines -> In x (test_log c)).
Proof.
  split; intros H.
  - destruct (H (zephyr true (fun _ => true)) (0, str "Debug log!")) as (a & b & E & A & B); [cbn; tauto|left; reflexivity|].
    rewrite C137_zephyr in E. change (lines_shown (fun _ => true)) with four_lines in E. destruct a as [|y a].
    + injection E as E. apply B. rewrite <- E. right. right. right. left. reflexivity.
    + injection E as E1 E2. apply A. left. symmetry. exact E1.
  - exact (H particle_or_mynewt (0, str "Debug log!") ltac:(cbn; tauto) (or_introl eq_refl)).
Qed.
Print Assumptions C137_each_once_refuted.

(** After any history of reboot tracking with no reason recorded yet, the command is reported after the reset as asked
    for by the user, with the pc and lr of the command and what the hardware says; it is not counted as a crash. *)
Theorem C137_reboot : forall m before rs v t pc lr info,
  rinfo_ok m -> Forall rt_op_ok before -> rv_run (start m) before = Some (rs, v) ->
  rt_run (mk_rt false m None) before = Some (rs, t) -> r_up v = true -> k_first (r_k v) = None ->
  match info with Some (r, _) => is_u16 r | None => True end ->
  exists t', rt_run t (reboot_cmd pc lr ++ [TBoot true None info; TRead; TCount]) =
    Some ([TOk; TOk; TOk; TInfo (Some (mk_ri 2 pc lr (match info with Some (_, reg) => reg | None => k_reg (r_k v) end) (if k_cd (r_k v) then 1 else 0)));
           TNum (k_crashes (r_k v) mod 256)], t').
Proof.
  intros m before rs v t pc lr info RM FB EV ET U K IO.
  destruct (rt_run_ok _ _ _ _ _ (init_sim m RM) FB EV) as (t0 & E0 & SIM). assert (t0 = t) by congruence. subst t0.
  assert (F : Forall rt_op_ok (reboot_cmd pc lr ++ [TBoot true None info; TRead; TCount])).
  { unfold reboot_cmd. cbn [app]. repeat constructor; try exact I; try exact IO; vm_compute; discriminate. }
  assert (E : exists v', rv_run v (reboot_cmd pc lr ++ [TBoot true None info; TRead; TCount]) =
    Some ([TOk; TOk; TOk; TInfo (Some (mk_ri 2 pc lr (match info with Some (_, reg) => reg | None => k_reg (r_k v) end) (if k_cd (r_k v) then 1 else 0)));
           TNum (k_crashes (r_k v) mod 256)], v')).
  { unfold reboot_cmd. cbn [app rv_run rv_step bind]. rewrite U. unfold boot, note, or_first. rewrite K. cbn [r_k r_up k_first].
    destruct info as [[r reg]|]; cbn; rewrite ?K; eexists; reflexivity. }
  destruct E as (v' & E). destruct (rt_run_ok _ _ _ _ _ SIM F E) as (t' & E' & _). eauto.
Qed.
Print Assumptions C137_reboot.

(** With a reason recorded before (as after a boot whose event was not collected yet), that one is reported. *)
Theorem C137_reboot_reported_refuted :
  ~ (forall m before rs t pc lr, rinfo_ok m -> Forall rt_op_ok before ->
       rt_run (mk_rt false m None) (TBoot true None (Some (0x8001, 0)) :: before) = Some (rs, t) ->
       exists t' reg cd, rt_run t (reboot_cmd pc lr ++ [TBoot true None None; TRead]) = Some ([TOk; TOk; TOk; TInfo (Some (mk_ri 2 pc lr reg cd))], t')).
Proof.
  intros H. destruct (rt_run (mk_rt false (mk_rin 0 0 0 0 0 0 0 0 0) None) [TBoot true None (Some (0x8001, 0))]) as [[rs t]|] eqn:E; [|vm_compute in E; discriminate E].
  destruct (H (mk_rin 0 0 0 0 0 0 0 0 0) [] rs t 4 8) as (t' & reg & cd & X); [split; [discriminate|reflexivity]|constructor|exact E|].
  vm_compute in E. injection E as E1 E2. subst rs t. vm_compute in X. discriminate X.
Qed.
Print Assumptions C137_reboot_reported_refuted.

Example C137_case : test_log (plain false) = four_lines /\ test_log (plain true) = four_lines /\ test_log psoc6 = four_lines /\
  test_log (esp_idf true (fun l => 1 <=? l)) = [(1, str "Info log!"); (1, str "Warning log!"); (1, str "Error log!")] /\
  zlen (test_log (zephyr true (fun l => 1 <=? l))) = 7 /\
  exists t, rt_run (mk_rt false (mk_rin 0 0 0 0 0 0 0 0 0) None) ([TBoot true None (Some (0x8001, 0)); TClear] ++ reboot_cmd 0x100 0x200 ++ [TBoot true None (Some (0, 5)); TRead; TCount]) =
    Some ([TOk; TOk; TOk; TOk; TOk; TInfo (Some (mk_ri 2 0x100 0x200 5 0)); TNum 1], t).
Proof. vm_compute. repeat split. eexists. reflexivity. Qed.
