(** C97: the self test. *)
From Coq Require Import String.
From Verif Require Import Base Reboot RebootSpec StorageTest StorageTestSpec BuildId SelfTest SelfTestSpec SelfTestProofs.

(** The device info test reads only within the strings, and reports exactly the fields that are not as
    they must be. *)
Theorem C97_device_info {S} (p : port S) max e w : sane p max e w -> exists r, sf_info max e = Some r /\
  0 <= r < 32 /\ forall bit, 0 <= bit < 5 -> (Z.testbit r bit = false <-> field_good max e bit).
Proof. exact (info_ok p max e w). Qed.
Print Assumptions C97_device_info.

(** The boot test reports exactly the components that have not booted. *)
Theorem C97_component_boot e r : let b := fun k => Z.testbit (sf_boot e r) k in
  b 0 = negb (e_events e) /\ b 1 = negb (e_log e) /\ b 2 = negb (rt_ptr r && (i_magic (rt_mem r) =? 0x21544252)) /\ b 3 = negb (e_trace e) /\
  (sf_boot e r = 0 <-> e_events e = true /\ e_log e = true /\ e_trace e = true /\ rt_ptr r = true /\ i_magic (rt_mem r) = 0x21544252).
Proof. exact (boot_ok' e r). Qed.
Print Assumptions C97_component_boot.

(** The line of the export test is as long as the longest exported line, and only its end is a '1'. *)
Theorem C97_export_line len : 2 <= len -> sf_line len = Some (fill (len - 2) 43 ++ [49])%list.
Proof. exact (line_ok len). Qed.
Print Assumptions C97_export_line.

(** A run without the reboot test returns 0 exactly if the tests selected pass - when the verification
    of the reboot reason is not among them together with one of the first three. *)
Theorem C97_run {S} (p : port S) valid max len storage flags e reg w : sane p max e w -> 2 <= len ->
  ~ selected flags RebootTest ->
  (selected flags RebootVerify -> ~ selected flags DeviceInfo /\ ~ selected flags ComponentBoot /\ ~ selected flags Regions) ->
  exists code w', sf_run p valid max len storage flags e reg w = Some (Returns code w') /\ (code = 0 \/ code = 1) /\
    (code = 0 <-> forall t, selected flags t -> passes p valid max storage e w t).
Proof.
  intros SA L N V. assert (N4 : Z.testbit flags 4 = false) by (destruct (Z.testbit flags 4) eqn:E; [now elim N|reflexivity]).
  destruct (run_ok p valid max len storage flags e reg w SA L N4) as (code & w' & E & C & _ & I). exists code, w'. split; [exact E|].
  split; [exact C|]. rewrite I. split; intros H t T; apply H; [|exact (proj1 T)]. split; [exact T|]. intros X Y.
  destruct (V X) as (V0 & V1 & V2). destruct t; cbn in Y; try exact Y; auto.
Qed.
Print Assumptions C97_run.

(** From the command line, whatever the argument is: the tests it names, or the default ones, and the
    result is 0 exactly if they pass; "reboot" does not return. *)
Theorem C97_command_line {S} (p : port S) valid max len storage e reg w : sane p max e w -> 2 <= len ->
  forall arg, (forall a, arg = Some a -> In 0 a) ->
  exists flags, sf_cli_flags arg = Some flags /\
    (forall t, selected flags t <-> match t with
       | RebootTest => exists rest, arg = Some (str "reboot" ++ 0 :: rest)%list
       | RebootVerify => exists rest, arg = Some (str "reboot_verify" ++ 0 :: rest)%list
       | Storage => exists rest, arg = Some (str "coredump_storage" ++ 0 :: rest)%list
       | _ => ~ exists name rest, arg = Some (name ++ 0 :: rest)%list /\ In name [str "reboot"; str "reboot_verify"; str "coredump_storage"]
       end) /\
    if Z.testbit flags 4 then exists w', sf_run p valid max len storage flags e reg w = Some (Reboots w')
    else exists code w', sf_run p valid max len storage flags e reg w = Some (Returns code w') /\ (code = 0 \/ code = 1) /\
      (code = 0 <-> forall t, selected flags t -> passes p valid max storage e w t).
Proof.
  intros SA L arg T.
  assert (RUN : forall flags, Z.testbit flags 4 = false -> (Z.testbit flags 5 = true -> Z.testbit flags 0 = false /\ Z.testbit flags 1 = false /\ Z.testbit flags 2 = false) ->
     exists code w', sf_run p valid max len storage flags e reg w = Some (Returns code w') /\ (code = 0 \/ code = 1) /\
      (code = 0 <-> forall t, selected flags t -> passes p valid max storage e w t)).
  { intros flags N4 V. apply C97_run; try assumption; unfold selected; cbn [bit_of]; [congruence|]. intros X. destruct (V X) as (A & B & C). rewrite A, B, C.
    repeat split; discriminate. }
  assert (NZ : forall b, forallb (fun c => negb (c =? 0)) b = true -> Forall (fun c => c <> 0) b).
  { intros b H. rewrite forallb_forall in H. apply Forall_forall. intros c I. specialize (H c I). lia. }
  destruct arg as [arg|].
  2:{ exists 335. split; [reflexivity|]. split; [|cbn [Z.testbit]; change (Z.testbit 335 4) with false; apply RUN; [reflexivity|discriminate]].
      intros t. unfold selected. destruct t; vm_compute Z.testbit; (split; [intros H; try discriminate H; intros (n & r & X & _); discriminate X|intros H; try reflexivity; exfalso; destruct H as (r & X); discriminate X]). }
  destruct (split_nul arg (T arg eq_refl)) as (a & rest & -> & F).
  assert (N1 : Forall (fun c => c <> 0) (str "reboot")) by (apply NZ; reflexivity).
  assert (N2 : Forall (fun c => c <> 0) (str "reboot_verify")) by (apply NZ; reflexivity).
  assert (N3 : Forall (fun c => c <> 0) (str "coredump_storage")) by (apply NZ; reflexivity).
  assert (IS : forall name, Forall (fun c => c <> 0) name -> ((exists r, Some (a ++ 0 :: rest)%list = Some (name ++ 0 :: r)%list) <-> a = name)).
  { intros name FN. split; [intros (r & X); inversion X as [X']; exact (nul_unique _ _ _ _ X' F FN)|]. intros ->. now exists rest. }
  assert (NO : (exists name r, Some (a ++ 0 :: rest)%list = Some (name ++ 0 :: r)%list /\ In name [str "reboot"; str "reboot_verify"; str "coredump_storage"]) <->
               a = str "reboot" \/ a = str "reboot_verify" \/ a = str "coredump_storage").
  { split.
    - intros (name & r & X & [I|[I|[I|[]]]]); subst name; [left|right; left|right; right]; inversion X as [X']; (eapply nul_unique; [exact X'|assumption|assumption]).
    - intros [A|[A|A]]; subst a; do 2 eexists; (split; [reflexivity|]); cbn [In]; auto. }
  assert (D12 : str "reboot" <> str "reboot_verify") by discriminate. assert (D13 : str "reboot" <> str "coredump_storage") by discriminate.
  assert (D23 : str "reboot_verify" <> str "coredump_storage") by discriminate.
  cbn [sf_cli_flags]. rewrite (arg_ok a rest F). eexists. split; [reflexivity|]. unfold selected.
  destruct (list_eq_dec Z.eq_dec a (str "reboot")) as [A1|A1]; [|destruct (list_eq_dec Z.eq_dec a (str "reboot_verify")) as [A2|A2]; [|destruct (list_eq_dec Z.eq_dec a (str "coredump_storage")) as [A3|A3]]].
  - split.
    + intros t. destruct t; vm_compute Z.testbit; rewrite ?NO, ?(IS _ N1), ?(IS _ N2), ?(IS _ N3); (split; [intros H; try discriminate H; auto|intros H; try reflexivity; exfalso; try congruence; apply H; auto]).
    + change (Z.testbit 16 4) with true. destruct (reboot_ends p valid max len storage 16 e reg w SA L eq_refl) as (r & _ & X). eexists. exact X.
  - split.
    + intros t. destruct t; vm_compute Z.testbit; rewrite ?NO, ?(IS _ N1), ?(IS _ N2), ?(IS _ N3); (split; [intros H; try discriminate H; auto|intros H; try reflexivity; exfalso; try congruence; apply H; auto]).
    + change (Z.testbit 32 4) with false. apply RUN; [reflexivity|]. intros _. repeat split.
  - split.
    + intros t. destruct t; vm_compute Z.testbit; rewrite ?NO, ?(IS _ N1), ?(IS _ N2), ?(IS _ N3); (split; [intros H; try discriminate H; auto|intros H; try reflexivity; exfalso; try congruence; apply H; auto]).
    + change (Z.testbit 128 4) with false. apply RUN; [reflexivity|]. intros X. discriminate X.
  - split.
    + intros t. destruct t; vm_compute Z.testbit; rewrite ?NO, ?(IS _ N1), ?(IS _ N2), ?(IS _ N3); (split; [intros H; try discriminate H; try (intros [X|[X|X]]; congruence); auto|intros H; try reflexivity; exfalso; congruence]).
    + change (Z.testbit 335 4) with false. apply RUN; [reflexivity|]. intros X. discriminate X.
Qed.
Print Assumptions C97_command_line.

(** Refuted: a run in which a test fails returns 1.  Whenever the reboot reason verifies, the failures of
    the device info, boot and region tests run before it are forgotten. *)
Theorem C97_failures_kept_refuted {S} (p : port S) valid max len storage e reg w : sane p max e w -> 2 <= len ->
  passes p valid max storage e w RebootVerify ->
  exists w', sf_run p valid max len storage 39 e reg w = Some (Returns 0 w') /\
    selected 39 DeviceInfo /\ selected 39 ComponentBoot /\ selected 39 Regions.
Proof.
  intros SA L V. destruct (run_ok p valid max len storage 39 e reg w SA L eq_refl) as (code & w' & E & _ & _ & I). exists w'.
  assert (code = 0) as ->; [|now repeat split]. apply I. intros t (T & X). unfold selected in T, X.
  destruct t; vm_compute in T; try discriminate T; try exact V; exfalso; exact (X eq_refl Logic.I).
Qed.
Print Assumptions C97_failures_kept_refuted.

(** The reboot test, then a reset that keeps the memory, then a boot: the verification passes exactly if
    no reason was kept when the test was run, or that of a self test. *)
Theorem C97_reboot_then_verify r reg info : rt_ptr r = true ->
  exists r', rt_run r [TMark 11 (Some reg); TReset None; TBoot true None info] = Some ([TOk; TOk; TOk], r') /\
    (sf_verify r' = 0 <-> kept r = None \/ kept r = Some 11).
Proof. exact (reboot_then_verify r reg info). Qed.
Print Assumptions C97_reboot_then_verify.
(** It is the reboot test that a run with its flag ends with, and nothing after it is run. *)
Theorem C97_reboot_ends_the_run {S} (p : port S) valid max len storage flags e reg w : sane p max e w -> 2 <= len ->
  selected flags RebootTest ->
  exists r, rt_step (w_rt w) (TMark 11 (Some reg)) = Some (TOk, r) /\
    sf_run p valid max len storage flags e reg w = Some (Reboots (mk_w r (w_st w) (w_irq w) (w_calls w))).
Proof. exact (reboot_ends p valid max len storage flags e reg w). Qed.
Print Assumptions C97_reboot_ends_the_run.

(** Refuted: the reboot test passes on a working device.  On a device that has not collected its reset
    information since it booted, it fails, whatever the reason of that boot was. *)
Theorem C97_reboot_test_works_refuted m reason regs reg info : i_magic m = 0x21544252 -> i_reason m = 0xffffffff -> is_u16 reason -> reason <> 11 ->
  exists rs r, rt_run (mk_rt false m None) [TBoot true None (Some (reason, regs)); TMark 11 (Some reg); TReset None; TBoot true None info] = Some (rs, r) /\
    sf_verify r = 1.
Proof.
  intros M R U N. set (b := rt_boot (mk_rt false m None) true None (Some (reason, regs))).
  assert (B : rt_ptr b = true /\ kept b = Some reason).
  { unfold b, rt_boot, check_or_init, kept, recall. cbn [negb rt_mem rt_data rt_ptr]. change magic with 0x21544252. rewrite M, Z.eqb_refl.
    unfold record_event. cbn [set_mem rt_mem rt_ptr rt_data i_reason]. change not_set with 0xffffffff. rewrite R, Z.eqb_refl. cbn [negb rt_data i_magic i_reason].
    assert (NR : (reason =? 4294967295) = false) by (red in U; lia).
    destruct (unexpected _); cbn [set_mem rt_mem rt_ptr i_magic i_reason k_first]; rewrite M, Z.eqb_refl; cbn [k_first]; rewrite NR; auto. }
  destruct B as (B1 & B2). destruct (reboot_then_verify b reg info B1) as (r & E & V).
  do 2 eexists. split; [exact (rt_run_cons (mk_rt false m None) (TBoot true None (Some (reason, regs))) _ TOk b _ _ eq_refl E)|]. destruct (Z.eq_dec (sf_verify r) 0) as [Z0|NZ].
  - apply V in Z0. rewrite B2 in Z0. destruct Z0 as [Z0|Z0]; congruence.
  - revert NZ. unfold sf_verify. destruct (rt_step r TReason) as [[[| | | |[[x y]|]] x']|]; try reflexivity. destruct (y =? 0xb); congruence.
Qed.
Print Assumptions C97_reboot_test_works_refuted.

(** Refuted: when the verification passes, the last reset was that of a self test.  If the information is
    not collected, a crash after the self test leaves the verification passing. *)
Theorem C97_verify_means_self_test_refuted r reg crash regs info : rt_ptr r = true -> kept r = None -> crash <> 11 ->
  exists rs r', rt_run r [TMark 11 (Some reg); TReset None; TBoot true None info; TMark crash regs; TReset None; TBoot true None info] = Some (rs, r') /\
    sf_verify r' = 0.
Proof.
  intros P K N. destruct (mark_kept r reg P) as (r1 & E1 & M & KK & NS). destruct (booted_verify r1 info M NS) as (r2 & E2 & _ & K2).
  assert (R1 : i_reason (rt_mem r1) = 11) by (apply KK; auto).
  assert (P2 : rt_ptr r2 = true).
  { cbn [rt_run rt_step bind] in E2. inversion E2. unfold rt_boot. cbn [negb rt_mem rt_data rt_ptr]. unfold check_or_init. cbn [rt_ptr negb rt_mem].
    change magic with 0x21544252. rewrite M, Z.eqb_refl. destruct info as [[a b]|]; cbn [set_mem rt_mem rt_ptr]; unfold record_event; cbn [set_mem rt_mem rt_ptr i_reason]; rewrite R1;
      change (11 =? not_set) with false; cbn [negb rt_data]; destruct (unexpected _); reflexivity. }
  assert (K1 : kept r1 = Some 11). { unfold kept, recall. rewrite M, Z.eqb_refl. cbn [k_first]. rewrite R1. reflexivity. }
  assert (MM : i_magic (rt_mem r2) = 0x21544252 /\ i_reason (rt_mem r2) = 11).
  { rewrite K1 in K2. revert K2. unfold kept, recall. change 0x21544252 with magic. destruct (Z.eqb_spec (i_magic (rt_mem r2)) magic) as [A|A]; cbn [k_first nothing]; [|discriminate].
    destruct (Z.eqb_spec (i_reason (rt_mem r2)) 4294967295); [discriminate|]. intros X. inversion X. auto. }
  destruct MM as (M2 & R2).
  assert (E3 : exists r3, rt_step r2 (TMark crash regs) = Some (TOk, r3) /\ rt_mem r3 = rt_mem r2).
  { cbn [rt_step]. unfold check_or_init. rewrite P2. cbn [negb]. change magic with 0x21544252. rewrite M2, Z.eqb_refl. eexists. split; [reflexivity|].
    unfold record_event. rewrite R2. reflexivity. }
  destruct E3 as (r3 & E3 & MEM). destruct (booted_verify r3 info) as (r4 & E4 & V4 & _); [now rewrite MEM|rewrite MEM, R2; discriminate|].
  assert (E34 := rt_run_cons _ _ _ _ _ _ _ E3 E4).
  assert (APP : forall l s l' rs s1 rs' s2, rt_run s l = Some (rs, s1) -> rt_run s1 l' = Some (rs', s2) -> exists rs2, rt_run s (l ++ l') = Some (rs2, s2)).
  { induction l as [|o l IH]; intros s l' rs s1 rs' s2 A B; cbn [rt_run app] in *; [inversion A; subst; eauto|].
    destruct (rt_step s o) as [[x s']|]; cbn [bind] in *; [|discriminate]. destruct (rt_run s' l) as [[y s'']|] eqn:D; cbn [bind] in A; [|discriminate].
    inversion A; subst. destruct (IH _ _ _ _ _ _ D B) as (rs2 & X). rewrite X. cbn [bind]. eauto. }
  destruct (APP _ _ _ _ _ _ _ E2 E34) as (rs2 & E5). do 2 eexists. split; [exact (rt_run_cons _ _ _ _ _ _ _ E1 E5)|]. apply V4. now rewrite MEM.
Qed.
Print Assumptions C97_verify_means_self_test_refuted.

(** The storage test never touches a stored coredump; otherwise it writes with interrupts off only, and
    passes exactly if storage passes (C59). *)
Theorem C97_storage {S} (p : port S) valid e w : st_begin p (w_st w) <> None ->
  (valid (w_st w) = true -> sf_storage p valid e w = Some (1, w)) /\
  (valid (w_st w) = false -> e_off e = false -> exists w', sf_storage p valid e w = Some (2, w') /\ w_st w' = w_st w /\ w_irq w' = w_irq w) /\
  (valid (w_st w) = false -> e_off e = true -> exists r w', sf_storage p valid e w = Some (r, w') /\
     (r = 0 <-> storage_passes p (w_st w)) /\ (r = 0 \/ r = 4) /\ w_irq w' = e_on e /\
     w_calls w' = (w_calls w ++ [(KOff, w_irq w); (KBegin, false); (KOn, false); (KFinish, e_on e)])%list).
Proof.
  intros D. split; [|split].
  - intros V. unfold sf_storage. now rewrite V.
  - intros V F. unfold sf_storage. rewrite V, F. cbn [negb]. eexists. split; [reflexivity|]. now split.
  - intros V F. destruct (storage_ok p valid e w D) as (r & w' & E & _ & I). exists r, w'. split; [exact E|]. split; [rewrite I; tauto|].
    revert E. unfold sf_storage. rewrite V, F. cbn [negb]. intros E. apply bind_inv in E. destruct E as ([[ok t] s] & _ & E).
    destruct (e_on e); cbn [w_st w_call w_set_irq w_set_st w_irq w_calls] in E; destruct (st_finish p t s) as [[ok' t'] s']; inversion E; subst;
      (split; [destruct ok'; auto|]); cbn [w_st w_call w_set_irq w_set_st w_irq w_calls]; (split; [reflexivity|]); rewrite <- !app_assoc; reflexivity.
Qed.
Print Assumptions C97_storage.

(** Refuted: a storage test that passes leaves interrupts on. *)
Theorem C97_interrupts_back_refuted {S} (p : port S) valid e w : valid (w_st w) = false -> e_off e = true -> e_on e = false ->
  storage_passes p (w_st w) -> exists w', sf_storage p valid e w = Some (0, w') /\ w_irq w' = false.
Proof.
  intros V F N SP. assert (D : st_begin p (w_st w) <> None). { destruct SP as (t & s & t' & s' & B & _). congruence. }
  destruct (proj2 (proj2 (C97_storage p valid e w D)) V F) as (r & w' & E & I & _ & Q & _). exists w'. apply I in SP. subst r. split; [exact E|congruence].
Qed.
Print Assumptions C97_interrupts_back_refuted.

(** A device: all strings good but the serial number, which has a space; everything else passes. *)
Definition ex_port : port (list Z) := mk_port _ 24 (fun s => (true, s)) (fun o n s => (true, fill 24 255))
  (fun o d s => match splice s o d with Some s => (true, s) | None => (false, s) end)
  (fun o b s => (true, take (zlen b) (drop o s), s)) (fun s => fill 24 255).
Definition ex_self : env := mk_env (Some (str "MY SN" ++ [0])%list) (Some (str "evt_24" ++ [0])%list) (Some (str "1.0 (beta)" ++ [0])%list) (Some (str "nrf-main" ++ [0; 7])%list)
  3 (fill 20 7) true true true true 2 1000 1100 (Some (1, 1800000000)) true true true.
Definition ex_world : world (list Z) := mk_w (mk_rt true fresh (Some (8, 11))) (fill 24 0) true [].
Example C97_case :
  sf_info 128 ex_self = Some 1 /\
  sf_run ex_port (fun s => false) 128 112 true 335 ex_self (1, 2) ex_world = Some (Returns 1 ex_world) /\
  (* with the verification of the reboot reason the failure is forgotten *)
  sf_run ex_port (fun s => false) 128 112 true 367 ex_self (1, 2) ex_world = Some (Returns 0 ex_world) /\
  sf_run ex_port (fun s => false) 128 112 true 128 ex_self (1, 2) ex_world =
    Some (Returns 0 (mk_w (w_rt ex_world) (fill 24 255) true [(KOff, true); (KBegin, false); (KOn, false); (KFinish, true)])) /\
  sf_arg_to_flag (str "reboot_verify" ++ [0])%list = Some 32 /\ sf_arg_to_flag (str "reboots" ++ [0])%list = Some 335.
Proof. vm_compute. repeat split. Qed.
