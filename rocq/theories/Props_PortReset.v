(** C90, C91, C92: the ports' reset reasons, over histories of resets and through reboot tracking. *)
From Verif Require Import Base SerializerHelper Reboot RebootSpec PortReset PortResetSpec PortBootSpec PortResetProofs PortBootProofs.

(** Whatever bits the resets of a history set, each boot tells the reason that the port's order gives to the
    bits set since they were cleared, and the register. *)
Theorem C90_history : forall p h s l, chip_ok p h ->
  (forall c, In c (order p) -> set_now p h s c = true -> has h c = true) ->
  Forall (fun e => set_ok p h (fst e) (snd e)) l ->
  boots p h s l = expected p h (set_now p h s) l.
Proof. exact boots_now. Qed.
Print Assumptions C90_history.

(** Where the bits are cleared, each reset of one cause, whatever other bits of [may_set] and not of the port
    come with it, is told as what it was; [says] is the meaning of the cause but for the exceptions listed. *)
Theorem C90_each_reset : forall p h s l, chip_ok p h -> tidy p h = true ->
  (forall c, In c (order p) -> sticky p = true -> hit h (rg s) c = false) -> (has_standby p = true -> sb s = false) ->
  Forall (fun e => In (fst (fst e)) (resets p) /\ raises p h (fst (fst e)) (snd (fst e)) /\ misreported p h (fst (fst e)) = false
     /\ stuck p (fst (fst e)) = false /\ set_ok p h (snd (fst e)) (snd e)) l ->
  boots p h s (map (fun e => (snd (fst e), snd e)) l)
  = map (fun e => mk_told (says p (fst (fst e))) (Z.lor (bits p h (snd (fst e))) (other p (snd e)))) l.
Proof. exact boots_single. Qed.
Print Assumptions C90_each_reset.

(** A chip with all of the port's bits, in the port's order. *)
Fixpoint c90_index (c : cause) (l : list cause) : Z := match l with [] => 0 | d :: l => if ceq c d then 0 else 1 + c90_index c l end.
Definition c90_mask (p : port) (c : cause) : Z :=
  match p, fst c with Siwx, Por => 2 ^ 16 | Siwx, Pin => 2 ^ 17 | _, _ => 2 ^ c90_index c (order p) end.
Definition c90_chip (p : port) (clr : bool) : chip :=
  mk_chip (fun _ => true) (c90_mask p) clr
    (fold_right Z.lor 0 (map (c90_mask p) (filter (fun c => negb (stuck p c)) (order p)))) false 0 (Some 0xffff).
Definition c90_only (l : list cause) : cause -> bool := fun c => among c l.
Definition c90_reasons (p : port) (clr : bool) (l : list (list cause)) : list Z :=
  map t_reason (boots p (c90_chip p clr) (mk_rr 0 false) (map (fun b => (c90_only b, 0)) l)).

(** Without MEMFAULT_REBOOT_REASON_CLEAR an old bit hides the next reset. *)
Theorem C90_uncleared_refuted : exists p, c90_reasons p false [[(Soft, 0)]; [(Wdt, 0)]] <> map (says p) [(Soft, 0); (Wdt, 0)].
Proof. exists F7. vm_compute. discriminate. Qed.
Print Assumptions C90_uncleared_refuted.
(** ports/s32sdk/rcm_reboot_tracking.c:40-52: by its own comment a power-on sets POR and LVD, a low voltage LVD alone. *)
Theorem C90_s32_refuted : c90_reasons S32 true [[(Por, 0); (Bor, 0)]; [(Bor, 0)]] = [0x8003; 0] /\ map (says S32) [(Por, 0); (Bor, 0)] = [7; 0x8003].
Proof. vm_compute. auto. Qed.
Print Assumptions C90_s32_refuted.
(** ports/nxp/rt1021/src_reboot_tracking.c:25, :30: the temperature bit is told, but not cleared. *)
Theorem C90_rt1021_refuted : c90_reasons Rt1021 true [[(Temp, 0)]; [(Wdt, 0)]; [(Pin, 0)]] = [0x8000; 0x8000; 0x8000] /\ says Rt1021 (Wdt, 0) = 0x8005.
Proof. vm_compute. auto. Qed.
Print Assumptions C90_rt1021_refuted.
(** ports/emlib/rmu_reboot_tracking.c:64-67: the bit tested is not the one of the #if. *)
Theorem C90_rmu_refuted : exists h f, chip_ok Rmu h /\ has h (Sleep, 0) = true /\ raises Rmu h (Sleep, 0) f /\
  map t_reason (boots Rmu h (mk_rr 0 false) [(f, 0)]) <> [says Rmu (Sleep, 0)].
Proof.
  exists (mk_chip (fun c => negb (ceq c (Sleep, 1))) (c90_mask Rmu) true 511 false 0 None), (c90_only [(Sleep, 0)]).
  split; [|split; [reflexivity|split]].
  - constructor; try discriminate.
    + exists (fun c => c90_index c (order Rmu)). split.
      * intros c C. cbn in C. repeat (destruct C as [<-|C]; [vm_compute; split; [split; [discriminate|reflexivity]|reflexivity]|]). contradiction.
      * intros c d C D. cbn in C, D. repeat (destruct C as [<-|C]; [repeat (destruct D as [<-|D]; [vm_compute; (reflexivity || discriminate)|]); contradiction|]). contradiction.
    + intros c C. cbn in C. repeat (destruct C as [<-|C]; [reflexivity|]). contradiction.
  - intros c C. cbn in C. repeat (destruct C as [<-|C]; [vm_compute; split; (discriminate || reflexivity || auto)|]). contradiction.
  - vm_compute. discriminate.
Qed.
Print Assumptions C90_rmu_refuted.
(** ports/stm32cube/h5/rcc_reboot_tracking.c:32: if an internal reset also sets the pin's bit (as on the other
    STM32s), each is a pin reset. *)
Theorem C90_h5_pin_refuted : forall c, In c (order H5) -> c90_reasons H5 true [[c; (Pin, 0)]] = [10].
Proof. intros c C. cbn in C. repeat (destruct C as [<-|C]; [reflexivity|]). contradiction. Qed.
Print Assumptions C90_h5_pin_refuted.
(** ports/stm32cube/h7: two causes at once have no case. *)
Theorem C90_h7_two_refuted : c90_reasons H7 true [sets H7 (c90_chip H7 true) (Soft, 0) ++ sets H7 (c90_chip H7 true) (Wdt, 0)] = [0].
Proof. reflexivity. Qed.
Print Assumptions C90_h7_two_refuted.

Definition c90_ports : list port := [Da14531; Da1469x; Da1468x; Saml1x; Nrf5; S32; Rw61x; Rt1021; F4; F7; H5; H7; L4; U5; Wb; Rmu; Emu; Siwx; NrfxPower; NrfxReset; Hwinfo].
(** Every cause of every port, one after the other, forwards and backwards *)
Example C90_case :
  forallb (fun p => let h := c90_chip p true in
    let cs := filter (fun c => negb (misreported p h c) && negb (stuck p c)) (resets p) in
    let cs := (cs ++ rev cs)%list in
    if list_eq_dec Z.eq_dec (c90_reasons p true (map (sets p h) cs)) (map (says p) cs) then true else false) c90_ports = true
  /\ c90_reasons F7 true [[(Por, 0); (Bor, 0); (Pin, 0)]; [(Wdt, 0); (Pin, 0)]; [(Soft, 0); (Pin, 0)]; [(Pin, 0)]] = [7; 0x8005; 8; 10]
  /\ c90_reasons F4 false [[standby; (Pin, 0); (Soft, 0)]; [(Bor, 0); (Pin, 0)]] = [9; 0x8003].
Proof. vm_compute. auto. Qed.

(** ** Numbers and enums *)
Theorem C91_known_values : forall q m33 m7 e c, enum_ok q m33 m7 e -> In c (known q m33 m7) ->
  enum_get q m33 m7 e (e c) = mk_told (tells q c) (raw q (e c)).
Proof. exact enum_known. Qed.
Print Assumptions C91_known_values.
Theorem C91_other_values : forall q m33 m7 e x, (forall c, In c (known q m33 m7) -> x <> e c) ->
  enum_get q m33 m7 e x = mk_told (otherwise q x) (raw q x).
Proof. exact enum_unknown. Qed.
Print Assumptions C91_other_values.
Theorem C91_da14585 : forall x, da14585 x = mk_told (if Z.eq_dec x 0 then 9 else 7) 0.
Proof. intros x. unfold da14585. destruct (Z.eq_dec x 0) as [->|N]; [reflexivity|]. now rewrite (proj2 (Z.eqb_neq _ _) N). Qed.
Print Assumptions C91_da14585.
(** ports/cypress/psoc6: the register keeps its bits and is never cleared; two bits have no case. *)
Definition c91_enum (q : eport) (m33 m7 : bool) (c : cause) : Z := 2 ^ c90_index c (known q m33 m7).
Theorem C91_psoc6_history_refuted : exists c d, In c (known Psoc6 false false) /\ In d (known Psoc6 false false) /\
  let e := c91_enum Psoc6 false false in
  t_reason (psoc6 false false e (e c)) = tells Psoc6 c /\ t_reason (psoc6 false false e (Z.lor (e c) (e d))) = 0 /\ tells Psoc6 d <> 0.
Proof. exists (Soft, 0), (Wdt, 0). vm_compute. repeat split; auto; discriminate. Qed.
Print Assumptions C91_psoc6_history_refuted.
(** An external reset (XRES) is told as a brown-out, which counts as a crash. *)
Theorem C91_external_refuted : let e := c91_enum Psoc6 false true in
  t_reason (psoc6 false true e (e (External, 0))) = 0x8003 /\ 0x8000 <= 0x8003 /\ meaning External < 0x8000.
Proof. vm_compute. repeat split; discriminate. Qed.
Print Assumptions C91_external_refuted.

Example C91_case :
  map (fun q => map (fun x => t_reason (enum_get q true true (c91_enum q true true) x)) [1; 2; 4; 8; 16; 128; 3; 0]) [Esp8266; EspIdf; Mynewt; Particle; Psoc6]
  = [[7; 8; 0x8005; 0x8005; 0; 0x9400; 0x8000; 0x8000]; [7; 8; 0x8006; 0x800c; 0x8005; 0x8000; 0; 0];
     [7; 10; 0x8005; 8; 0x8003; 3; 0; 0]; [10; 0x8005; 2; 1; 1; 0x8009; 0; 0]; [0x8005; 0x8000; 0x8000; 8; 0x8006; 0x8006; 0; 7]].
Proof. vm_compute. reflexivity. Qed.

(** ** Through reboot tracking *)
(** Each reset, with or without a reason recorded before, is read back at the next boot with the reason in
    effect and the register; it is unexpected exactly if that reason is unknown or an error; all of these are
    counted, modulo 256. *)
Theorem C92_history : forall p h s m t ms l, chip_ok p h -> tidy p h = true ->
  (forall c, In c (order p) -> sticky p = true -> hit h (rg s) c = false) -> (has_standby p = true -> sb s = false) ->
  Forall (fun e => In (fst (fst e)) (resets p) /\ raises p h (fst (fst e)) (snd (fst e)) /\ misreported p h (fst (fst e)) = false
     /\ stuck p (fst (fst e)) = false /\ set_ok p h (snd (fst e)) (snd e)) l ->
  rinfo_ok m -> is_u16 (t_reason t) -> marks_ok ms ->
  let found := combine ms (map (fun e => mk_told (says p (fst (fst e))) (Z.lor (bits p h (snd (fst e))) (other p (snd e)))) l) in
  exists s', rt_run (mk_rt false m None) (first_boot t ++ flat_map round (combine ms (boots p h s (map (fun e => (snd (fst e), snd e)) l))) ++ [TCount])
             = Some ([TOk; TOk; TOk] ++ flat_map read_back found ++ [TNum (crashes found mod 256)], s').
Proof. exact tracked_history. Qed.
Print Assumptions C92_history.
(** The same for whatever any port tells. *)
Theorem C92_any_port : forall m t l, rinfo_ok m -> is_u16 (t_reason t) ->
  Forall (fun e => match fst e with Some (r, _, _) => is_u16 r | None => True end /\ is_u16 (t_reason (snd e))) l ->
  exists s', rt_run (mk_rt false m None) (first_boot t ++ flat_map round l ++ [TCount])
             = Some ([TOk; TOk; TOk] ++ flat_map read_back l ++ [TNum (crashes l mod 256)], s').
Proof. exact tracked. Qed.
Print Assumptions C92_any_port.
(** ports/nrf5_sdk/resetreas_reboot_tracking.c:101-103: a lockup is told as a software reset: not a crash. *)
Definition c92_results (p : port) (l : list (mark * list cause)) : option (list rt_res) :=
  option_map fst (rt_run (mk_rt false (mk_rin 0 0 0 0 0 0 0 0 0) None)
    (first_boot (mk_told 7 0) ++ flat_map round (combine (map fst l) (boots p (c90_chip p true) (mk_rr 0 false) (map (fun b => (c90_only (snd b), 0)) l))) ++ [TCount])).
Theorem C92_lockups_counted_refuted : let l : list (mark * list cause) := [(None, [(Lock, 0)]); (None, [(Lock, 0)])] in
  option_map (fun r => last r TOk) (c92_results Nrf5 l) = Some (TNum 0) /\ option_map (fun r => last r TOk) (c92_results NrfxPower l) = Some (TNum 2).
Proof. vm_compute. auto. Qed.
Print Assumptions C92_lockups_counted_refuted.

Example C92_case :
  c92_results F7 [(None, [(Wdt, 0); (Pin, 0)]); (Some (0x8001, 10, 20), [(Soft, 0)]); (None, [(Pin, 0)]); (Some (3, 1, 2), [(Soft, 0); (Pin, 0)])]
  = Some [TOk; TOk; TOk;
      TOk; TOk; TInfo (Some (mk_ri 0x8005 0 0 80 0)); TBool true; TOk;
      TOk; TOk; TOk; TInfo (Some (mk_ri 0x8001 10 20 1 0)); TBool true; TOk;
      TOk; TOk; TInfo (Some (mk_ri 10 0 0 64 0)); TBool false; TOk;
      TOk; TOk; TOk; TInfo (Some (mk_ri 3 1 2 65 0)); TBool false; TOk; TNum 2].
Proof. vm_compute. reflexivity. Qed.
