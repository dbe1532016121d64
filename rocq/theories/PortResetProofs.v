(** Proofs about the ports' reset reasons. *)
From Verif Require Import Base PortReset PortResetSpec.

Lemma ceq_spec a b : ceq a b = true <-> a = b.
Proof.
  unfold ceq. destruct a as [k i], b as [k' i']; cbn. destruct (class_dec k k') as [->|N].
  - rewrite Z.eqb_eq. split; [now intros ->|now intros [=]].
  - split; [discriminate|intros [=]; contradiction].
Qed.
Lemma ceq_refl a : ceq a a = true.
Proof. now apply ceq_spec. Qed.
Lemma among_spec c l : among c l = true <-> In c l.
Proof.
  unfold among. rewrite existsb_exists. split.
  - intros (x & I & E). apply ceq_spec in E. now subst.
  - intros I. exists c. split; [exact I|apply ceq_refl].
Qed.

Lemma land_pow2 r b : 0 <= b -> negb (Z.land r (2 ^ b) =? 0) = Z.testbit r b.
Proof.
  intros H. destruct (Z.testbit r b) eqn:E.
  - apply Bool.negb_true_iff, Z.eqb_neq. intros X.
    assert (Z.testbit (Z.land r (2 ^ b)) b = false) by (rewrite X; apply Z.bits_0).
    rewrite Z.land_spec, E, Z.pow2_bits_true in H0 by lia. discriminate.
  - apply Bool.negb_false_iff, Z.eqb_eq. apply Z.bits_inj'. intros n N. rewrite Z.land_spec, Z.bits_0.
    destruct (Z.eq_dec n b) as [->|D]; [now rewrite E|]. rewrite Z.pow2_bits_false by lia. apply Bool.andb_false_r.
Qed.

Section Chip.
Context (p : port) (h : chip) (K : chip_ok p h).

Lemma layout : exists b : cause -> Z, (forall c, In c (order p) -> 0 <= b c /\ mask h c = 2 ^ b c)
    /\ forall c d, In c (order p) -> In d (order p) -> b c = b d -> c = d.
Proof. destruct K as [(b & B & I) _ _ _ _]. exists b. split; [|exact I]. intros c C. destruct (B c C) as [? ?]. split; [lia|assumption]. Qed.

Lemma hit_bit b r c : (forall c, In c (order p) -> 0 <= b c /\ mask h c = 2 ^ b c) -> In c (order p) ->
  hit h r c = Z.testbit r (b c).
Proof. intros B C. destruct (B c C) as [P M]. unfold hit. rewrite M. now apply land_pow2. Qed.

Lemma ors_bit b l n : (forall c, In c (order p) -> 0 <= b c /\ mask h c = 2 ^ b c) -> incl l (order p) -> 0 <= n ->
  Z.testbit (ors h l) n = existsb (fun c => b c =? n) l.
Proof.
  intros B I N. induction l as [|c l IH]; cbn; [apply Z.bits_0|].
  rewrite Z.lor_spec. fold (ors h l). rewrite IH by (intros x X; apply I; now right). f_equal.
  destruct (B c (I c (or_introl eq_refl))) as [P M]. rewrite M.
  destruct (b c =? n) eqn:E.
  - apply Z.eqb_eq in E. subst. now apply Z.pow2_bits_true.
  - apply Z.pow2_bits_false. lia.
Qed.
Lemma hit_ors l c : incl l (order p) -> In c (order p) -> hit h (ors h l) c = among c l.
Proof.
  intros I C. destruct layout as (b & B & J). rewrite (hit_bit b) by assumption.
  rewrite (ors_bit b) by (try assumption; now apply B).
  apply Bool.eq_true_iff_eq. rewrite existsb_exists, among_spec. split.
  - intros (x & X & E). apply Z.eqb_eq in E. apply J in E; [now subst|now apply I|assumption].
  - intros X. exists c. split; [assumption|apply Z.eqb_refl].
Qed.
Lemma hit_bits f c : In c (order p) -> hit h (bits p h f) c = f c.
Proof.
  intros C. unfold bits. rewrite hit_ors by (try assumption; intros x X; now apply filter_In in X).
  apply Bool.eq_true_iff_eq. rewrite among_spec, filter_In. tauto.
Qed.
Lemma hit_lor a b c : In c (order p) -> hit h (Z.lor a b) c = hit h a c || hit h b c.
Proof. intros C. destruct layout as (n & B & _). rewrite !(hit_bit n) by assumption. apply Z.lor_spec. Qed.
Lemma hit_land a b c : In c (order p) -> hit h (Z.land a b) c = hit h a c && hit h b c.
Proof. intros C. destruct layout as (n & B & _). rewrite !(hit_bit n) by assumption. apply Z.land_spec. Qed.
Lemma hit_ldiff a b c : In c (order p) -> hit h (Z.ldiff a b) c = hit h a c && negb (hit h b c).
Proof. intros C. destruct layout as (n & B & _). rewrite !(hit_bit n) by assumption. apply Z.ldiff_spec. Qed.
Lemma hit_0 c : hit h 0 c = false.
Proof. unfold hit. now rewrite Z.land_0_l. Qed.
Lemma hit_clean x c : Z.land x (mask h c) = 0 -> hit h x c = false.
Proof. unfold hit. intros ->. reflexivity. Qed.
Lemma hit_all c : In c (order p) -> hit h (all_bits p h) c = true.
Proof. intros C. unfold all_bits. rewrite hit_ors by (try assumption; apply incl_refl). now apply among_spec. Qed.
Lemma hit_flags c : In c (order p) -> hit h (flags h) c = negb (match p, fst c with Rt1021, Temp => true | _, _ => false end).
Proof.
  intros C. destruct layout as (n & B & _). destruct (B c C) as [P M]. unfold hit. rewrite (ch_flags _ _ K c C), M.
  assert (X : (2 ^ n c =? 0) = false) by (apply Z.eqb_neq, Z.pow_nonzero; lia).
  destruct p; cbn; try (now rewrite X). destruct (fst c); cbn; now rewrite ?X.
Qed.

(** Two registers with the same bits of the port, restricted to those, are equal. *)
Lemma same_bits r l : incl l (order p) ->
  (Z.land r (all_bits p h) =? ors h l) = forallb (fun x => Bool.eqb (hit h r x) (among x l)) (order p).
Proof.
  intros I. apply Bool.eq_true_iff_eq. rewrite Z.eqb_eq, forallb_forall. split.
  - intros E c C. apply Bool.eqb_true_iff. rewrite <- (hit_ors l c I C), <- E.
    rewrite hit_land, hit_all by assumption. now rewrite Bool.andb_true_r.
  - intros E. destruct layout as (b & B & J). apply Z.bits_inj'. intros n N.
    rewrite Z.land_spec. unfold all_bits. rewrite !(ors_bit b) by (try assumption; apply incl_refl).
    destruct (existsb (fun c => b c =? n) (order p)) eqn:X.
    + apply existsb_exists in X as (c & C & Y). apply Z.eqb_eq in Y. subst n. rewrite Bool.andb_true_r.
      specialize (E c C). apply Bool.eqb_prop in E. rewrite <- (hit_bit b) by assumption. rewrite E, <- (hit_ors l c I C).
      rewrite (hit_bit b) by assumption. apply (ors_bit b); assumption.
    + rewrite Bool.andb_false_r. symmetry. apply Bool.not_true_iff_false. intros Y.
      apply existsb_exists in Y as (c & C & Y). apply Bool.not_true_iff_false in X. apply X, existsb_exists. exists c. split; [now apply I|assumption].
Qed.
Lemma value r x g : (forall c, In c (order p) -> hit h r c = g c) -> Z.lor (Z.land r (all_bits p h)) x = Z.lor (bits p h g) x.
Proof.
  intros H. f_equal. apply Z.eqb_eq. unfold bits.
  rewrite same_bits by (intros y Y; now apply filter_In in Y).
  apply forallb_forall. intros c C. apply Bool.eqb_true_iff. rewrite H by assumption.
  apply Bool.eq_true_iff_eq. rewrite among_spec, filter_In. tauto.
Qed.
Lemma zero_bits g : (bits p h g =? 0) = forallb (fun c => negb (g c)) (order p).
Proof.
  apply Bool.eq_true_iff_eq. rewrite Z.eqb_eq, forallb_forall. split.
  - intros E c C. rewrite <- (hit_bits g c C), E, hit_0. reflexivity.
  - intros H. unfold bits. replace (filter g (order p)) with (@nil cause); [reflexivity|].
    symmetry. induction (order p) as [|c l IH]; [reflexivity|]. cbn.
    specialize (H c (or_introl eq_refl)) as X. apply Bool.negb_true_iff in X. rewrite X. apply IH. intros y Y. apply H. now right.
Qed.
End Chip.

Definition other (p : port) (x : Z) : Z := match p with Rt1021 => 0 | _ => x end.
(** The flags after the port's own way to clear them. *)
Lemma cleared p h r c : chip_ok p h -> In c (order p) ->
  hit h (w1c r (flags h)) c = hit h r c && match p, fst c with Rt1021, Temp => true | _, _ => false end.
Proof. intros K C. unfold w1c. rewrite (hit_ldiff p h K), (hit_flags p h K) by assumption. now rewrite Bool.negb_involutive. Qed.
Lemma w1c_self h r c : hit h (w1c r r) c = false.
Proof. unfold w1c. rewrite Z.ldiff_diag. apply hit_0. Qed.

Ltac names := cbn; tauto.
Ltac cascade HH HI := 
  repeat match goal with
  | |- context [ifhit ?h ?r ?c] => rewrite (HI c) by names
  | |- context [hit ?h ?r ?c] => rewrite (HH c) by names
  end.

Lemma two r a b : negb (Z.land r (Z.lor a b) =? 0) = negb (Z.land r a =? 0) || negb (Z.land r b =? 0).
Proof.
  rewrite Z.land_lor_distr_r. apply Bool.eq_true_iff_eq. rewrite Bool.orb_true_iff, !Bool.negb_true_iff, !Z.eqb_neq, Z.lor_eq_0_iff.
  destruct (Z.eq_dec (Z.land r a) 0); tauto.
Qed.
Ltac split_bits g := 
  repeat (match goal with |- context [g ?c] => destruct (g c) end; cbn; try reflexivity).
Ltac go HH HI := cascade HH HI; unfold verdict, first; cbn;
  match goal with H : forall c, _ -> hit _ _ c = ?g c |- _ => split_bits g end; try reflexivity.

Definition allb (f : bool -> bool) : bool := f true && f false.
Lemma allb_ok f : allb f = true -> forall b, f b = true.
Proof. unfold allb. rewrite Bool.andb_true_iff. intros [A B] []; assumption. Qed.
Lemma allb10 (f : bool -> bool -> bool -> bool -> bool -> bool -> bool -> bool -> bool -> bool -> bool) : allb (fun a => allb (fun b => allb (fun c => allb (fun d => allb (fun e => allb (fun i => allb (fun j => allb (fun k => allb (fun l => allb (fun m => f a b c d e i j k l m)))))))))) = true -> forall a b c d e i j k l m, f a b c d e i j k l m = true.
Proof. intros H a b c d e i j k l m. apply allb_ok with (b := a) in H; cbv beta in H. apply allb_ok with (b := b) in H; cbv beta in H. apply allb_ok with (b := c) in H; cbv beta in H. apply allb_ok with (b := d) in H; cbv beta in H. apply allb_ok with (b := e) in H; cbv beta in H. apply allb_ok with (b := i) in H; cbv beta in H. apply allb_ok with (b := j) in H; cbv beta in H. apply allb_ok with (b := k) in H; cbv beta in H. apply allb_ok with (b := l) in H; cbv beta in H. apply allb_ok with (b := m) in H; cbv beta in H. exact H. Qed.
Definition h7_eq (w0 cp d1 d2 bo pi po so w1 lp : bool) (l : list cause) : bool :=
  Bool.eqb w0 (among (Wdt, 0) l) && (Bool.eqb cp (among (User, 0) l) && (Bool.eqb d1 (among (Domain, 1) l) &&
  (Bool.eqb d2 (among (Domain, 2) l) && (Bool.eqb bo (among (Bor, 0) l) && (Bool.eqb pi (among (Pin, 0) l) &&
  (Bool.eqb po (among (Por, 0) l) && (Bool.eqb so (among (Soft, 0) l) && (Bool.eqb w1 (among (Wdt, 1) l) &&
  (Bool.eqb lp (among (LowP, 0) l) && true))))))))).
Lemma h7_table h w0 cp d1 d2 bo pi po so w1 lp :
  let q := h7_eq w0 cp d1 d2 bo pi po so w1 lp in let pin := (Pin, 0) in let cpu := (User, 0) in
  (if q [(Por, 0); pin; (Bor, 0); (Domain, 2); (Domain, 1); cpu] then rPowerOnReset
    else if q [pin; cpu] then rPinReset
    else if q [pin; (Bor, 0); cpu] then rBrownOut
    else if q [(Soft, 0); pin; cpu] then rSoftwareReset
    else if q [cpu] then rSoftwareReset
    else if q [(Wdt, 1); pin; cpu] then rHardwareWatchdog
    else if q [(Wdt, 0); pin; cpu] then rHardwareWatchdog
    else if q [(Domain, 1)] then rLowPower
    else if q [(Domain, 2)] then rLowPower
    else if q [(LowP, 0); pin; cpu] then rUnknownError else rUnknown)
  = match find (fun c => q (sets H7 h c)) (order H7) with Some c => says H7 c | None => 0 end.
Proof.
  cbv zeta. apply Z.eqb_eq. pattern w0, cp, d1, d2, bo, pi, po, so, w1, lp.
  match goal with |- (fun a b c d e i j k l m => @?F a b c d e i j k l m = true) _ _ _ _ _ _ _ _ _ _ => apply (allb10 F) end.
  vm_compute. reflexivity.
Qed.
Lemma reason_ok p h g x s : chip_ok p h -> (forall c, In c (order p) -> g c = true -> has h c = true) ->
  set_ok p h (fun _ => false) x -> rg s = Z.lor (bits p h g) x -> (has_standby p = true -> sb s = g standby) ->
  fst (reason_get p h s) = mk_told (verdict p h g) (Z.lor (bits p h g) (other p x)).
Proof.
  intros K G (_ & X32 & XP & XC & XR) R SB.
  assert (HH : forall c, In c (order p) -> hit h (rg s) c = g c).
  { intros c C. rewrite R, (hit_lor p h K), (hit_bits p h K), (hit_clean h x) by auto. apply Bool.orb_false_r. }
  assert (HI : forall c, In c (order p) -> ifhit h (rg s) c = g c).
  { intros c C. unfold ifhit. rewrite HH by exact C. destruct (g c) eqn:E; [now rewrite (G c C E)|apply Bool.andb_false_r]. }
  assert (Z0 : plain p = true -> (rg s =? 0) = forallb (fun c => negb (g c)) (order p)).
  { intros P. rewrite R, (XP P), Z.lor_0_r. now apply zero_bits. }
  pose proof (same_bits p h K (rg s)) as SM.
  destruct p; cbn [reason_get plain has_standby other] in *.
  - (* Da14531 *) unfold da14531. cbn [fst]. rewrite <- R. f_equal. go HH HI.
  - (* Da1469x *) unfold da1469x. cbn [fst]. rewrite <- R. f_equal. rewrite Z0, two by reflexivity. fold (hit h (rg s) (Wdt, 0)) (hit h (rg s) (Wdt, 1)). go HH HI.
  - unfold da1468x. cbn [fst]. rewrite <- R. f_equal. go HH HI.
  - unfold saml1x. cbn [fst]. rewrite <- R. f_equal. go HH HI.
  - unfold nrf5. cbn [fst]. rewrite <- R. f_equal. go HH HI.
  - unfold s32k. cbn [fst]. rewrite <- R. f_equal. go HH HI.
  - unfold rw61x. cbn [fst]. rewrite <- R. f_equal. go HH HI.
  - (* Rt1021 *)
    assert (V : Z.land (rg s) (Z.lor (flags h) (mask h (Temp, 0))) = bits Rt1021 h g).
    { rewrite R, Z.land_lor_distr_l.
      replace (Z.land x (Z.lor (flags h) (mask h (Temp, 0)))) with 0
        by (rewrite Z.land_lor_distr_r, (XR eq_refl), (XC (Temp, 0)) by names; reflexivity).
      rewrite Z.lor_0_r. destruct (layout Rt1021 h K) as (b & B & J). apply Z.bits_inj'. intros n N. rewrite Z.land_spec. unfold bits.
      rewrite (ors_bit Rt1021 h b) by (try assumption; intros y Y; now apply filter_In in Y).
      destruct (existsb _ _) eqn:E; [|reflexivity]. apply existsb_exists in E as (c & C & Y). apply Z.eqb_eq in Y. subst n.
      apply filter_In in C as [C _]. cbn [andb]. rewrite <- (hit_bit Rt1021 h b) by assumption.
      rewrite (hit_lor Rt1021 h K), (hit_flags Rt1021 h K) by assumption.
      cbn in C. repeat (destruct C as [<-|C]; [try reflexivity|]); [|contradiction].
      cbn. rewrite (hit_bit Rt1021 h b) by (try assumption; names). destruct (B (Temp, 0)) as [P M]; [names|]. rewrite M. now apply Z.pow2_bits_true. }
    unfold rt1021. cbn [fst]. rewrite V, Z.lor_0_r. f_equal. clear HH HI.
    assert (HH : forall c, In c (order Rt1021) -> hit h (bits Rt1021 h g) c = g c) by (intros c C; now apply hit_bits).
    go HH HH.
  - unfold stm_f4. rewrite SB by reflexivity. cbn [fst]. rewrite <- R. go HH HI.
  - unfold stm_f7. cbn [fst]. rewrite <- R. f_equal. go HH HI.
  - unfold stm_h5. cbn [fst]. rewrite <- R. f_equal. go HH HI.
  - (* H7 *)
    unfold stm_h7. cbn [fst]. rewrite <- R. f_equal. change (ors h [(Wdt, 0); (User, 0); (Domain, 1); (Domain, 2); (Bor, 0); (Pin, 0); (Por, 0); (Soft, 0); (Wdt, 1); (LowP, 0)]) with (all_bits H7 h).
    rewrite !SM by (intros c; cbn; intuition). cbn [order forallb]. cascade HH HI. unfold verdict. cbn [order forallb find].
    exact (h7_table h (g (Wdt, 0)) (g (User, 0)) (g (Domain, 1)) (g (Domain, 2)) (g (Bor, 0)) (g (Pin, 0)) (g (Por, 0)) (g (Soft, 0)) (g (Wdt, 1)) (g (LowP, 0))).
  - unfold stm_l4. rewrite SB by reflexivity. cbn [fst]. rewrite <- R. go HH HI.
  - unfold stm_u5. cbn [fst]. rewrite <- R. f_equal. go HH HI.
  - unfold stm_wb. cbn [fst]. rewrite <- R. f_equal. go HH HI.
  - unfold em_rmu. cbn [fst]. rewrite <- R. f_equal. unfold verdict, first. destruct (has h (Sleep, 1)); go HH HI.
  - unfold em_emu. cbn [fst]. rewrite <- R. f_equal. go HH HI.
  - (* Siwx *)
    unfold siwx. cbn [fst]. rewrite <- R. f_equal. destruct (ch_siwx _ _ K eq_refl) as [M1 M2].
    pose proof (HH (Por, 0)) as A. pose proof (HH (Pin, 0)) as B. unfold hit in A, B. rewrite M1 in A. rewrite M2 in B.
    change (2 ^ 16) with 0x10000 in A. change (2 ^ 17) with 0x20000 in B. unfold verdict. rewrite <- A, <- B by names.
    destruct (Z.land (rg s) 0x10000 =? 0); [reflexivity|]. destruct (Z.land (rg s) 0x20000 =? 0); reflexivity.
  - unfold nrfx_power. cbn [fst]. rewrite <- R. f_equal. rewrite Z0 by reflexivity. go HH HI.
  - unfold nrfx_reset. cbn [fst]. rewrite <- R. f_equal. rewrite Z0 by reflexivity.
    replace (has h (Soft, 1) && hit h (rg s) (Debug, 2)) with (g (Debug, 2)).
    2: { rewrite <- (ch_net _ _ K) by reflexivity. symmetry. apply (HI (Debug, 2)). names. }
    go HH HI.
  - (* Hwinfo *)
    unfold hwinfo. rewrite (ch_hw _ _ K eq_refl). change (negb (0 =? 0)) with false. cbv iota. cbn [fst]. rewrite <- R. f_equal. rewrite Z0 by reflexivity.
    assert (T : forall c, In c (order Hwinfo) -> u16 (mask h c) = mask h c).
    { intros c C. destruct K as [(b & B & _) _ _ _ _]. destruct (B c C) as [[? ?] M]. rewrite M. unfold u16. apply Z.mod_small.
      split; [apply Z.pow_nonneg; lia|]. apply Z.pow_lt_mono_r; lia. }
    unfold hw_table. cbn [map hw_loop fst snd]. rewrite !T by names.
    repeat match goal with |- context [negb (Z.land (rg s) (mask h ?c) =? 0)] => change (negb (Z.land (rg s) (mask h c) =? 0)) with (hit h (rg s) c) end.
    fold (no_por_bit h). unfold verdict, first. destruct (no_por_bit h); go HH HI.
Qed.

Lemma left_ok p h g s : chip_ok p h -> (forall c, In c (order p) -> hit h (rg s) c = g c) ->
  let s' := snd (reason_get p h s) in
  (forall c, In c (order p) -> sticky p = true -> hit h (rg s') c = left p h g c) /\ (has_standby p = true -> sb s' = false).
Proof.
  intros K HH s'. assert (ST : forall c, In c (order p) -> ceq c standby = false).
  { intros c C. destruct p; cbn in C; repeat (destruct C as [<-|C]; [reflexivity|]); contradiction. }
  assert (L : forall c, In c (order p) -> left p h g c = hit h (rg s) c && sticky p && negb (always_clears p || (clr h && negb (match p, fst c with Rt1021, Temp => true | _, _ => false end)))).
  { intros c C. unfold left. now rewrite ST, HH. }
  assert (CL : forall v c, In c (order p) -> v = flags h -> hit h (w1c (rg s) v) c = hit h (rg s) c && match p, fst c with Rt1021, Temp => true | _, _ => false end).
  { intros v c C ->. now apply cleared. }
  subst s'. destruct p; cbn [reason_get sticky has_standby always_clears] in *; (split; [intros c C T; try discriminate T; rewrite L by exact C; clear L|intros T; try discriminate T]).
  all: try (replace (snd (hwinfo h s)) with (if clr h then keep s (w1c (rg s) (flags h)) else s) by (unfold hwinfo; destruct (negb (hw_rv h =? 0)); reflexivity)).
  all: try (unfold da1469x, da1468x, nrf5, rt1021, stm_f7, stm_h5, stm_h7, stm_u5, stm_wb, em_rmu, em_emu, nrfx_power, nrfx_reset; cbn [snd keep rg]).
  all: try (rewrite (CL (flags h)) by (try exact C; reflexivity)).
  all: try (now rewrite ?Bool.andb_false_r).
  all: try (destruct (clr h); cbn [keep rg andb orb negb]; rewrite ?(CL (flags h)) by (try exact C; reflexivity); rewrite ?Z.lor_diag, ?w1c_self, ?hit_0, ?Bool.andb_false_r, ?Bool.andb_true_r; try reflexivity).
  - destruct (sdh h); apply w1c_self.
  - destruct (sdh h); apply w1c_self.
  - now rewrite Bool.negb_involutive.
  - unfold stm_f4. destruct (sb s); cbn [snd rg]; now rewrite (CL (flags h)), ?Bool.andb_false_r by (try exact C; reflexivity).
  - unfold stm_f4. destruct (sb s); cbn [snd rg]; now rewrite (CL (flags h)), ?Bool.andb_false_r by (try exact C; reflexivity).
  - unfold stm_f4. destruct (sb s) eqn:E; reflexivity.
  - unfold stm_f4. destruct (sb s) eqn:E; reflexivity.
  - unfold stm_l4. destruct (sb s); cbn [snd rg]; now rewrite (CL (flags h)), ?Bool.andb_false_r by (try exact C; reflexivity).
  - unfold stm_l4. destruct (sb s); cbn [snd rg]; now rewrite (CL (flags h)), ?Bool.andb_false_r by (try exact C; reflexivity).
  - unfold stm_l4. destruct (sb s) eqn:E; reflexivity.
  - unfold stm_l4. destruct (sb s) eqn:E; reflexivity.
Qed.

Lemma boots_ok p h l : chip_ok p h -> forall s g,
  (forall c, In c (order p) -> g c = sticky p && hit h (rg s) c) -> (has_standby p = true -> g standby = sb s) ->
  (forall c, In c (order p) -> g c = true -> has h c = true) ->
  Forall (fun e => set_ok p h (fst e) (snd e)) l ->
  boots p h s l = expected p h g l.
Proof.
  intros K. induction l as [|[f x] l IH]; intros s g GH GS GA F; [reflexivity|].
  apply Forall_cons_iff in F as [(FA & X32 & XP & XC & XR) F]. cbn [fst snd] in *.
  cbn [boots expected]. set (g' := fun c => g c || f c). set (s1 := reset_chip p h s f x).
  assert (HH : forall c, In c (order p) -> hit h (rg s1) c = g' c).
  { intros c C. subst s1. unfold reset_chip. cbn [rg]. rewrite !(hit_lor p h K), (hit_bits p h K), (hit_clean h x) by auto.
    rewrite Bool.orb_false_r. unfold g'. rewrite GH by exact C. f_equal. destruct (sticky p); cbn [andb]; [|apply hit_0].
    rewrite (hit_land p h K), (hit_all p h K) by exact C. apply Bool.andb_true_r. }
  assert (R : rg s1 = Z.lor (bits p h g') x).
  { rewrite <- (value p h K (rg s1) x g' HH). subst s1. unfold reset_chip. cbn [rg].
    rewrite !Z.land_lor_distr_l. rewrite !Z.lor_assoc. 
    assert (B : forall f, Z.land (bits p h f) (all_bits p h) = bits p h f).
    { intros q. apply Z.eqb_eq. unfold bits at 2. rewrite (same_bits p h K) by (intros y Y; now apply filter_In in Y).
      apply forallb_forall. intros c C. rewrite (hit_bits p h K) by exact C. apply Bool.eqb_true_iff, Bool.eq_true_iff_eq. rewrite among_spec, filter_In. tauto. }
    assert (X0 : Z.land x (all_bits p h) = 0).
    { change 0 with (ors h []). apply Z.eqb_eq. rewrite (same_bits p h K) by (intros y []). apply forallb_forall. intros c C. now rewrite (hit_clean h x) by auto. }
    rewrite B, X0, Z.lor_0_r. do 2 f_equal. destruct (sticky p); [|reflexivity]. now rewrite <- Z.land_assoc, Z.land_diag. }
  assert (SB : has_standby p = true -> sb s1 = g' standby).
  { intros T. subst s1. unfold reset_chip. cbn [sb]. rewrite T. unfold g'. now rewrite (GS T). }
  assert (GA' : forall c, In c (order p) -> g' c = true -> has h c = true).
  { intros c C. unfold g'. rewrite Bool.orb_true_iff. intros [E|E]; [now apply GA|now apply FA]. }
  pose proof (reason_ok p h g' x s1 K GA') as RO. pose proof (left_ok p h g' s1 K HH) as [LO LB].
  destruct (reason_get p h s1) as [t s2]. cbn [fst snd] in *. f_equal.
  - apply RO; [|exact R|exact SB]. repeat split; try assumption; try apply X32. intros c C E. discriminate.
  - apply IH; [|intros T; rewrite (LB T)| |exact F].
    + intros c C. destruct (sticky p) eqn:T; [now rewrite LO by auto|].
      unfold left. rewrite T. replace (ceq c standby) with false; [now rewrite Bool.andb_false_r|].
      symmetry. clear - C. destruct p; cbn in C; repeat (destruct C as [<-|C]; [reflexivity|]); contradiction.
    + unfold left. destruct p; try discriminate T; cbn; apply Bool.andb_false_r.
    + intros c C E. unfold left in E. apply GA'; [exact C|]. now destruct (g' c).
Qed.

Lemma one_reset p h c g : In c (resets p) -> raises p h c g -> misreported p h c = false ->
  verdict p h g = says p c.
Proof.
  intros I R M.
  assert (Yes : forall x, among x (bits_of p) = true -> among x (sets p h c) = true -> g x = true) by (intros x X; apply among_spec in X; exact (proj1 (R x X))).
  assert (No : forall x, among x (bits_of p) = true -> among x (sets p h c ++ may_set p c) = false -> g x = false).
  { intros x X A. apply among_spec in X. destruct (g x) eqn:E; [|reflexivity]. rewrite (proj2 (R x X) E) in A. discriminate. }
  clear R.
  destruct p; cbn in I; repeat (destruct I as [<-|I]; [|]); try contradiction; cbn in M; try discriminate M; unfold verdict, first;
    unfold sets, no_por_bit in Yes, No; unfold no_por_bit; cbn;
    try (destruct (match hw_sup h with Some m => Z.land m (mask h (Por, 0)) =? 0 | None => false end)); try (apply Bool.negb_false_iff in M; rewrite M); cbn;
    repeat (match goal with
    | |- context [g ?x] => first [rewrite (Yes x eq_refl eq_refl) | rewrite (No x eq_refl eq_refl) | destruct (g x)] end; cbn; try reflexivity).
Qed.

(** Boots after single causes. *)
Lemma left_none p h c f g : tidy p h = true -> stuck p c = false -> raises p h c f -> In c (resets p) ->
  (forall y, In y (bits_of p) -> g y = f y) -> forall y, In y (bits_of p) -> left p h g y = false.
Proof.
  intros T S R I E y Y. unfold left. rewrite (E y Y). unfold tidy in T.
  destruct (always_clears p) eqn:A; [cbn; apply Bool.andb_false_r|]. cbn [orb] in *. rewrite Bool.orb_false_r in T.
  destruct (sticky p) eqn:SK; cbn [negb orb] in T.
  - rewrite T. cbn [andb]. rewrite Bool.negb_involutive. destruct p; cbn in *; rewrite ?Bool.andb_false_r; try reflexivity.
    destruct (R y Y) as [_ R2]. destruct (f y); [|reflexivity]. specialize (R2 eq_refl).
    repeat (destruct I as [<-|I]; [repeat (destruct Y as [<-|Y]; [now (reflexivity || discriminate)|]); contradiction|]). contradiction.
  - rewrite Bool.orb_false_r. replace (ceq y standby) with false; [now rewrite Bool.andb_false_r|].
    symmetry. destruct p; try discriminate SK; cbn in Y; repeat (destruct Y as [<-|Y]; [reflexivity|]); contradiction.
Qed.
Lemma bits_ext p h f g : (forall c, In c (order p) -> f c = g c) -> bits p h f = bits p h g.
Proof. intros H. unfold bits. f_equal. now apply filter_ext_in. Qed.
Lemma order_bits p c : In c (order p) -> In c (bits_of p).
Proof. unfold bits_of. destruct (has_standby p); [now right|trivial]. Qed.

Lemma expected_single p h l : tidy p h = true -> forall g, (forall y, In y (bits_of p) -> g y = false) ->
  Forall (fun e => In (fst (fst e)) (resets p) /\ raises p h (fst (fst e)) (snd (fst e)) /\ misreported p h (fst (fst e)) = false /\ stuck p (fst (fst e)) = false) l ->
  expected p h g (map (fun e => (snd (fst e), snd e)) l)
  = map (fun e => mk_told (says p (fst (fst e))) (Z.lor (bits p h (snd (fst e))) (other p (snd e)))) l.
Proof.
  intros T. induction l as [|[[c f] x] l IH]; intros g G F; [reflexivity|].
  apply Forall_cons_iff in F as [(I & R & M & S) F]. cbn [fst snd map] in *. cbn [expected].
  set (g' := fun c => g c || f c).
  assert (E : forall y, In y (bits_of p) -> g' y = f y) by (intros y Y; unfold g'; now rewrite G).
  f_equal.
  - f_equal.
    + apply one_reset; try assumption. intros y Y. rewrite (E y Y). exact (R y Y).
    + unfold other. f_equal. apply bits_ext. intros y Y. apply E. now apply order_bits.
  - apply IH; [|exact F]. now apply (left_none p h c f g').
Qed.

Theorem boots_single p h s l : chip_ok p h -> tidy p h = true ->
  (forall c, In c (order p) -> sticky p = true -> hit h (rg s) c = false) -> (has_standby p = true -> sb s = false) ->
  Forall (fun e => In (fst (fst e)) (resets p) /\ raises p h (fst (fst e)) (snd (fst e)) /\ misreported p h (fst (fst e)) = false /\ stuck p (fst (fst e)) = false
     /\ set_ok p h (snd (fst e)) (snd e)) l ->
  boots p h s (map (fun e => (snd (fst e), snd e)) l)
  = map (fun e => mk_told (says p (fst (fst e))) (Z.lor (bits p h (snd (fst e))) (other p (snd e)))) l.
Proof.
  intros K T H B F. rewrite (boots_ok p h _ K s (fun _ => false)).
  - apply expected_single; [exact T|reflexivity|]. eapply Forall_impl; [|exact F]. cbn. tauto.
  - intros c C. destruct (sticky p) eqn:E; [now rewrite H|reflexivity].
  - intros E. now rewrite B.
  - intros c C E. discriminate.
  - apply Forall_map. eapply Forall_impl; [|exact F]. cbn. tauto.
Qed.

(** Enums. *)
Lemma enum_known q m33 m7 e c : enum_ok q m33 m7 e -> In c (known q m33 m7) ->
  enum_get q m33 m7 e (e c) = mk_told (tells q c) (raw q (e c)).
Proof.
  intros [J N] C.
  assert (D : forall a b, In a (known q m33 m7) -> In b (known q m33 m7) -> (e a =? e b) = ceq a b).
  { intros a b A B. apply Bool.eq_true_iff_eq. rewrite Z.eqb_eq, ceq_spec. split; [now apply J|now intros ->]. }
  destruct m33, m7, q; unfold enum_get, esp8266, esp_idf, mynewt, particle, psoc6, raw; f_equal;
    try rewrite (proj2 (Z.eqb_neq _ _) (N c C eq_refl)); cbn [known andb orb app] in *;
    repeat match goal with |- context [e ?a =? e ?b] => rewrite (D a b) by (first [exact C | names]) end;
    cbn in C; repeat (destruct C as [<-|C]; [reflexivity|]); contradiction.
Qed.
Lemma enum_unknown q m33 m7 e x : (forall c, In c (known q m33 m7) -> x <> e c) ->
  enum_get q m33 m7 e x = mk_told (otherwise q x) (raw q x).
Proof.
  intros N.
  assert (D : forall c, In c (known q m33 m7) -> (x =? e c) = false) by (intros c C; now apply Z.eqb_neq, N).
  destruct m33, m7, q; unfold enum_get, esp8266, esp_idf, mynewt, particle, psoc6, raw, otherwise; f_equal;
    cbn [known andb orb app] in *; rewrite ?D by names; cbn [andb orb]; try reflexivity; now destruct (x =? 0).
Qed.
Lemma standby_free p c : In c (order p) -> ceq c standby = false.
Proof. intros C. destruct p; cbn in C; repeat (destruct C as [<-|C]; [reflexivity|]); contradiction. Qed.
Theorem boots_now p h s l : chip_ok p h -> (forall c, In c (order p) -> set_now p h s c = true -> has h c = true) ->
  Forall (fun e => set_ok p h (fst e) (snd e)) l -> boots p h s l = expected p h (set_now p h s) l.
Proof.
  intros K H F. apply boots_ok; try assumption.
  - intros c C. unfold set_now. now rewrite (standby_free p c C).
  - intros _. reflexivity.
Qed.
