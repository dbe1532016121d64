From Verif Require Import Base Conc ConcSpec CircularBuffer CircularBufferProofs Log LogSpec LogLists LogProofs LogHistoryProofs
  LockConc LockConcSpec LockConcProofs.

(** ** The log *)
Definition hlive (h : hist) : Prop := h_sane h = true /\ h_sent h = 0 /\ h_up h = None /\ 0 <= h_next h.
Lemma hist_total M cap h tse o : hlive h -> log_call tse o -> exists r h', hist_step M cap h o = Some (r, h') /\ hlive h'.
Proof.
  intros (H1 & H2 & H3 & H4) HO. destruct (first_range cap (h_saved h)) as (FR & _).
  destruct o as [level type ts text| | | | | | |]; try contradiction; cbn [hist_step].
  - unfold hist_save. cbn [l_level]. destruct (level <? h_min h); [do 2 eexists; split; [reflexivity|repeat split; assumption]|].
    rewrite H3, orb_false_r. destruct (cap <? _); do 2 eexists; (split; [reflexivity|]); (split; [|repeat split; assumption]); cbn [h_sane].
    + exact H1.
    + rewrite H1, H2. cbn [andb]. apply Z.leb_le. lia.
  - rewrite H1. destruct (negb _ && _); [do 2 eexists; split; [reflexivity|repeat split; assumption]|].
    destruct (nth_error _ _); do 2 eexists; (split; [reflexivity|]); repeat split; try assumption. cbn [h_next]. lia.
  - do 2 eexists. split; [reflexivity|repeat split; assumption].
Qed.
Definition log_holds (M : Z) (tse : bool) (cap : Z) (s : lg) (h : hist) : Prop :=
  hlive h /\ exists v, lsim M tse cap s v /\ hsim cap h v.
Lemma log_min_early o s h M tse cap r : log_holds M tse cap s h -> ends_early lg log_op log_res Z lg_min log_early o s = Some r ->
  hist_step M cap h o = Some (r, h).
Proof.
  intros (_ & v & K & Q). unfold ends_early. destruct o as [level type ts text| | | | | | |]; cbn [log_early]; try discriminate.
  rewrite (k_min _ _ _ _ _ K), (q_min _ _ _ Q). cbn [hist_step]. unfold hist_save. cbn [l_level].
  destruct (level <? h_min h); [|discriminate]. intros E. injection E as <-. reflexivity.
Qed.
Theorem log_calls_ok M tse storage min (body : log_op -> prog lg log_res) sched :
  lcap (zlen storage) -> 4 <= M <= 255 ->
  (forall o, log_call tse o -> lock_free (body o) /\ keeps lg_min (body o)) ->
  (forall o s, log_call tse o -> match log_early o with Some f => f (lg_min s) | None => None end = None ->
     solo (body o) s = log_step M tse s o) ->
  starts_only (log_call tse) sched ->
  exists s m h, log_boot storage (zlen storage) min = Some (Some s) /\
    mach_run (log_code body) (start_mach s) sched = Some m /\ no_deadlock m /\
    linearizes (hist_step M (zlen storage)) (hist_init min) (m_hist m) h /\
    (m_owner m = None -> parse_logs (Z.to_nat (zlen storage)) (content (lg_cb (m_shared m))) =
       Some (flagged (h_next h) (h_sent h) (first (zlen storage) (h_saved h)) (fit (zlen storage) (h_saved h)))).
Proof.
  intros Hc HM HB HS HL. destruct (log_boot_ok M tse storage min Hc) as (s & EB & K). exists s.
  destruct (locked lg log_op log_res hist Z lg_min log_early body (hist_step M (zlen storage)) (log_holds M tse (zlen storage)) (log_call tse)
    (fun o H => proj1 (HB o H)) (fun o H => proj2 (HB o H))) with (s0 := s) (v0 := hist_init min) (sched := sched) as (m & h & E & ND & L & SM).
  - intros s1 h o r LH _ EE. eapply log_min_early; eassumption.
  - intros s1 h o (HI & v & K1 & Q1) HO EE. destruct (hist_total M (zlen storage) h tse o HI HO) as (r & h' & EH & HI').
    destruct (hist_step_ok M _ _ _ _ _ _ Hc Q1 EH) as (v' & EV & Q2).
    assert (HO' : log_op_ok tse o) by (destruct o; cbn in *; tauto).
    destruct (log_step_ok M tse _ _ _ _ _ _ Hc HM K1 HO' EV) as (s2 & ES & K2).
    exists r, s2, h'. split; [rewrite HS; [exact ES|exact HO|exact EE]|]. split; [exact EH|]. split; [exact HI'|]. exists v'. auto.
  - split; [repeat split; cbn; lia|]. eexists. split; [exact K|apply hist_init_ok].
  - exact HL.
  - exists m, h. split; [exact EB|]. split; [exact E|]. split; [exact ND|]. split; [exact L|].
    intros EO. destruct (SM EO) as (_ & v & KS & KV).
    pose proof (k_cb _ _ _ _ _ KS) as CB. destruct (cb_is_sz _ _ _ CB) as (_ & _ & RR). destruct CB as (_ & _ & C). rewrite C.
    rewrite (parse_lenc M tse) by (try apply KS; pose proof (rooms_zlen (v_logs v)); unfold zlen in *; lia).
    rewrite (q_logs _ _ _ KV), unflag_flag. reflexivity.
Qed.

(** The bodies of the model are such: alone, each is its call. *)
Lemma free_loop_min fuel : forall s n t b s', log_free_loop fuel s n t = Some (b, s') -> lg_min s' = lg_min s.
Proof.
  induction fuel as [|f IH]; intros s n t b s' H; cbn [log_free_loop] in H.
  - destruct (t =? 0); [now inv H|discriminate].
  - destruct (t =? 0); [now inv H|]. binv H.
    match type of H with context [let '(hdr, len) := ?x in _] => destruct x as (hdr & len) end.
    set (s1 := if negb _ then _ else _) in H. assert (E1 : lg_min s1 = lg_min s) by (unfold s1; destruct (negb _); reflexivity).
    destruct (_ <=? 0); [inv H; exact E1|]. apply IH in H. rewrite H. exact E1.
Qed.
Lemma try_free_min s n b s' : log_try_free_space s n = Some (b, s') -> lg_min s' = lg_min s.
Proof.
  unfold log_try_free_space. destruct (_ <=? 0); [intros H; now inv H|]. destruct (_ <? _); [intros H; now inv H|].
  destruct (lg_trig s); [intros H; now inv H|]. apply free_loop_min.
Qed.
Lemma p_save_free M level type ts text : lock_free (p_save M level type ts text).
Proof.
  unfold p_save. cbn. intros b. destruct b; cbn; [intros _ _|auto]. destruct ts; cbn; auto.
Qed.
Lemma p_save_keeps M level type ts text : keeps lg_min (p_save M level type ts text).
Proof.
  unfold p_save. cbn [pbind keeps]. split; [intros s x s' H; eapply try_free_min; exact H|]. intros b.
  assert (W : forall l s (x : unit) s', (do w <- cb_write (lg_cb s) l; Some (tt, lset_cb s (snd w))) = Some (x, s') -> lg_min s' = lg_min s).
  { intros l s x s' H. binv H. inv H. reflexivity. }
  destruct b; cbn [pbind keeps change].
  - split; [intros s x s' H; now inv H|]. intros _. split; [apply W|]. intros _.
    destruct ts; cbn [pbind keeps]; repeat (split; [apply W|intros _]); exact I.
  - split; [intros s x s' H; now inv H|]. auto.
Qed.
Lemma p_save_solo M tse level type ts text s : level <? lg_min s = false ->
  solo (p_save M level type ts text) s = log_step M tse s (LSave level type ts text).
Proof.
  intros EL. cbn [log_step]. unfold log_save, p_save. rewrite EL. cbn [pbind solo].
  set (n := 2 + _). destruct (log_try_free_space s n) as [(b & s1)|]; [|reflexivity]. cbn [bind].
  destruct b; cbn [pbind solo change bind]; [|reflexivity].
  set (s2 := lset_recorded _ _). destruct (cb_write (lg_cb s2) _) as [w|]; [|reflexivity]. cbn [bind].
  destruct ts as [t|]; cbn [pbind solo].
  - cbn [lset_cb lg_cb]. destruct (cb_write (snd w) _) as [w2|]; [|reflexivity]. cbn [bind].
    change (lg_cb (lset_cb (lset_cb s2 (snd w)) (snd w2))) with (snd w2).
    destruct (cb_write (snd w2) _) as [w3|]; reflexivity.
  - cbn [lset_cb lg_cb bind]. destruct (cb_write (snd w) _) as [w3|]; reflexivity.
Qed.
Lemma log_body_ok M tse o : log_call tse o -> lock_free (log_body M tse o) /\ keeps lg_min (log_body M tse o).
Proof.
  intros HO. destruct o as [level type ts text| | | | | | |]; try contradiction; cbn [log_body].
  - split; [apply p_save_free|apply p_save_keeps].
  - cbn [lock_free keeps]. split; [auto|]. split; [|auto]. intros s x s' H. cbn [log_step] in H. binv H. destruct v as (r & s1). inv H.
    unfold log_read in E. destruct (negb _); [destruct (0 <? _)|].
    + inv E. reflexivity.
    + binv E. destruct v as ((c & r') & off). inv E. reflexivity.
    + binv E. destruct v as ((c & r') & off). inv E. reflexivity.
  - cbn [lock_free keeps]. split; [auto|]. split; [|auto]. intros s x s' H. cbn [log_step] in H. binv H. now inv H.
Qed.
Lemma log_body_solo M tse o s : log_call tse o -> match log_early o with Some f => f (lg_min s) | None => None end = None ->
  solo (log_body M tse o) s = log_step M tse s o.
Proof.
  intros HO HE. destruct o as [level type ts text| | | | | | |]; try contradiction.
  - apply p_save_solo. cbn [log_early] in HE. destruct (level <? lg_min s); [discriminate|reflexivity].
  - cbn [log_body solo]. destruct (log_step M tse s LRead) as [(x & s')|]; reflexivity.
  - cbn [log_body solo]. destruct (log_step M tse s LCount) as [(x & s')|]; reflexivity.
Qed.

(** ** Runs *)
Lemma never_started {S Op R} (code : Op -> prog S R) t : forall sched m m', (forall o, ~ In (Start t o) sched) -> m_thread m t = None ->
  mach_run code m sched = Some m' -> m_thread m' t = None.
Proof.
  induction sched as [|i l IH]; intros m m' NI NT H; cbn [mach_run] in H; [now inv H|]. binv H.
  apply IH with (m := v); [intros o X; apply (NI o); right; exact X| |exact H].
  destruct i as [u o|u]; cbn [mach_step] in E.
  - destruct (m_thread m u) as [x|] eqn:EU; [now inv E|]. inv E. cbn [m_thread]. unfold upd. destruct (Nat.eqb_spec t u) as [->|]; [|exact NT].
    exfalso. apply (NI o). left. reflexivity.
  - destruct (m_thread m u) as [(o & p)|] eqn:EU; [|now inv E].
    assert (N : t <> u) by congruence.
    assert (U : forall T (x : T), upd (fun _ => x) u x t = x) by (intros; unfold upd; destruct (Nat.eqb t u); reflexivity).
    destruct p as [r|k|k|X f k].
    + inv E. cbn [m_thread]. unfold upd. destruct (Nat.eqb_spec t u); congruence.
    + destruct (m_owner m); inv E; [exact NT|]. cbn [m_thread]. unfold upd. destruct (Nat.eqb_spec t u); congruence.
    + destruct (m_owner m) as [w|]; [|discriminate]. destruct (Nat.eqb w u); inv E. cbn [m_thread]. unfold upd. destruct (Nat.eqb_spec t u); congruence.
    + destruct (f (m_shared m)) as [(x & s)|]; inv E. cbn [m_thread]. unfold upd. destruct (Nat.eqb_spec t u); congruence.
Qed.
Definition starts_in (threads : list nat) (sched : list (item log_op)) : bool :=
  forallb (fun i => match i with Start t _ => existsb (Nat.eqb t) threads | Step _ => true end) sched.
(** The upload is not there: nobody is in a call, and fewer logs are left than announced. *)
Definition gone (cap : Z) (threads : list nat) (m : mach lg log_op log_res) : bool :=
  match m_owner m with None => true | Some _ => false end &&
  forallb (fun t => match m_thread m t with None => true | Some _ => false end) threads &&
  lg_trig (m_shared m) && match unsent_in cap (m_shared m) with Some n => n <? lg_num (m_shared m) | None => true end.
Lemma gone_ok cap threads code s sched m : starts_in threads sched = true -> mach_run code (start_mach s) sched = Some m ->
  gone cap threads m = true -> ~ upload_there cap m.
Proof.
  intros HS HR HG HU. unfold gone in HG. apply andb_prop in HG as (HG & H4). apply andb_prop in HG as (HG & H3). apply andb_prop in HG as (H1 & H2).
  assert (QU : quiet m).
  { split; [destruct (m_owner m); [discriminate|reflexivity]|]. intros t. destruct (existsb (Nat.eqb t) threads) eqn:EX.
    - rewrite forallb_forall in H2. apply existsb_exists in EX as (u & IN & EQ). apply Nat.eqb_eq in EQ as ->. specialize (H2 _ IN).
      destruct (m_thread m u); [discriminate|reflexivity].
    - apply (never_started code t sched (start_mach s) m); [|reflexivity|exact HR]. intros o IN. unfold starts_in in HS. rewrite forallb_forall in HS.
      specialize (HS _ IN). cbn in HS. congruence. }
  destruct (HU QU H3) as (n & E & L). rewrite E in H4. apply Z.ltb_lt in H4. lia.
Qed.
