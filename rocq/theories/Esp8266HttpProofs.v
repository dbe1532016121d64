From Coq Require Import String.
From Verif Require Import Base Packetizer PacketizerSpec PacketizerProofs Uplink UplinkSpec UplinkProofs SinkProofs EspHttp EspHttpSpec EspHttpProofs Esp8266Http Esp8266HttpSpec.

(** The sizes tried: the largest, then half of it, while more than 512 *)
Lemma alloc8_loop_ok fuel mem : (forall n b, mem n = Some b -> zlen b = n) -> forall size, 0 < size -> size < 2 ^ Z.of_nat fuel ->
  match alloc8_loop fuel mem size with
  | (Some b, l) => 512 < zlen b <= size /\ (exists k, 0 <= k /\ zlen b = size / 2 ^ k /\ mem (zlen b) = Some b /\ forall j, 0 <= j < k -> mem (size / 2 ^ j) = None) /\
      exists l', l = l' ++ [EMalloc (zlen b) true] /\ Forall (fun e => exists n, e = EMalloc n false) l'
  | (None, l) => (forall j, 0 <= j -> 512 < size / 2 ^ j -> mem (size / 2 ^ j) = None) /\ Forall (fun e => exists n, e = EMalloc n false) l
  end.
Proof.
  intros Hm. induction fuel as [|fuel IH]; intros size P L.
  - change (2 ^ Z.of_nat 0) with 1 in L. lia.
  - cbn [alloc8_loop]. destruct (Z.ltb_spec 512 size) as [G|G].
    + destruct (mem size) as [b|] eqn:E.
      * pose proof (Hm _ _ E) as Z0. rewrite Z0. split; [lia|]. split.
        { exists 0. split; [lia|]. change (2 ^ 0) with 1. rewrite Z.div_1_r. split; [reflexivity|]. split; [exact E|lia]. }
        { exists []. split; [reflexivity|constructor]. }
      * assert (H2 : 0 < size / 2) by (apply Z.div_str_pos; lia).
        assert (L2 : size / 2 < 2 ^ Z.of_nat fuel).
        { apply Z.div_lt_upper_bound; [lia|]. rewrite <- Z.pow_succ_r by lia. replace (Z.succ (Z.of_nat fuel)) with (Z.of_nat (S fuel)) by lia. exact L. }
        specialize (IH _ H2 L2). assert (Dv : forall j, 0 <= j -> size / 2 / 2 ^ j = size / 2 ^ (j + 1)).
        { intros j Hj. rewrite Z.div_div by (try lia; apply Z.pow_pos_nonneg; lia). f_equal. rewrite Z.pow_add_r by lia. change (2 ^ 1) with 2. lia. }
        destruct (alloc8_loop fuel mem (size / 2)) as [[b|] l].
        -- destruct IH as (I1 & (k & I2 & I3 & I4 & I5) & l' & -> & I6). split; [|split].
           ++ split; [lia|]. pose proof (Z.div_le_upper_bound size 2 size). lia.
           ++ exists (k + 1). split; [lia|]. split; [rewrite I3; now apply Dv|]. split; [exact I4|]. intros j Hj.
              destruct (Z.eq_dec j 0) as [->|]; [change (2 ^ 0) with 1; now rewrite Z.div_1_r|]. replace j with (j - 1 + 1) by lia. rewrite <- Dv by lia. apply I5. lia.
           ++ exists (EMalloc size false :: l'). split; [reflexivity|]. constructor; eauto.
        -- destruct IH as (I1 & I2). split; [|constructor; eauto]. intros j Hj Hz.
           destruct (Z.eq_dec j 0) as [->|]; [change (2 ^ 0) with 1; now rewrite Z.div_1_r|]. replace j with (j - 1 + 1) in * by lia. rewrite <- Dv in * by lia. apply I1; [lia|exact Hz].
    + split; [|constructor]. intros j Hj Hz. exfalso. assert (size / 2 ^ j <= size); [|lia]. apply Z.div_le_upper_bound; [apply Z.pow_pos_nonneg; lia|].
      pose proof (Z.pow_pos_nonneg 2 j). nia.
Qed.
Lemma alloc8_ok mem most : (forall n b, mem n = Some b -> zlen b = n) -> 0 < most ->
  match alloc8 mem most with
  | (Some b, l) => 512 < zlen b <= most /\ (exists k, 0 <= k /\ zlen b = most / 2 ^ k /\ mem (zlen b) = Some b /\ forall j, 0 <= j < k -> mem (most / 2 ^ j) = None) /\
      exists l', l = l' ++ [EMalloc (zlen b) true] /\ Forall (fun e => exists n, e = EMalloc n false) l'
  | (None, l) => (forall j, 0 <= j -> 512 < most / 2 ^ j -> mem (most / 2 ^ j) = None) /\ Forall (fun e => exists n, e = EMalloc n false) l
  end.
Proof.
  intros Hm P. apply alloc8_loop_ok; [exact Hm|exact P|]. pose proof (Z.log2_spec most P). pose proof (Z.log2_nonneg most).
  replace (Z.of_nat (S (Z.to_nat (Z.log2 most)))) with (Z.succ (Z.log2 most)) by lia. lia.
Qed.

(* ------------------------------------------------------------ the roots *)
Lemma probe_url_ok c : snd (build_url c []) = take 127 (probe_url (ec_plain c) (ec_chunks c) (ec_serial c)).
Proof.
  unfold build_url, probe_url, scheme, printed. cbn [snd]. change (128 - 1) with 127. f_equal.
  change (str "/api/v0//") with (str "/api/v0/" ++ [] ++ str "/"). rewrite <- !app_assoc.
  destruct (ec_plain c); [change (str "http://") with (str "http" ++ str "://")|change (str "https://") with (str "https" ++ str "://")]; now rewrite <- !app_assoc.
Qed.

Lemma try_ok plain init url : (forall i, init i = true) -> forall l ps i, Forall perf_ok ps ->
  exists ok ps' gs evs, try_roots plain init ps url i l = Some (ok, ps', gs, evs) /\ Forall perf_ok ps' /\
    Forall (fun g => g8_url g = url) gs /\ (exists l1 r, l = l1 ++ r /\ map g8_root gs = map (root_of plain) l1 /\
      (if ok then exists gs' g, gs = gs' ++ [g] /\ got_on g /\ Forall (fun g => ~ got_on g) gs' else r = [] /\ Forall (fun g => ~ got_on g) gs)) /\
    held_after evs 0 0 = Some (0, if ok then 1 else 0).
Proof.
  intros Hi. induction l as [|r l IH]; intros ps i F; cbn [try_roots].
  - exists false, ps, [], []. split; [reflexivity|]. split; [exact F|]. split; [constructor|]. split; [exists [], []; repeat split; constructor|reflexivity].
  - rewrite Hi. cbn [negb]. set (p := match ps with p :: _ => p | [] => no_connection end). set (ps1 := match ps with _ :: ps => ps | [] => [] end).
    assert (F1 : Forall perf_ok ps1) by (unfold ps1; destruct ps; [constructor|now apply Forall_inv_tail in F]).
    destruct (Z.eqb_spec (pf_err p) 0) as [E|E].
    + eexists true, ps1, [_], _. split; [reflexivity|]. split; [exact F1|]. split; [constructor; [reflexivity|constructor]|]. split; [|reflexivity].
      exists [r], l. split; [reflexivity|]. split; [reflexivity|]. exists [], (mk_g8 url (if plain then None else Some r) p). split; [reflexivity|]. split; [exact E|constructor].
    + destruct (IH ps1 (i + 1) F1) as (ok & ps' & gs & evs & Q & F2 & G & (l1 & r1 & -> & M & X) & H). rewrite Q. cbn [bind].
      eexists ok, ps', (_ :: gs), _. split; [reflexivity|]. split; [exact F2|]. split; [constructor; [reflexivity|exact G]|]. split; [|cbn [held_after]; exact H].
      exists (r :: l1), r1. split; [reflexivity|]. split; [cbn [map]; rewrite M; reflexivity|]. destruct ok.
      * destruct X as (gs' & g & -> & X1 & X2). eexists (_ :: gs'), g. split; [reflexivity|]. split; [exact X1|]. constructor; [exact E|exact X2].
      * destruct X as (X1 & X2). split; [exact X1|]. constructor; [exact E|exact X2].
Qed.

(* ------------------------------------------------------------ uploads *)
Section Esp8266.
Context {W A O Re : Type}.
Variables (so : sources W) (cfg : up_cfg) (app : W -> O -> option (Re * W)) (dev : device A O Re) (rel : option (src * Z) -> W -> A -> Prop).
Hypothesis K : keeps_contract so cfg app dev rel.
Variables (ec : e_cfg) (most : Z).
Hypothesis Hmost : 0 < most < 4294967296.
Notation uinv := (uinv cfg dev rel).
Notation drained mask a := (forall s, enabled mask s = true -> offer dev s a = None).
Notation url := (take 127 (full_url ec)).
Notation purl := (take 127 (probe_url (ec_plain ec) (ec_chunks ec) (ec_serial ec))).

Lemma post8_ok e ps w a st fl c : uinv w a st fl -> fl_single fl -> at_cloud c fl -> env8_ok e -> Forall perf_ok ps ->
  exists o st' w' a' fl' t got c', platform_post8 so cfg ec most e ps w st = Some (o, st', w') /\
    uinv w' a' st' fl' /\ deeds dev a t a' /\ app_deeds t = [] /\ pk_mask st' = pk_mask st /\
    cloud c (map po_body (o8_posts o)) = (c', got) /\ received cfg got (sent t) /\ fl_single fl' /\ at_cloud c' fl' /\
    upload8 url most o /\ (forall k, held_after (o8_evs o) 0 k = Some (0, k)) /\ o8_rv o <= 0 /\ (o8_rv o = 0 -> drained (pk_mask st) a').
Proof.
  intros U Fs Ac (Ei & Em & _ & Es) Ep. unfold platform_post8.
  destruct (sink_avail so cfg app dev rel K w a st fl U) as (b & w1 & cs & t & E & U1 & D & Y & T & B). rewrite E. cbn [bind]. destruct b; cbn [negb].
  2:{ exists (mk_o8 0 None [] [] []), st, w1, (effects dev a cs), fl, t, [], c. destruct B as [-> B]. do 4 (split; [assumption || reflexivity|]). split; [reflexivity|].
      split; [reflexivity|]. split; [rewrite T; constructor|]. split; [exact Fs|]. split; [exact Ac|]. split; [|split; [intros k; reflexivity|split; [cbn; lia|intros _; exact B]]].
      split; [constructor|]. split; [intros l p X; destruct l; discriminate|]. reflexivity. }
  pose proof (alloc8_ok (e8_mem e) most Em ltac:(lia)) as Al. destruct (alloc8 (e8_mem e) most) as [[buf|] l].
  2:{ destruct Al as (_ & Al). exists (mk_o8 (-1) None [] [] l), st, w1, (effects dev a cs), fl, t, [], c. do 4 (split; [assumption || reflexivity|]). split; [reflexivity|].
      split; [reflexivity|]. split; [rewrite T; constructor|]. split; [exact Fs|]. split; [exact Ac|]. split; [|split; [|split; [cbn; lia|cbn; lia]]].
      - split; [constructor|]. split; [intros l0 p X; destruct l0; discriminate|]. reflexivity.
      - intros k. cbn [o8_evs]. rewrite <- (app_nil_r l), held_failed by exact Al. reflexivity. }
  destruct Al as (Lb & _ & l' & -> & Al). rewrite build_url_ok. cbn [snd].
  destruct (post_chunks_ok so cfg app dev rel K url buf ltac:(lia) ps w1 (effects dev a cs) st fl c 0 (e8_status e) U1 Fs Ac Ep eq_refl)
    as (rv & n & status & posts & st2 & w2 & a2 & fl2 & t2 & got2 & c2 & E2 & U2 & D2 & Y2 & M2 & C2 & R2 & F2 & A2 & P2 & N2 & O2 & Q2).
  rewrite E2. cbn [bind].
  assert (Ne : posts <> []) by (intros X; exact (Q2 X B)).
  assert (Hl : forall k, held_after ((l' ++ [EMalloc (zlen buf) true]) ++ [EFree]) 0 k = Some (0, k)).
  { intros k. rewrite <- app_assoc, held_failed by exact Al. reflexivity. }
  assert (Fp : Forall (fun p => po_url p = url /\ 0 < zlen (po_body p) <= most) posts).
  { eapply Forall_impl; [|exact P2]. cbn. intros p (X1 & X2). split; [exact X1|lia]. }
  assert (G : forall o, o8_posts o = posts -> o8_evs o = (l' ++ [EMalloc (zlen buf) true]) ++ [EFree] -> o8_rv o <= 0 ->
    (o8_rv o = 0 -> drained (pk_mask st) a2) -> (forall l p, posts = l ++ [p] -> Forall carried_out l /\ (o8_rv o = 0 <-> carried_out p) /\ o8_rv o <= 0 /\
     o8_told o = (if o8_rv o =? 0 then Some (pf_status (po_answer p)) else None)) ->
    exists o0 st' w' a' fl' t got c', Some (o, st2, w2) = Some (o0, st', w') /\
    uinv w' a' st' fl' /\ deeds dev a t a' /\ app_deeds t = [] /\ pk_mask st' = pk_mask st /\
    cloud c (map po_body (o8_posts o0)) = (c', got) /\ received cfg got (sent t) /\ fl_single fl' /\ at_cloud c' fl' /\
    upload8 url most o0 /\ (forall k, held_after (o8_evs o0) 0 k = Some (0, k)) /\ o8_rv o0 <= 0 /\ (o8_rv o0 = 0 -> drained (pk_mask st) a')).
  { intros o X1 X3 X4 X5 X6. exists o, st2, w2, a2, fl2, (t ++ t2), got2, c2. split; [reflexivity|]. split; [exact U2|]. split; [eapply deeds_app; eauto|].
    split; [rewrite app_deeds_app, Y, Y2; reflexivity|]. split; [exact M2|]. rewrite X1. split; [exact C2|]. split; [rewrite sent_app, T; exact R2|]. split; [exact F2|]. split; [exact A2|].
    split; [|split; [rewrite X3; exact Hl|split; [exact X4|exact X5]]].
    split; [rewrite X1; exact Fp|]. split; [rewrite X1; exact X6|]. rewrite X1. intros X. contradiction. }
  destruct (Z.eqb_spec rv 0) as [->|Nr]; cbn [negb].
  - destruct O2 as [(_ & O1 & O3 & O4 & O5 & O6)|(O1 & _)]; [|lia]. apply G; try reflexivity; cbn [o8_rv]; [intros _; exact O6|].
    intros l p X. subst posts. apply Forall_app in O1 as [O1 O1p]. apply Forall_app in O3 as [_ O3p]. split; [exact O1|]. rewrite map_app in O4. cbn [map] in O4. rewrite last_app in O4. subst status.
    pose proof (Forall_inv O3p) as O3q. cbn beta in O3q. pose proof (Forall_inv O1p) as O1q. split; [split; [intros _; exact O1q|reflexivity]|]. split; [lia|].
    cbn [o8_told Z.eqb]. unfold u16. change (2 ^ 16) with 65536. rewrite Z.mod_small by lia. reflexivity.
  - destruct O2 as [(X & _)|(O1 & l & q & -> & O3 & O4)]; [contradiction|]. apply G; try reflexivity; cbn [o8_rv o8_told]; [lia|intros ->; lia|].
    intros l0 p X. apply app_last_inv in X as [<- <-]. split; [exact O3|]. split; [split; [intros ->; lia|contradiction]|]. split; [lia|]. destruct (Z.eqb_spec rv 0); [lia|reflexivity].
Qed.

(** Either function *)
Definition step_ok8 (port : bool) (e : env8) (o : out8) : Prop :=
  upload8 url most o /\ held_after (o8_evs o) 0 0 = Some (0, 0) /\ probes (ec_plain ec) purl (o8_gets o) /\
  (~ Exists got_on (o8_gets o) -> o8_posts o = []) /\ (o8_gets o <> [] -> ~ Exists got_on (o8_gets o) -> o8_rv o = -1) /\
  (port = true -> e8_wifi e = false -> o8_rv o = -1 /\ o8_gets o = []).
Lemma nothing8 port e rv : (port = true -> e8_wifi e = false -> rv = -1) -> step_ok8 port e (mk_o8 rv None [] [] []).
Proof.
  intros H. split; [|split; [reflexivity|split; [|split; [reflexivity|split; [intros X; now elim X|intros X Y; split; [now apply H|reflexivity]]]]]].
  - split; [constructor|]. split; [intros l p X; destruct l; discriminate|reflexivity].
  - split; [constructor|]. exists [], roots. split; [reflexivity|]. split; [reflexivity|]. now left.
Qed.

Lemma with_client_ok e port w a st fl c : (port = true -> e8_wifi e = true) -> uinv w a st fl -> fl_single fl -> at_cloud c fl -> env8_ok e ->
  exists o st' w' a' fl' t got c', with_client8 so cfg ec most e w st = Some (o, st', w') /\
    uinv w' a' st' fl' /\ deeds dev a t a' /\ app_deeds t = [] /\ pk_mask st' = pk_mask st /\
    cloud c (map po_body (o8_posts o)) = (c', got) /\ received cfg got (sent t) /\ fl_single fl' /\ at_cloud c' fl' /\
    step_ok8 port e o /\ (o8_rv o = 0 \/ o8_rv o = 1 -> drained (pk_mask st) a').
Proof.
  intros Hw U Fs Ac Ee. pose proof Ee as (Ei & Em & Ep & Es). unfold with_client8, create8. rewrite probe_url_ok.
  destruct (try_ok (ec_plain ec) (e8_init e) purl Ei roots (e8_perf e) 0 Ep) as (ok & ps & gs & evs & Q & F & G & (l1 & r & L & M & X) & H). rewrite Q. cbn [bind].
  assert (Nw : port = true -> e8_wifi e = false -> forall P : Prop, P) by (intros X1 X2; rewrite (Hw X1) in X2; discriminate).
  destruct ok; cbn [negb].
  - destruct (post8_ok e ps w a st fl c U Fs Ac Ee F) as (o & st2 & w2 & a2 & fl2 & t2 & got2 & c2 & E2 & U2 & D2 & Y2 & M2 & C2 & R2 & F2 & A2 & P2 & H2 & V2 & O2).
    rewrite E2. cbn [bind]. exists (mk_o8 (o8_rv o) (o8_told o) gs (o8_posts o) (evs ++ o8_evs o ++ [ECleanup])), st2, w2, a2, fl2, t2, got2, c2.
    split; [reflexivity|]. split; [exact U2|]. split; [exact D2|]. split; [exact Y2|]. split; [exact M2|]. split; [exact C2|]. split; [exact R2|]. split; [exact F2|]. split; [exact A2|].
    split; [|cbn [o8_rv]; intros Z0; apply O2; lia]. destruct X as (gs' & g & -> & X1 & X2).
    assert (Ex : Exists got_on (gs' ++ [g])) by (apply Exists_app; right; constructor; exact X1).
    split; [exact P2|]. cbn [o8_evs o8_gets o8_posts o8_rv]. split; [|split; [|split; [contradiction|split; [contradiction|intros X3 X4; now apply Nw]]]].
    + rewrite (held_then _ _ _ _ _ _ H), (held_then _ _ _ _ _ _ (H2 1)). reflexivity.
    + split; [exact G|]. exists l1, r. split; [exact L|]. split; [exact M|]. right. left. exists gs', g. auto.
  - destruct X as (X1 & X2). exists (mk_o8 (-1) None gs [] evs), st, w, a, fl, [], [], c.
    split; [reflexivity|]. split; [exact U|]. split; [constructor|]. do 3 (split; [reflexivity|]). split; [constructor|]. split; [exact Fs|]. split; [exact Ac|]. split; [|cbn; lia].
    split; [|split; [exact H|split; [|split; [reflexivity|split; [reflexivity|intros X3 X4; now apply Nw]]]]].
    + split; [constructor|]. split; [intros l p Y; destruct l; discriminate|reflexivity].
    + split; [exact G|]. exists l1, r. split; [exact L|]. split; [exact M|]. right. right. auto.
Qed.

Lemma step8_ok e w a st fl c (port : bool) : uinv w a st fl -> fl_single fl -> at_cloud c fl -> env8_ok e ->
  exists o st' w' a' fl' t got c', (if port then port_post8 so cfg ec most e w st else client_post8 so cfg ec most e w st) = Some (o, st', w') /\
    uinv w' a' st' fl' /\ deeds dev a t a' /\ app_deeds t = [] /\ pk_mask st' = pk_mask st /\
    cloud c (map po_body (o8_posts o)) = (c', got) /\ received cfg got (sent t) /\ fl_single fl' /\ at_cloud c' fl' /\
    step_ok8 port e o /\ (o8_rv o = 0 \/ o8_rv o = 1 -> drained (pk_mask st) a').
Proof.
  intros U Fs Ac Ee.
  destruct (sink_avail so cfg app dev rel K w a st fl U) as (b & w1 & cs & t & E & U1 & D & Y & T & B).
  assert (G : (port = true -> e8_wifi e = true) ->
    exists o st' w' a' fl' t got c', (if negb b then Some (mk_o8 (if port then 0 else 1) None [] [] [], st, w1) else with_client8 so cfg ec most e w1 st) = Some (o, st', w') /\
    uinv w' a' st' fl' /\ deeds dev a t a' /\ app_deeds t = [] /\ pk_mask st' = pk_mask st /\
    cloud c (map po_body (o8_posts o)) = (c', got) /\ received cfg got (sent t) /\ fl_single fl' /\ at_cloud c' fl' /\
    step_ok8 port e o /\ (o8_rv o = 0 \/ o8_rv o = 1 -> drained (pk_mask st) a')).
  { intros Hw. destruct b; cbn [negb].
    - destruct (with_client_ok e port w1 (effects dev a cs) st fl c Hw U1 Fs Ac Ee) as (o & st2 & w2 & a2 & fl2 & t2 & got2 & c2 & E2 & U2 & D2 & Y2 & M2 & C2 & R2 & F2 & A2 & P2 & O2).
      exists o, st2, w2, a2, fl2, (t ++ t2), got2, c2. split; [exact E2|]. split; [exact U2|]. split; [eapply deeds_app; eauto|]. split; [rewrite app_deeds_app, Y, Y2; reflexivity|].
      split; [exact M2|]. split; [exact C2|]. split; [rewrite sent_app, T; exact R2|]. auto.
    - destruct B as [-> B]. eexists (mk_o8 _ _ _ _ _), st, w1, (effects dev a cs), None, t, [], c. split; [reflexivity|]. do 3 (split; [assumption|]). do 2 (split; [reflexivity|]). split; [rewrite T; constructor|]. split; [exact Fs|]. split; [exact Ac|].
      split; [|intros _; exact B]. apply nothing8. intros X1 X2. rewrite (Hw X1) in X2. discriminate. }
  destruct port.
  - unfold port_post8. destruct (e8_wifi e) eqn:Ew; cbn [negb].
    + rewrite E. cbn [bind]. apply G. reflexivity.
    + exists (mk_o8 (-1) None [] [] []), st, w, a, fl, [], [], c. split; [reflexivity|]. split; [exact U|]. split; [constructor|]. do 3 (split; [reflexivity|]). split; [constructor|]. split; [exact Fs|]. split; [exact Ac|].
      split; [apply nothing8; reflexivity|cbn; lia].
  - unfold client_post8. rewrite E. cbn [bind]. apply G. discriminate.
Qed.

Notation fine_o o := (exists port e, step_ok8 port e o).
Lemma general8 ops : forall w a st fl c, uinv w a st fl -> fl_single fl -> at_cloud c fl -> Forall (fine8 (fine dev)) ops ->
  exists ops1 rs st' w' a' fl' t got c', played8 dev ops ops1 a' /\ run8 so cfg ec most app w st ops1 = Some (rs, st', w') /\
    uinv w' a' st' fl' /\ fl_single fl' /\ at_cloud c' fl' /\ deeds dev a t a' /\ app_deeds t = calls8 ops1 rs /\
    cloud c (map po_body (all_posts8 rs)) = (c', got) /\ received cfg got (sent t) /\ Forall (fun o => fine_o o) (outs8 rs).
Proof.
  induction ops as [|o ops IH]; intros w a st fl c U Fs Ac F.
  - exists [], [], st, w, a, fl, [], [], c. split; [exists []; auto|]. split; [reflexivity|]. split; [exact U|]. split; [exact Fs|]. split; [exact Ac|]. split; [constructor|].
    split; [reflexivity|]. split; [reflexivity|]. split; [constructor|constructor].
  - pose proof (Forall_inv F) as Fo. apply Forall_inv_tail in F. destruct o as [port e|o]; cbn [fine8] in Fo.
    + destruct (step8_ok e w a st fl c port U Fs Ac Fo) as (x & st1 & w1 & a1 & fl1 & t1 & got1 & c1 & E1 & U1 & D1 & Y1 & M1 & C1 & R1 & F1 & A1 & P1 & _).
      destruct (IH w1 a1 st1 fl1 c1 U1 F1 A1 F) as (ops1 & rs & st2 & w2 & a2 & fl2 & t2 & got2 & c2 & (ops2 & -> & Pl) & E2 & U2 & F2 & A2 & D2 & Y2 & C2 & R2 & G2).
      exists (Up8 port e :: ops1), (@RUp8 Re x :: rs), st2, w2, a2, fl2, (t1 ++ t2), (got1 ++ got2), c2.
      split; [exists ops2; split; [reflexivity|exact Pl]|]. split; [cbn [run8 step8]; rewrite E1; cbn [bind]; rewrite E2; reflexivity|].
      split; [exact U2|]. split; [exact F2|]. split; [exact A2|]. split; [eapply deeds_app; eauto|]. split; [rewrite app_deeds_app, Y1, Y2; reflexivity|].
      split; [unfold all_posts8, outs8 in *; cbn [flat_map Datatypes.app]; rewrite map_app; eapply cloud_app; eauto|].
      split; [rewrite sent_app; apply received_app; assumption|]. change (outs8 (RUp8 x :: rs)) with (x :: outs8 rs). constructor; [eauto|exact G2].
    + destruct (spec dev a o) as [[r a1]|] eqn:Es.
      * destruct (step_chunk so cfg app dev rel K w a st fl c (UApp o) U Fo Fs Ac ltac:(congruence)) as (r0 & st1 & w1 & a1' & fl1 & t1 & got1 & c1 & E1 & S1 & U1 & D1 & Y1 & C1 & R1 & F1 & A1).
        cbn [up_step] in E1. apply bind_inv in E1 as ([r1 w1'] & E1 & X). injection X as <- <- <-.
        destruct (IH w1' a1' st fl1 c1 U1 F1 A1 F) as (ops1 & rs & st2 & w2 & a2 & fl2 & t2 & got2 & c2 & (ops2 & -> & Pl) & E2 & U2 & F2 & A2 & D2 & Y2 & C2 & R2 & G2).
        exists (App8 o :: ops1), (RApp8 r1 :: rs), st2, w2, a2, fl2, (t1 ++ t2), (got1 ++ got2), c2.
        split; [exists ops2; split; [reflexivity|exact Pl]|]. split; [cbn [run8 step8]; rewrite E1; cbn [bind]; rewrite E2; reflexivity|].
        split; [exact U2|]. split; [exact F2|]. split; [exact A2|]. split; [eapply deeds_app; eauto|]. split; [rewrite app_deeds_app, Y1, Y2; reflexivity|].
        split; [exact (cloud_app _ _ _ _ _ _ _ C1 C2)|]. split; [rewrite sent_app; apply received_app; assumption|exact G2].
      * exists [], [], st, w, a, fl, [], [], c. split; [exists (App8 o :: ops); split; [reflexivity|right; eauto]|]. split; [reflexivity|]. split; [exact U|]. split; [exact Fs|]. split; [exact Ac|]. split; [constructor|].
        split; [reflexivity|]. split; [reflexivity|]. split; [constructor|constructor].
Qed.

Theorem accounts8 w a ops : rel None w a -> Forall (fine8 (fine dev)) ops ->
  exists ops1 rs st w' a' t got k, played8 dev ops ops1 a' /\ run8 so cfg ec most app w pk_init ops1 = Some (rs, st, w') /\
    deeds dev a t a' /\ app_deeds t = calls8 ops1 rs /\
    cloud None (map po_body (all_posts8 rs)) = (k, got) /\ received cfg got (sent t) /\
    (Forall carried_out (all_posts8 rs) -> cloud None (server_has (all_posts8 rs)) = (k, got)) /\ Forall (upload8 url most) (outs8 rs) /\
    Forall (fun o => held_after (o8_evs o) 0 0 = Some (0, 0) /\ probes (ec_plain ec) purl (o8_gets o) /\
      (~ Exists got_on (o8_gets o) -> o8_posts o = []) /\ (o8_gets o <> [] -> ~ Exists got_on (o8_gets o) -> o8_rv o = -1)) (outs8 rs) /\
    forall e, env8_ok e -> exists o st2 w2 a2 t2, step8 so cfg ec most app w' st (Up8 true e) = Some (RUp8 o, st2, w2) /\ deeds dev a' t2 a2 /\
      (o8_rv o = 0 -> forall s, enabled (pk_mask st2) s = true -> offer dev s a2 = None) /\
      (e8_wifi e = false -> o8_rv o = -1 /\ o8_gets o = [] /\ o8_posts o = []).
Proof.
  intros R F. destruct (general8 ops w a pk_init None None (uinv_boot _ _ _ _ _ K w a R) I I F) as (ops1 & rs & st & w' & a' & fl & t & got & k & P & E & U & Fs & Ac & D & Y & C & Q & G).
  exists ops1, rs, st, w', a', t, got, k. do 6 (split; [assumption|]). split; [intros X; unfold server_has; rewrite all_carried by exact X; exact C|].
  split; [eapply Forall_impl; [|exact G]; cbn; intros o (po & e & X); apply X|].
  split; [eapply Forall_impl; [|exact G]; cbn; intros o (po & e & _ & X1 & X2 & X3 & X4 & _); auto|].
  intros e Ee. destruct (step8_ok e w' a' st fl k true U Fs Ac Ee) as (x & st1 & w1 & a1 & fl1 & t1 & got1 & c1 & E1 & U1 & D1 & Y1 & M1 & C1 & R1 & F1 & A1 & P1 & O1).
  exists x, st1, w1, a1, t1. split; [cbn [step8]; rewrite E1; reflexivity|]. split; [exact D1|]. split; [rewrite M1; auto|].
  destruct P1 as (_ & _ & _ & X4 & _ & X6). intros X. destruct (X6 eq_refl X) as (X7 & X8). split; [exact X7|]. split; [exact X8|]. apply X4. rewrite X8. intros Z0. inversion Z0.
Qed.
End Esp8266.
