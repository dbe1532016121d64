From Coq Require Import String.
From Verif Require Import Base Packetizer PacketizerSpec PacketizerProofs Uplink UplinkSpec UplinkProofs SinkProofs EspHttp EspHttpSpec.

(* ------------------------------------------------------------ errors, the URL, the buffer *)
Lemma platform_error_ok e : Z.abs e < 2 ^ 31 - 1000 -> platform_error e = -1000 - Z.abs e.
Proof.
  intros H. unfold platform_error. change 0x7fffffff with (Z.ones 31). rewrite Z.land_ones by lia. change (2 ^ 31) with 2147483648 in *.
  rewrite Z.mod_small by lia. unfold s32. change (2 ^ 31) with 2147483648. change (2 ^ 32) with 4294967296. rewrite Z.mod_small by lia. lia.
Qed.

Definition full_url (c : e_cfg) : list Z := chunks_url (ec_plain c) (ec_chunks c) (ec_serial c).
Lemma build_url_ok c : build_url c (str "chunks") = (zlen (full_url c) <? 128, take 127 (full_url c)).
Proof.
  unfold build_url, full_url, chunks_url, scheme, printed. change (128 - 1) with 127.
  replace ((if ec_plain c then str "http" else str "https") ++ str "://" ++ ec_chunks c ++ str "/api/v0/" ++ str "chunks" ++ str "/" ++ ec_serial c)
    with (str (if ec_plain c then "http://" else "https://") ++ ec_chunks c ++ str "/api/v0/chunks/" ++ ec_serial c); [reflexivity|].
  change (str "/api/v0/chunks/") with (str "/api/v0/" ++ str "chunks" ++ str "/"). rewrite <- !app_assoc.
  destruct (ec_plain c); [change (str "http://") with (str "http" ++ str "://")|change (str "https://") with (str "https" ++ str "://")]; now rewrite <- !app_assoc.
Qed.

(** The sizes tried: the largest, then half of it, while more than 1024 *)
Lemma alloc_loop_ok fuel mem : (forall n b, mem n = Some b -> zlen b = n) -> forall size, 0 < size -> size < 2 ^ Z.of_nat fuel ->
  match alloc_loop fuel mem size with
  | (Some b, l) => 1024 < zlen b <= size /\ (exists k, 0 <= k /\ zlen b = size / 2 ^ k /\ mem (zlen b) = Some b /\ forall j, 0 <= j < k -> mem (size / 2 ^ j) = None) /\
      exists l', l = l' ++ [EMalloc (zlen b) true] /\ Forall (fun e => exists n, e = EMalloc n false) l'
  | (None, l) => (forall j, 0 <= j -> 1024 < size / 2 ^ j -> mem (size / 2 ^ j) = None) /\ Forall (fun e => exists n, e = EMalloc n false) l
  end.
Proof.
  intros Hm. induction fuel as [|fuel IH]; intros size P L.
  - change (2 ^ Z.of_nat 0) with 1 in L. lia.
  - cbn [alloc_loop]. destruct (Z.ltb_spec 1024 size) as [G|G].
    + destruct (mem size) as [b|] eqn:E.
      * pose proof (Hm _ _ E) as Z0. rewrite Z0. split; [lia|]. split.
        { exists 0. split; [lia|]. change (2 ^ 0) with 1. rewrite Z.div_1_r. split; [reflexivity|]. split; [exact E|lia]. }
        { exists []. split; [reflexivity|constructor]. }
      * assert (H2 : 0 < size / 2) by (apply Z.div_str_pos; lia).
        assert (L2 : size / 2 < 2 ^ Z.of_nat fuel).
        { apply Z.div_lt_upper_bound; [lia|]. rewrite <- Z.pow_succ_r by lia. replace (Z.succ (Z.of_nat fuel)) with (Z.of_nat (S fuel)) by lia. exact L. }
        specialize (IH _ H2 L2). assert (Dv : forall j, 0 <= j -> size / 2 / 2 ^ j = size / 2 ^ (j + 1)).
        { intros j Hj. rewrite Z.div_div by (try lia; apply Z.pow_pos_nonneg; lia). f_equal. rewrite Z.pow_add_r by lia. change (2 ^ 1) with 2. lia. }
        destruct (alloc_loop fuel mem (size / 2)) as [[b|] l].
        -- destruct IH as (I1 & (k & I2 & I3 & I4 & I5) & l' & -> & I6). split; [|split].
           ++ split; [lia|]. pose proof (Z.div_le_upper_bound size 2 size). lia.
           ++ exists (k + 1). split; [lia|]. split; [rewrite I3; now apply Dv|]. split; [exact I4|]. intros j Hj.
              destruct (Z.eq_dec j 0) as [->|]; [change (2 ^ 0) with 1; now rewrite Z.div_1_r|]. replace j with (j - 1 + 1) by lia. rewrite <- Dv by lia. apply I5. lia.
           ++ exists (EMalloc size false :: l'). split; [reflexivity|]. constructor; eauto.
        -- destruct IH as (I1 & I2). split; [|constructor; eauto]. intros j Hj Hz.
           destruct (Z.eq_dec j 0) as [->|]; [change (2 ^ 0) with 1; now rewrite Z.div_1_r|]. replace j with (j - 1 + 1) in * by lia. rewrite <- Dv in * by lia. apply I1; [lia|exact Hz].
    + split; [|constructor]. intros j Hj Hz. exfalso. assert (size / 2 ^ j <= size); [|lia]. apply Z.div_le_upper_bound; [apply Z.pow_pos_nonneg; lia|].
      pose proof (Z.pow_pos_nonneg 2 j). nia.
Qed.
Lemma alloc_ok mem most : (forall n b, mem n = Some b -> zlen b = n) -> 0 < most ->
  match alloc_buffer mem most with
  | (Some b, l) => 1024 < zlen b <= most /\ (exists k, 0 <= k /\ zlen b = most / 2 ^ k /\ mem (zlen b) = Some b /\ forall j, 0 <= j < k -> mem (most / 2 ^ j) = None) /\
      exists l', l = l' ++ [EMalloc (zlen b) true] /\ Forall (fun e => exists n, e = EMalloc n false) l'
  | (None, l) => (forall j, 0 <= j -> 1024 < most / 2 ^ j -> mem (most / 2 ^ j) = None) /\ Forall (fun e => exists n, e = EMalloc n false) l
  end.
Proof.
  intros Hm P. apply alloc_loop_ok; [exact Hm|exact P|]. pose proof (Z.log2_spec most P). pose proof (Z.log2_nonneg most).
  replace (Z.of_nat (S (Z.to_nat (Z.log2 most)))) with (Z.succ (Z.log2 most)) by lia. lia.
Qed.

Lemma held_failed l : Forall (fun e => exists n, e = EMalloc n false) l -> forall r b c, held_after (l ++ r) b c = held_after r b c.
Proof. induction 1 as [|e l (n & ->) F IH]; intros r b c; [reflexivity|]. cbn [held_after Datatypes.app]. apply IH. Qed.

Lemma held_then l r : forall b k b' k', held_after l b k = Some (b', k') -> held_after (l ++ r) b k = held_after r b' k'.
Proof.
  induction l as [|x l IH]; intros b k b' k' H; cbn [held_after Datatypes.app] in *; [now injection H as <- <-|].
  destruct x; auto; destruct (_ =? _); try discriminate; auto.
Qed.

Lemma connected_ok l : netif_connected l = true <-> exists i, In i l /\ ni_up i = true /\ ni_err i = 0 /\ ni_addr i <> 0.
Proof.
  induction l as [|i l IH]; cbn [netif_connected]; [split; [discriminate|intros (i & [] & _)]|].
  destruct (ni_up i) eqn:U; cbn [negb].
  - destruct (Z.eqb_spec (ni_err i) 0) as [E|E]; cbn [andb].
    + destruct (Z.eqb_spec (ni_addr i) 0) as [E2|E2]; cbn [negb].
      * rewrite IH. split; intros (j & J & K); [exists j; split; [now right|exact K]|]. destruct J as [<-|J]; [tauto|]. exists j. auto.
      * split; [|reflexivity]. intros _. exists i. split; [now left|auto].
    + rewrite IH. split; intros (j & J & K); [exists j; split; [now right|exact K]|]. destruct J as [<-|J]; [tauto|]. exists j. auto.
  - rewrite IH. split; intros (j & J & K); [exists j; split; [now right|exact K]|]. destruct J as [<-|J]; [destruct K; congruence|]. exists j. auto.
Qed.

Lemma all_carried l : Forall carried_out l -> filter (fun p => pf_err (po_answer p) =? 0) l = l.
Proof. induction 1 as [|p l H F IH]; [reflexivity|]. cbn [filter]. rewrite H, IH. reflexivity. Qed.

(* ------------------------------------------------------------ uploads *)
Section Esp.
Context {W A O Re : Type}.
Variables (so : sources W) (cfg : up_cfg) (app : W -> O -> option (Re * W)) (dev : device A O Re) (rel : option (src * Z) -> W -> A -> Prop).
Hypothesis K : keeps_contract so cfg app dev rel.
Variables (ec : e_cfg) (most : Z).
Hypothesis Hmost : 0 < most < 4294967296.
Notation uinv := (uinv cfg dev rel).
Notation drained mask a := (forall s, enabled mask s = true -> offer dev s a = None).

Lemma u32_add a b : u32 (u32 a + b) = u32 (a + b).
Proof. unfold u32. rewrite Zplus_mod_idemp_l. reflexivity. Qed.

Lemma post_chunks_ok url buf : 9 <= zlen buf < 4294967296 -> forall ps w a st fl c n0 status0, uinv w a st fl -> fl_single fl -> at_cloud c fl ->
  Forall perf_ok ps -> u32 n0 = n0 ->
  exists rv n status posts st' w' a' fl' t got c', post_chunks so cfg ps url buf w st n0 status0 = Some (rv, n, status, posts, st', w') /\
    uinv w' a' st' fl' /\ deeds dev a t a' /\ app_deeds t = [] /\ pk_mask st' = pk_mask st /\
    cloud c (map po_body posts) = (c', got) /\ received cfg got (sent t) /\ fl_single fl' /\ at_cloud c' fl' /\
    Forall (fun p => po_url p = url /\ 0 < zlen (po_body p) <= zlen buf) posts /\ n = u32 (n0 + sum_len (map po_body posts)) /\
    (rv = 0 /\ Forall carried_out posts /\ Forall (fun p => 0 <= pf_status (po_answer p) < 65536) posts /\ status = last (map (fun p => pf_status (po_answer p)) posts) status0 /\ fl' = None /\ drained (pk_mask st) a' \/
     rv < -1 /\ exists l p, posts = l ++ [p] /\ Forall carried_out l /\ ~ carried_out p) /\
    (posts = [] -> ~ pending dev a (pk_mask st) fl).
Proof.
  intros Hb. induction ps as [|p ps IH]; intros w a st fl c n0 status0 U Fs Ac F N0; cbn [post_chunks];
    destruct (sink_chunk so cfg app dev rel K w a st fl c buf U Fs Ac ltac:(lia)) as (b & out & cs & st1 & w1 & fl1 & t & got & c1 & E & U1 & D & Y & M & C & R & F1 & A1 & B); rewrite E; cbn [bind]; destruct b; cbn [negb].
  - eexists _, _, _, _, _, _, (effects dev a cs), fl1, t, got, c1. split; [reflexivity|]. split; [exact U1|]. split; [exact D|]. split; [exact Y|]. split; [exact M|].
    split; [exact C|]. split; [exact R|]. split; [exact F1|]. split; [exact A1|]. split; [constructor; [split; [reflexivity|exact B]|constructor]|].
    split; [cbn [map sum_len po_body]; now rewrite Z.add_0_r|]. split; [right; split; [vm_compute; reflexivity|]|discriminate].
    exists [], (mk_po url out no_connection). split; [reflexivity|]. split; [constructor|]. unfold carried_out. cbn. discriminate.
  - destruct B as [-> B]. destruct (B ltac:(lia)) as (B1 & B2 & B3). exists 0, n0, status0, [], st1, w1, (effects dev a cs), fl1, t, got, c1.
    split; [reflexivity|]. split; [exact U1|]. split; [exact D|]. split; [exact Y|]. split; [exact M|]. split; [exact C|]. split; [exact R|]. split; [exact F1|]. split; [exact A1|].
    split; [constructor|]. split; [cbn; now rewrite Z.add_0_r|]. split; [left; split; [reflexivity|]; split; [constructor|]; split; [constructor|]; split; [reflexivity|]; split; [exact B2|exact B3]|intros _; exact B1].
  - pose proof (Forall_inv F) as (G2 & G3). apply Forall_inv_tail in F. destruct (Z.eqb_spec (pf_err p) 0) as [Ep|Ep]; cbn [negb].
    + destruct (IH w1 (effects dev a cs) st1 fl1 c1 (u32 (n0 + zlen out)) (pf_status p) U1 F1 A1 F (Base.u32_id _ (Base.u32_range _)))
        as (rv & n & status & posts & st2 & w2 & a2 & fl2 & t2 & got2 & c2 & E2 & U2 & D2 & Y2 & M2 & C2 & R2 & F2 & A2 & P2 & N2 & O2 & Q2).
      rewrite E2. cbn [bind]. exists rv, n, status, (mk_po url out p :: posts), st2, w2, a2, fl2, (t ++ t2), (got ++ got2), c2.
      split; [reflexivity|]. split; [exact U2|]. split; [eapply deeds_app; eauto|]. split; [rewrite app_deeds_app, Y, Y2; reflexivity|]. split; [congruence|].
      split; [change (map po_body (mk_po url out p :: posts)) with ([out] ++ map po_body posts); eapply cloud_app; eauto|].
      split; [rewrite sent_app; apply received_app; assumption|]. split; [exact F2|]. split; [exact A2|].
      split; [constructor; [split; [reflexivity|exact B]|exact P2]|]. split; [rewrite N2, u32_add; cbn [map sum_len po_body]; f_equal; lia|].
      split; [|discriminate]. destruct O2 as [(-> & O1 & O3 & O4 & O5 & O6)|(O1 & l & q & -> & O3 & O4)].
      * left. split; [reflexivity|]. split; [constructor; [exact Ep|exact O1]|]. split; [constructor; [exact G3|exact O3]|]. split; [|split; [exact O5|rewrite <- M; exact O6]].
        rewrite O4. cbn [map po_answer]. generalize (map (fun p0 => pf_status (po_answer p0)) posts). intros x. destruct x; [reflexivity|]. cbn [last]. generalize (pf_status p). clear. revert z. induction x as [|y x IH]; intros z s; [reflexivity|]. cbn [last] in *. destruct x; [reflexivity|]. apply (IH y).
      * right. split; [exact O1|]. exists (mk_po url out p :: l), q. split; [reflexivity|]. split; [constructor; [exact Ep|exact O3]|exact O4].
    + eexists _, _, _, _, _, _, (effects dev a cs), fl1, t, got, c1. split; [reflexivity|]. split; [exact U1|]. split; [exact D|]. split; [exact Y|]. split; [exact M|].
      split; [exact C|]. split; [exact R|]. split; [exact F1|]. split; [exact A1|]. split; [constructor; [split; [reflexivity|exact B]|constructor]|].
      split; [cbn [map sum_len po_body]; now rewrite Z.add_0_r|]. split; [right; split; [rewrite platform_error_ok by exact G2; lia|]|discriminate].
      exists [], (mk_po url out p). split; [reflexivity|]. split; [constructor|exact Ep].
  - destruct B as [-> B]. destruct (B ltac:(lia)) as (B1 & B2 & B3). exists 0, n0, status0, [], st1, w1, (effects dev a cs), fl1, t, got, c1.
    split; [reflexivity|]. split; [exact U1|]. split; [exact D|]. split; [exact Y|]. split; [exact M|]. split; [exact C|]. split; [exact R|]. split; [exact F1|]. split; [exact A1|].
    split; [constructor|]. split; [cbn; now rewrite Z.add_0_r|]. split; [left; split; [reflexivity|]; split; [constructor|]; split; [constructor|]; split; [reflexivity|]; split; [exact B2|exact B3]|intros _; exact B1].
Qed.

Notation url := (take 127 (full_url ec)).
Lemma last_app (l : list Z) x d : last (l ++ [x]) d = x.
Proof. induction l as [|y l IH]; [reflexivity|]. cbn [Datatypes.app last]. destruct (l ++ [x]) eqn:E; [destruct l; discriminate|exact IH]. Qed.
Lemma app_last_inv {T} (l1 l2 : list T) a b : l1 ++ [a] = l2 ++ [b] -> l1 = l2 /\ a = b.
Proof. intros H. apply app_inj_tail in H. exact H. Qed.

Lemma platform_post_ok e w a st fl c : uinv w a st fl -> fl_single fl -> at_cloud c fl -> env_ok e ->
  exists o st' w' a' fl' t got c', platform_post so cfg ec most e w st = Some (o, st', w') /\
    uinv w' a' st' fl' /\ deeds dev a t a' /\ app_deeds t = [] /\ pk_mask st' = pk_mask st /\
    cloud c (map po_body (eo_posts o)) = (c', got) /\ received cfg got (sent t) /\ fl_single fl' /\ at_cloud c' fl' /\
    esp_upload url most o /\ (forall k, held_after (eo_evs o) 0 k = Some (0, k)) /\ eo_rv o <= 0 /\ (eo_rv o = 0 -> drained (pk_mask st) a').
Proof.
  intros U Fs Ac (Em & Ep & Es). unfold platform_post.
  destruct (sink_avail so cfg app dev rel K w a st fl U) as (b & w1 & cs & t & E & U1 & D & Y & T & B). rewrite E. cbn [bind]. destruct b; cbn [negb].
  2:{ exists (mk_eo 0 None None [] []), st, w1, (effects dev a cs), fl, t, [], c. destruct B as [-> B]. do 4 (split; [assumption || reflexivity|]). split; [reflexivity|].
      split; [reflexivity|]. split; [rewrite T; constructor|]. split; [exact Fs|]. split; [exact Ac|]. split; [|split; [intros k; reflexivity|split; [cbn; lia|intros _; exact B]]].
      split; [constructor|]. split; [intros l p X; destruct l; discriminate|]. split; [reflexivity|]. intros n X. discriminate X. }
  pose proof (alloc_ok (ee_mem e) most Em ltac:(lia)) as Al. destruct (alloc_buffer (ee_mem e) most) as [[buf|] l].
  2:{ destruct Al as (_ & Al). exists (mk_eo (-1) None None [] l), st, w1, (effects dev a cs), fl, t, [], c. do 4 (split; [assumption || reflexivity|]). split; [reflexivity|].
      split; [reflexivity|]. split; [rewrite T; constructor|]. split; [exact Fs|]. split; [exact Ac|]. split; [|split; [|split; [cbn; lia|cbn; lia]]].
      - split; [constructor|]. split; [intros l0 p X; destruct l0; discriminate|]. split; [reflexivity|]. intros n X. discriminate X.
      - intros k. cbn [eo_evs]. rewrite <- (app_nil_r l), held_failed by exact Al. reflexivity. }
  destruct Al as (Lb & _ & l' & -> & Al). rewrite build_url_ok. cbn [snd].
  destruct (post_chunks_ok url buf ltac:(lia) (ee_perf e) w1 (effects dev a cs) st fl c 0 (ee_status e) U1 Fs Ac Ep eq_refl)
    as (rv & n & status & posts & st2 & w2 & a2 & fl2 & t2 & got2 & c2 & E2 & U2 & D2 & Y2 & M2 & C2 & R2 & F2 & A2 & P2 & N2 & O2 & Q2).
  rewrite E2. cbn [bind].
  assert (Ne : posts <> []) by (intros X; exact (Q2 X B)).
  assert (Hl : forall k, held_after ((l' ++ [EMalloc (zlen buf) true]) ++ [EFree]) 0 k = Some (0, k)).
  { intros k. rewrite <- app_assoc, held_failed by exact Al. reflexivity. }
  assert (Fp : Forall (fun p => po_url p = url /\ 0 < zlen (po_body p) <= most) posts).
  { eapply Forall_impl; [|exact P2]. cbn. intros p (X1 & X2). split; [exact X1|lia]. }
  assert (G : forall o, eo_posts o = posts -> eo_bytes o = Some n -> eo_evs o = (l' ++ [EMalloc (zlen buf) true]) ++ [EFree] -> eo_rv o <= 0 ->
    (eo_rv o = 0 -> rv = 0) -> (forall l p, posts = l ++ [p] -> Forall carried_out l /\ (eo_rv o = 0 <-> accepted p)) -> (rv = 0 -> drained (pk_mask st) a2) ->
    exists o0 st' w' a' fl' t got c', Some (o, st2, w2) = Some (o0, st', w') /\
    uinv w' a' st' fl' /\ deeds dev a t a' /\ app_deeds t = [] /\ pk_mask st' = pk_mask st /\
    cloud c (map po_body (eo_posts o0)) = (c', got) /\ received cfg got (sent t) /\ fl_single fl' /\ at_cloud c' fl' /\
    esp_upload url most o0 /\ (forall k, held_after (eo_evs o0) 0 k = Some (0, k)) /\ eo_rv o0 <= 0 /\ (eo_rv o0 = 0 -> drained (pk_mask st) a')).
  { intros o X1 X2 X3 X4 X5 X6 X7. exists o, st2, w2, a2, fl2, (t ++ t2), got2, c2. split; [reflexivity|]. split; [exact U2|]. split; [eapply deeds_app; eauto|].
    split; [rewrite app_deeds_app, Y, Y2; reflexivity|]. split; [exact M2|]. rewrite X1. split; [exact C2|]. split; [rewrite sent_app, T; exact R2|]. split; [exact F2|]. split; [exact A2|].
    split; [|split; [rewrite X3; exact Hl|split; [exact X4|intros X; apply X7, X5, X]]].
    split; [rewrite X1; exact Fp|]. split; [rewrite X1; exact X6|]. split; [rewrite X1; intros X; contradiction|]. rewrite X1, X2. intros m X. injection X as <-. rewrite N2. reflexivity. }
  destruct (Z.eqb_spec rv 0) as [->|Nr]; cbn [negb].
  - destruct O2 as [(_ & O1 & O3 & O4 & O5 & O6)|(O1 & _)]; [|lia]. apply G; try reflexivity; cbn [eo_rv].
    + destruct (_ || _); lia.
    + intros l p X. subst posts. apply Forall_app in O1 as [O1 O1p]. apply Forall_app in O3 as [_ O3p]. split; [exact O1|]. rewrite map_app in O4. cbn [map] in O4. rewrite last_app in O4. subst status.
      pose proof (Forall_inv O3p) as O3q. cbn beta in O3q. pose proof (Forall_inv O1p) as O1q. unfold u16. change (2 ^ 16) with 65536. rewrite Z.mod_small by lia.
      unfold accepted. destruct (Z.eqb_spec (pf_status (po_answer p)) 200); [split; [auto|reflexivity]|]. destruct (Z.eqb_spec (pf_status (po_answer p)) 202); [split; [auto|reflexivity]|].
      split; [discriminate|]. intros (_ & [X|X]); contradiction.
    + intros _. exact O6.
  - destruct O2 as [(X & _)|(O1 & l & q & -> & O3 & O4)]; [contradiction|]. apply G; try reflexivity; cbn [eo_rv]; [lia|intros ->; lia| |].
    + intros l0 p X. apply app_last_inv in X as [<- <-]. split; [exact O3|]. split; [intros ->; lia|]. intros (X & _). contradiction.
    + intros X. contradiction.
Qed.

(** Either function, or no data, no client *)
Lemma esp_step_ok e w a st fl c (port : bool) : uinv w a st fl -> fl_single fl -> at_cloud c fl -> env_ok e ->
  exists o st' w' a' fl' t got c', (if port then port_post so cfg ec most e w st else client_post_chunk so cfg ec most e w st) = Some (o, st', w') /\
    uinv w' a' st' fl' /\ deeds dev a t a' /\ app_deeds t = [] /\ pk_mask st' = pk_mask st /\
    cloud c (map po_body (eo_posts o)) = (c', got) /\ received cfg got (sent t) /\ fl_single fl' /\ at_cloud c' fl' /\
    esp_upload url most o /\ held_after (eo_evs o) 0 0 = Some (0, 0) /\ (eo_rv o = 0 \/ eo_rv o = 1 -> drained (pk_mask st) a') /\
    (port = true -> eo_sync o = Some true -> eo_rv o = 0) /\ (port = true -> eo_posts o <> [] -> eo_sync o = Some (eo_rv o =? 0)) /\
    (port = true -> ~ (exists i, In i (ee_net e) /\ ni_up i = true /\ ni_err i = 0 /\ ni_addr i <> 0) -> eo_rv o = -1 /\ eo_posts o = []).
Proof.
  intros U Fs Ac Ee.
  assert (Z0 : forall rv sync evs, rv <> 0 -> sync <> Some true -> held_after evs 0 0 = Some (0, 0) -> rv <> 1 -> (port = true -> ~ netif_connected (ee_net e) = true -> rv = -1) ->
    forall w1 a1 t, uinv w1 a1 st fl -> deeds dev a t a1 -> app_deeds t = [] -> sent t = [] ->
    exists o st' w' a' fl' t got c', Some (mk_eo rv None sync [] evs, st, w1) = Some (o, st', w') /\
    uinv w' a' st' fl' /\ deeds dev a t a' /\ app_deeds t = [] /\ pk_mask st' = pk_mask st /\
    cloud c (map po_body (eo_posts o)) = (c', got) /\ received cfg got (sent t) /\ fl_single fl' /\ at_cloud c' fl' /\
    esp_upload url most o /\ held_after (eo_evs o) 0 0 = Some (0, 0) /\ (eo_rv o = 0 \/ eo_rv o = 1 -> drained (pk_mask st) a') /\
    (port = true -> eo_sync o = Some true -> eo_rv o = 0) /\ (port = true -> eo_posts o <> [] -> eo_sync o = Some (eo_rv o =? 0)) /\
    (port = true -> ~ (exists i, In i (ee_net e) /\ ni_up i = true /\ ni_err i = 0 /\ ni_addr i <> 0) -> eo_rv o = -1 /\ eo_posts o = [])).
  { intros rv sync evs N S H N1 Hn w1 a1 t U1 D Y T. exists (mk_eo rv None sync [] evs), st, w1, a1, fl, t, [], c. split; [reflexivity|]. split; [exact U1|]. split; [exact D|]. split; [exact Y|]. split; [reflexivity|].
    split; [reflexivity|]. split; [rewrite T; constructor|]. split; [exact Fs|]. split; [exact Ac|]. split; [|split; [exact H|split; [cbn; tauto|split; [intros _ X; contradiction|split; [intros _ X; contradiction|]]]]].
    - split; [constructor|]. split; [intros l p X; destruct l; discriminate|]. split; [reflexivity|]. intros n X. discriminate X.
    - intros X Y0. split; [|reflexivity]. apply Hn; [exact X|]. rewrite connected_ok. exact Y0. }
  assert (Zn : forall rv, rv = 0 \/ rv = 1 -> (port = true -> netif_connected (ee_net e) = true) -> forall w1 a1 t, uinv w1 a1 st fl -> deeds dev a t a1 -> app_deeds t = [] -> sent t = [] -> drained (pk_mask st) a1 ->
    exists o st' w' a' fl' t got c', Some (mk_eo rv None None [] [], st, w1) = Some (o, st', w') /\
    uinv w' a' st' fl' /\ deeds dev a t a' /\ app_deeds t = [] /\ pk_mask st' = pk_mask st /\
    cloud c (map po_body (eo_posts o)) = (c', got) /\ received cfg got (sent t) /\ fl_single fl' /\ at_cloud c' fl' /\
    esp_upload url most o /\ held_after (eo_evs o) 0 0 = Some (0, 0) /\ (eo_rv o = 0 \/ eo_rv o = 1 -> drained (pk_mask st) a') /\
    (port = true -> eo_sync o = Some true -> eo_rv o = 0) /\ (port = true -> eo_posts o <> [] -> eo_sync o = Some (eo_rv o =? 0)) /\
    (port = true -> ~ (exists i, In i (ee_net e) /\ ni_up i = true /\ ni_err i = 0 /\ ni_addr i <> 0) -> eo_rv o = -1 /\ eo_posts o = [])).
  { intros rv Hr Hn w1 a1 t U1 D Y T Dr. exists (mk_eo rv None None [] []), st, w1, a1, fl, t, [], c. split; [reflexivity|]. split; [exact U1|]. split; [exact D|]. split; [exact Y|]. split; [reflexivity|].
    split; [reflexivity|]. split; [rewrite T; constructor|]. split; [exact Fs|]. split; [exact Ac|]. split; [|split; [reflexivity|split; [intros _; exact Dr|split; [intros _ X; discriminate|split; [intros _ X; contradiction|]]]]].
    - split; [constructor|]. split; [intros l p X; destruct l; discriminate|]. split; [reflexivity|]. intros n X. discriminate X.
    - intros X Y0. exfalso. apply Y0, connected_ok, Hn, X. }
  destruct (sink_avail so cfg app dev rel K w a st fl U) as (b & w1 & cs & t & E & U1 & D & Y & T & B).
  assert (Zp : forall sync0, (port = true -> netif_connected (ee_net e) = true /\ sync0 = fun r => if r =? 0 then Some true else if r =? 1 then None else Some false) ->
    exists o st' w' a' fl' t got c', (do y <- platform_post so cfg ec most e w1 st;
      let '(o, st, w) := (y : e_out * pk * W) in Some (mk_eo (eo_rv o) (eo_bytes o) (sync0 (eo_rv o)) (eo_posts o) ([EInit true] ++ eo_evs o ++ [ECleanup]), st, w)) = Some (o, st', w') /\
    uinv w' a' st' fl' /\ deeds dev a t a' /\ app_deeds t = [] /\ pk_mask st' = pk_mask st /\
    cloud c (map po_body (eo_posts o)) = (c', got) /\ received cfg got (sent t) /\ fl_single fl' /\ at_cloud c' fl' /\
    esp_upload url most o /\ held_after (eo_evs o) 0 0 = Some (0, 0) /\ (eo_rv o = 0 \/ eo_rv o = 1 -> drained (pk_mask st) a') /\
    (port = true -> eo_sync o = Some true -> eo_rv o = 0) /\ (port = true -> eo_posts o <> [] -> eo_sync o = Some (eo_rv o =? 0)) /\
    (port = true -> ~ (exists i, In i (ee_net e) /\ ni_up i = true /\ ni_err i = 0 /\ ni_addr i <> 0) -> eo_rv o = -1 /\ eo_posts o = [])).
  { intros sync0 Hs. destruct (platform_post_ok e w1 (effects dev a cs) st fl c U1 Fs Ac Ee) as (o & st2 & w2 & a2 & fl2 & t2 & got2 & c2 & E2 & U2 & D2 & Y2 & M2 & C2 & R2 & F2 & A2 & P2 & H2 & V2 & O2).
    rewrite E2. cbn [bind]. eexists (mk_eo _ _ _ _ _), st2, w2, a2, fl2, (t ++ t2), got2, c2. split; [reflexivity|]. cbn [eo_posts eo_rv eo_sync eo_evs]. split; [exact U2|]. split; [eapply deeds_app; eauto|].
    split; [rewrite app_deeds_app, Y, Y2; reflexivity|]. split; [exact M2|]. split; [exact C2|]. split; [rewrite sent_app, T; exact R2|]. split; [exact F2|]. split; [exact A2|].
    split; [exact P2|]. split.
    { cbn [held_after Datatypes.app]. change (0 + 1) with 1. rewrite (held_then _ _ _ _ _ _ (H2 1)). reflexivity. }
    split; [intros X; apply O2; lia|]. split; [|split].
    - intros X. destruct (Hs X) as [_ ->]. destruct (Z.eqb_spec (eo_rv o) 0); [auto|]. destruct (eo_rv o =? 1); discriminate.
    - intros X _. destruct (Hs X) as [_ ->]. destruct (Z.eqb_spec (eo_rv o) 0); [reflexivity|]. destruct (Z.eqb_spec (eo_rv o) 1); [lia|reflexivity].
    - intros X Y0. exfalso. apply Y0, connected_ok, (Hs X). }
  destruct port.
  - unfold port_post. destruct (netif_connected (ee_net e)) eqn:En; cbn [negb].
    2:{ apply (Z0 (-1) None [] ltac:(lia) ltac:(discriminate) eq_refl ltac:(lia) ltac:(reflexivity) w a []); [exact U|constructor|reflexivity|reflexivity]. }
    rewrite E. cbn [bind]. destruct b; cbn [negb].
    + destruct (ee_init e); cbn [negb].
      * apply (Zp (fun r => if r =? 0 then Some true else if r =? 1 then None else Some false)). intros _. split; reflexivity.
      * apply (Z0 (-1) (Some false) [EInit false] ltac:(lia) ltac:(discriminate) eq_refl ltac:(lia) ltac:(intros _ X; contradiction) w1 _ t U1 D Y T).
    + destruct B as [_ B]. apply (Zn 0 ltac:(auto) ltac:(auto) w1 _ t U1 D Y T B).
  - unfold client_post_chunk. rewrite E. cbn [bind]. destruct b; cbn [negb].
    + destruct (ee_init e); cbn [negb].
      * apply (Zp (fun _ => None)). discriminate.
      * apply (Z0 (-1) None [EInit false] ltac:(lia) ltac:(discriminate) eq_refl ltac:(lia) ltac:(discriminate) w1 _ t U1 D Y T).
    + destruct B as [_ B]. apply (Zn 1 ltac:(auto) ltac:(discriminate) w1 _ t U1 D Y T B).
Qed.

Notation fine_o o := (esp_upload url most o /\ held_after (eo_evs o) 0 0 = Some (0, 0)).
Lemma e_general ops : forall w a st fl c, uinv w a st fl -> fl_single fl -> at_cloud c fl -> Forall (e_fine (fine dev)) ops ->
  exists ops1 rs st' w' a' fl' t got c', e_played dev ops ops1 a' /\ e_run so cfg ec most app w st ops1 = Some (rs, st', w') /\
    uinv w' a' st' fl' /\ fl_single fl' /\ at_cloud c' fl' /\ deeds dev a t a' /\ app_deeds t = e_calls ops1 rs /\
    cloud c (map po_body (all_posts rs)) = (c', got) /\ received cfg got (sent t) /\ Forall (fun o => fine_o o) (outs rs).
Proof.
  induction ops as [|o ops IH]; intros w a st fl c U Fs Ac F.
  - exists [], [], st, w, a, fl, [], [], c. split; [exists []; auto|]. split; [reflexivity|]. split; [exact U|]. split; [exact Fs|]. split; [exact Ac|]. split; [constructor|].
    split; [reflexivity|]. split; [reflexivity|]. split; [constructor|constructor].
  - pose proof (Forall_inv F) as Fo. apply Forall_inv_tail in F.
    assert (Up : forall e (port : bool), env_ok e ->
      exists ops1 rs st' w' a' fl' t got c', e_played dev ((if port then @EUp O e else @EChunk O e) :: ops) ops1 a' /\ e_run so cfg ec most app w st ops1 = Some (rs, st', w') /\
        uinv w' a' st' fl' /\ fl_single fl' /\ at_cloud c' fl' /\ deeds dev a t a' /\ app_deeds t = e_calls ops1 rs /\
        cloud c (map po_body (all_posts rs)) = (c', got) /\ received cfg got (sent t) /\ Forall (fun o => fine_o o) (outs rs)).
    { intros e port Ee. destruct (esp_step_ok e w a st fl c port U Fs Ac Ee) as (x & st1 & w1 & a1 & fl1 & t1 & got1 & c1 & E1 & U1 & D1 & Y1 & M1 & C1 & R1 & F1 & A1 & P1 & H1 & _).
      destruct (IH w1 a1 st1 fl1 c1 U1 F1 A1 F) as (ops1 & rs & st2 & w2 & a2 & fl2 & t2 & got2 & c2 & (ops2 & -> & Pl) & E2 & U2 & F2 & A2 & D2 & Y2 & C2 & R2 & G2).
      exists ((if port then @EUp O e else @EChunk O e) :: ops1), (@ERUp Re x :: rs), st2, w2, a2, fl2, (t1 ++ t2), (got1 ++ got2), c2.
      split; [exists ops2; split; [reflexivity|exact Pl]|]. split.
      { cbn [e_run]. assert (Es : e_step so cfg ec most app w st (if port then EUp e else EChunk e) = Some (ERUp x, st1, w1)) by (destruct port; cbn [e_step]; rewrite E1; reflexivity).
        rewrite Es. cbn [bind]. rewrite E2. reflexivity. }
      split; [exact U2|]. split; [exact F2|]. split; [exact A2|]. split; [eapply deeds_app; eauto|]. split; [rewrite app_deeds_app, Y1, Y2; destruct port; reflexivity|].
      split; [unfold all_posts, outs in *; cbn [flat_map Datatypes.app]; rewrite map_app; eapply cloud_app; eauto|].
      split; [rewrite sent_app; apply received_app; assumption|]. change (outs (ERUp x :: rs)) with (x :: outs rs). constructor; [split; [exact P1|exact H1]|exact G2]. }
    destruct o as [e|e|o]; [exact (Up e true Fo)|exact (Up e false Fo)|]. clear Up. cbn [e_fine] in Fo.
    destruct (spec dev a o) as [[r a1]|] eqn:Es.
    + destruct (step_chunk so cfg app dev rel K w a st fl c (UApp o) U Fo Fs Ac ltac:(congruence)) as (r0 & st1 & w1 & a1' & fl1 & t1 & got1 & c1 & E1 & S1 & U1 & D1 & Y1 & C1 & R1 & F1 & A1).
      cbn [up_step] in E1. apply bind_inv in E1 as ([r1 w1'] & E1 & X). injection X as <- <- <-.
      destruct (IH w1' a1' st fl1 c1 U1 F1 A1 F) as (ops1 & rs & st2 & w2 & a2 & fl2 & t2 & got2 & c2 & (ops2 & -> & Pl) & E2 & U2 & F2 & A2 & D2 & Y2 & C2 & R2 & G2).
      exists (EApp o :: ops1), (ERApp r1 :: rs), st2, w2, a2, fl2, (t1 ++ t2), (got1 ++ got2), c2.
      split; [exists ops2; split; [reflexivity|exact Pl]|]. split; [cbn [e_run e_step]; rewrite E1; cbn [bind]; rewrite E2; reflexivity|].
      split; [exact U2|]. split; [exact F2|]. split; [exact A2|]. split; [eapply deeds_app; eauto|]. split; [rewrite app_deeds_app, Y1, Y2; reflexivity|].
      split; [exact (cloud_app _ _ _ _ _ _ _ C1 C2)|]. split; [rewrite sent_app; apply received_app; assumption|exact G2].
    + exists [], [], st, w, a, fl, [], [], c. split; [exists (EApp o :: ops); split; [reflexivity|right; eauto]|]. split; [reflexivity|]. split; [exact U|]. split; [exact Fs|]. split; [exact Ac|]. split; [constructor|].
      split; [reflexivity|]. split; [reflexivity|]. split; [constructor|constructor].
Qed.

Theorem e_accounts w a ops : rel None w a -> Forall (e_fine (fine dev)) ops ->
  exists ops1 rs st w' a' t got k, e_played dev ops ops1 a' /\ e_run so cfg ec most app w pk_init ops1 = Some (rs, st, w') /\
    deeds dev a t a' /\ app_deeds t = e_calls ops1 rs /\
    cloud None (map po_body (all_posts rs)) = (k, got) /\ received cfg got (sent t) /\
    (Forall carried_out (all_posts rs) -> cloud None (server_has (all_posts rs)) = (k, got)) /\ Forall (esp_upload url most) (outs rs) /\
    Forall (fun o => held_after (eo_evs o) 0 0 = Some (0, 0)) (outs rs) /\
    forall e, env_ok e -> exists o st2 w2 a2 t2, e_step so cfg ec most app w' st (EUp e) = Some (ERUp o, st2, w2) /\ deeds dev a' t2 a2 /\
      (eo_rv o = 0 -> forall s, enabled (pk_mask st2) s = true -> offer dev s a2 = None) /\
      (eo_posts o <> [] -> eo_sync o = Some (eo_rv o =? 0)) /\
      (~ (exists i, In i (ee_net e) /\ ni_up i = true /\ ni_err i = 0 /\ ni_addr i <> 0) -> eo_rv o = -1 /\ eo_posts o = []).
Proof.
  intros R F. destruct (e_general ops w a pk_init None None (uinv_boot _ _ _ _ _ K w a R) I I F) as (ops1 & rs & st & w' & a' & fl & t & got & k & P & E & U & Fs & Ac & D & Y & C & Q & G).
  exists ops1, rs, st, w', a', t, got, k. do 6 (split; [assumption|]). split; [intros X; unfold server_has; rewrite all_carried by exact X; exact C|]. split; [eapply Forall_impl; [|exact G]; cbn; intros o X; apply X|]. split; [eapply Forall_impl; [|exact G]; cbn; intros o X; apply X|].
  intros e Ee. destruct (esp_step_ok e w' a' st fl k true U Fs Ac Ee) as (x & st1 & w1 & a1 & fl1 & t1 & got1 & c1 & E1 & U1 & D1 & Y1 & M1 & C1 & R1 & F1 & A1 & P1 & H1 & O1 & S1 & S2 & N1).
  exists x, st1, w1, a1, t1. split; [cbn [e_step]; rewrite E1; reflexivity|]. split; [exact D1|]. split; [rewrite M1; auto|]. split; auto.
Qed.
End Esp.

(* ------------------------------------------------------------ where the data goes *)
Lemma url_whole c : zlen (full_url c) < 128 -> build_url c (str "chunks") = (true, full_url c).
Proof. intros H. rewrite build_url_ok. rewrite take_all by lia. destruct (Z.ltb_spec (zlen (full_url c)) 128); [reflexivity|lia]. Qed.
Lemma url_tells c1 c2 : ec_plain c1 = ec_plain c2 -> ec_chunks c1 = ec_chunks c2 -> zlen (full_url c1) < 128 -> zlen (full_url c2) < 128 ->
  build_url c1 (str "chunks") = build_url c2 (str "chunks") -> ec_serial c1 = ec_serial c2.
Proof.
  intros P H L1 L2 E. rewrite !url_whole in E by assumption. injection E as E. unfold full_url, chunks_url in E. rewrite P, H in E.
  apply app_inv_head in E. apply app_inv_head in E. now apply app_inv_head in E.
Qed.
