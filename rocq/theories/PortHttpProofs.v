From Coq Require Import String.
From Verif Require Import Base VarintSpec Crc16Spec ChunkSpec ChunkTransport Packetizer PacketizerSpec PacketizerProofs Uplink UplinkSpec UplinkProofs
  HttpUtils HttpUtilsSpec HttpUtilsProofs HttpResponseProofs HttpRequest HttpRequestSpec HttpRequestProofs ZephyrHttp ZephyrHttpSpec ZephyrHttpProofs PortHttp PortHttpSpec.

(* ------------------------------------------------------------ sending *)
Lemma psoc_send_ok t : forall buf b s t', psoc_send t buf = (b, s, t') ->
  (b = true -> s = buf) /\ (b = false -> exists tail, buf = s ++ tail /\ tail <> []) /\
  (List.length t' <= List.length t)%nat /\ (b = true -> buf <> [] -> (List.length t' < List.length t)%nat).
Proof.
  induction t as [|x t IH]; intros buf b s t' H.
  - cbn in H. destruct (Z.eqb_spec (zlen buf) 0) as [E|E].
    + apply zlen_0_nil in E. subst buf. injection H as <- <- <-. repeat split; try easy.
    + injection H as <- <- <-. split; [easy|]. split; [|split; [lia|easy]]. intros _. exists buf. split; [reflexivity|]. intros ->. now rewrite zlen_nil in E.
  - cbn [psoc_send] in H. destruct (Z.eqb_spec (zlen buf) 0) as [E|E].
    { apply zlen_0_nil in E. subst buf. injection H as <- <- <-. repeat split; try easy. }
    assert (NE : buf <> []) by (intros ->; now rewrite zlen_nil in E).
    destruct x as [n| |].
    + destruct (Z.leb_spec n 0) as [L|L].
      * injection H as <- <- <-. split; [easy|]. split; [intros _; exists buf; easy|]. split; [cbn; lia|easy].
      * destruct (psoc_send t (drop n buf)) as [[b1 s1] t1] eqn:E1. injection H as <- <- <-. destruct (IH _ _ _ _ E1) as (A & B & C & D).
        split; [intros X; rewrite (A X); apply take_drop|]. split.
        { intros X. destruct (B X) as (tail & T & TN). exists tail. split; [|exact TN]. rewrite <- app_assoc, <- T. symmetry. apply take_drop. }
        split; [cbn; lia|]. intros _ _. cbn. lia.
    + injection H as <- <- <-. split; [easy|]. split; [intros _; exists buf; easy|]. split; [cbn; lia|easy].
    + injection H as <- <- <-. split; [easy|]. split; [intros _; exists buf; easy|]. split; [cbn; lia|easy].
Qed.
Lemma mbed_send_all t idx buf : idx = zlen buf -> mbed_send t idx buf = (true, [], t).
Proof. intros ->. destruct t; cbn [mbed_send]; now rewrite Z.eqb_refl. Qed.
Lemma mbed_send_ok t buf b s t' : mbed_send t 0 buf = (b, s, t') -> zlen buf < 2 ^ 32 ->
  Forall (fun x => match x with TxTake n => n < 0 \/ zlen buf <= n | _ => True end) t ->
  (b = true -> s = buf) /\ (b = false -> exists tail, buf = s ++ tail /\ tail <> []) /\
  (List.length t' <= List.length t)%nat /\ (b = true -> buf <> [] -> (List.length t' < List.length t)%nat).
Proof.
  intros H Lb F. destruct (Z.eqb_spec (zlen buf) 0) as [E|E].
  { pose proof E as E0. apply zlen_0_nil in E. subst buf. rewrite mbed_send_all in H by reflexivity. injection H as <- <- <-. repeat split; try easy. }
  assert (NE : buf <> []) by (intros ->; now rewrite zlen_nil in E). pose proof (zlen_nonneg buf) as Zn.
  destruct t as [|x t]; cbn [mbed_send] in H; replace (0 =? zlen buf) with false in H by lia.
  { injection H as <- <- <-. split; [easy|]. split; [intros _; exists buf; easy|]. split; [cbn; lia|easy]. }
  destruct x as [n| |].
  - pose proof (Forall_inv F) as Fx. cbn beta iota in Fx. destruct (Z.ltb_spec n 0) as [L|L].
    + injection H as <- <- <-. split; [easy|]. split; [intros _; exists buf; easy|]. split; [cbn; lia|easy].
    + rewrite Z.min_r in H by lia. rewrite u32_id in H by (unfold is_u32; change (2 ^ 32) with 4294967296 in *; lia).
      rewrite mbed_send_all in H by lia. rewrite take_all in H by lia. rewrite app_nil_r in H. injection H as <- <- <-.
      split; [easy|]. split; [easy|]. split; cbn; lia.
  - injection H as <- <- <-. split; [easy|]. split; [intros _; exists buf; easy|]. split; [cbn; lia|easy].
  - injection H as <- <- <-. split; [easy|]. split; [intros _; exists buf; easy|]. split; [cbn; lia|easy].
Qed.
Lemma mbed_send_suffix t : forall idx buf b s t', mbed_send t idx buf = (b, s, t') -> exists pre, t = pre ++ t'.
Proof.
  induction t as [|x t IH]; intros idx buf b s t' H; cbn [mbed_send] in H; destruct (idx =? zlen buf); [injection H as <- <- <-; now exists []..|].
  destruct x as [n| |]; [|injection H as <- <- <-; eexists [_]; reflexivity..]. destruct (n <? 0); [injection H as <- <- <-; eexists [_]; reflexivity|].
  destruct (mbed_send t _ buf) as [[b1 s1] t1] eqn:E. injection H as <- <- <-. destruct (IH _ _ _ _ _ E) as (pre & ->). eexists (_ :: pre). reflexivity.
Qed.

(** The lengths of what is sent in one piece *)
Definition short (lc : l_cfg) (m : list Z) : Prop := zlen m <= 128 \/ zlen m <= zlen (lc_host lc) \/ zlen m <= zlen (lc_key lc).
Lemma short_whole lc m t : short lc m -> whole_writes lc t -> Forall (fun x => match x with TxTake n => n < 0 \/ zlen m <= n | _ => True end) t.
Proof. intros S F. eapply Forall_impl; [|exact F]. intros [n| |]; cbn; auto. intros [H|H]; [auto|]. unfold short in S. lia. Qed.

Section Conn.
Variables (p : client) (lc : l_cfg).
Hypothesis Lens : zlen (lc_host lc) < 2 ^ 32 /\ zlen (lc_key lc) < 2 ^ 32.
Lemma link_send_ok t buf b s t' : suits p lc t -> short lc buf -> link_send p t buf = (b, s, t') ->
  suits p lc t' /\ (b = true -> s = buf) /\ (b = false -> exists tail, buf = s ++ tail /\ tail <> []) /\
  (List.length t' <= List.length t)%nat /\ (b = true -> buf <> [] -> (List.length t' < List.length t)%nat).
Proof.
  intros S Sh H. destruct p; cbn [link_send suits] in *.
  - split; [exact I|]. exact (psoc_send_ok _ _ _ _ _ H).
  - split; [destruct (mbed_send_suffix _ _ _ _ _ _ H) as (pre & ->); apply Forall_app in S; tauto|].
    eapply mbed_send_ok; [exact H| |eapply short_whole; eassumption]. change (2 ^ 32) with 4294967296 in *. unfold short in Sh. lia.
Qed.
Lemma link_msgs_ok ms : forall t b s t', Forall (short lc) ms -> suits p lc t -> link_msgs p t ms = (b, s, t') ->
  suits p lc t' /\ (b = true -> s = concat ms).
Proof.
  induction ms as [|m r IH]; intros t b s t' Fs S H; cbn [link_msgs] in H.
  - injection H as <- <- <-. split; [exact S|reflexivity].
  - destruct (link_send p t m) as [[b1 s1] t1] eqn:E1. destruct (link_send_ok _ _ _ _ _ S (Forall_inv Fs) E1) as (S1 & A1 & _). destruct b1.
    + destruct (link_msgs p t1 r) as [[b2 s2] t2] eqn:E2. injection H as <- <- <-. destruct (IH _ _ _ _ (Forall_inv_tail Fs) S1 E2) as (S2 & A2). split; [exact S2|].
      intros X. rewrite (A1 eq_refl), (A2 X). reflexivity.
    + injection H as <- <- <-. split; [exact S1|discriminate].
Qed.
Lemma writes_true ms : forall sent, writes (fun _ => true) sent ms = (true, sent ++ ms).
Proof. induction ms as [|m r IH]; intros sent; cbn [writes]; [now rewrite app_nil_r|]. rewrite IH, <- app_assoc. reflexivity. Qed.
Lemma start_short len : Forall (short lc) (snd (start_chunk_post (fun _ => true) (lc_serial lc) (lc_host lc) (lc_key lc) len)).
Proof.
  unfold start_chunk_post, write_msg, w_and.
  destruct (Z.leb_spec 100 (zlen (str "POST /api/v0/chunks/" ++ lc_serial lc ++ str " HTTP/1.1" ++ s_crlf))) as [L|L]; [constructor|].
  rewrite !writes_true. set (m1 := str "POST /api/v0/chunks/" ++ lc_serial lc ++ str " HTTP/1.1" ++ s_crlf) in *. cbn [app].
  assert (F : Forall (short lc) ([m1] ++ host_hdr (lc_host lc) ++ user_agent_hdr ++ project_key_hdr (lc_key lc) ++ [str "Content-Type:application/octet-stream" ++ s_crlf])).
  { unfold host_hdr, user_agent_hdr, project_key_hdr. cbn [app]. repeat (apply Forall_cons; [unfold short; first [left; cbv; discriminate | left; lia | right; left; lia | right; right; lia]|]). constructor. }
  destruct (Z.leb_spec 100 (zlen (str "Content-Length:" ++ print_int (s32 len) ++ s_crlf))) as [L2|L2]; [exact F|].
  rewrite !writes_true. cbn [snd]. apply Forall_app. split; [refine (proj2 (Forall_app _ _ _) (conj F _))|]; (apply Forall_cons; [left|constructor]); [lia|cbv; discriminate].
Qed.
Lemma l_start_ok c len : 0 <= len < 2 ^ 31 -> suits p lc (cn_tx c) ->
  let c' := l_start p lc c len in
  cn_rx c' = cn_rx c /\ suits p lc (cn_tx c') /\ (cn_hdr c' = true -> cn_hdr c = true) /\
  (cn_hdr c' = true -> exists ds, decimal_text len ds /\ cn_out c' = cn_out c ++ post_request (lc_serial lc) (lc_host lc) (lc_key lc) ds).
Proof.
  intros L Su. unfold l_start. pose proof (start_short len) as Sh.
  destruct (start_chunk_post (fun _ => true) (lc_serial lc) (lc_host lc) (lc_key lc) len) as [b ms] eqn:E. cbn [snd] in Sh.
  destruct (link_msgs p (cn_tx c) ms) as [[ok s] t] eqn:E2. destruct (link_msgs_ok _ _ _ _ _ Sh Su E2) as [S2 A]. cbn [cn_rx cn_hdr cn_out cn_tx]. split; [reflexivity|]. split; [exact S2|].
  split; [intros X; apply andb_prop in X; tauto|]. intros X. apply andb_prop in X as [_ X]. apply andb_prop in X as [X1 X2]. subst b ok.
  rewrite (A eq_refl).
  destruct (post_ok (fun _ => true) (lc_serial lc) (lc_host lc) (lc_key lc) len L) as [P1 P2]. rewrite E in *.
  destruct (Z.le_gt_cases (zlen (lc_serial lc)) 68) as [Q|Q].
  - destruct (P1 Q) as (ds & D & S). exists ds. split; [exact D|]. unfold sends in S. destruct S as [S _]. destruct (S eq_refl) as [S1 _]. now rewrite S1.
  - specialize (P2 ltac:(lia)). discriminate P2.
Qed.
Lemma l_body_ok c buf b c' : suits p lc (cn_tx c) -> short lc buf -> l_body p c buf = (b, c') ->
  cn_rx c' = cn_rx c /\ suits p lc (cn_tx c') /\ cn_hdr c' = cn_hdr c /\ (List.length (cn_tx c') <= List.length (cn_tx c))%nat /\
  (b = true -> cn_out c' = cn_out c ++ buf) /\ (b = true -> buf <> [] -> (List.length (cn_tx c') < List.length (cn_tx c))%nat) /\
  (b = false -> exists pre tail, cn_out c' = cn_out c ++ pre /\ buf = pre ++ tail /\ tail <> []).
Proof.
  unfold l_body. intros Su Sh H. destruct (link_send p (cn_tx c) buf) as [[b1 s] t] eqn:E. injection H as <- <-.
  destruct (link_send_ok _ _ _ _ _ Su Sh E) as (S1 & A & B & C & D). cbn [cn_rx cn_bytes cn_hdr cn_out cn_tx].
  split; [reflexivity|]. split; [exact S1|]. split; [reflexivity|]. split; [exact C|]. split; [intros X; now rewrite (A X)|]. split; [exact D|].
  intros X. destruct (B X) as (tail & T1 & T2). exists s, tail. auto.
Qed.

End Conn.

(* ------------------------------------------------------------ responses *)
Section Wait.
Variable p : client.
Lemma feed_status pieces : forall h n1 n2,
  match feed h pieces false n1, feed h pieces false n2 with
  | Some (f, h1, _), Some (f', h2, _) => f = f' /\ h1 = h2
  | None, None => True
  | _, _ => False
  end.
Proof.
  induction pieces as [|x r IH]; intros h n1 n2; cbn [feed]; [auto|]. destruct (parse_http h x false) as [[[|] h1]|]; [auto|apply IH|exact I].
Qed.
Lemma link_read_size r d r' : link_read p r 32 = (Some d, r') -> (rx_size r' < rx_size r)%nat.
Proof.
  unfold link_read. destruct r as [|[x| |] r]; try discriminate.
  - intros H. injection H as <- <-. cbn [rx_size].
    destruct (Z.ltb_spec 32 (zlen x)); cbn [rx_size]; [|lia].
    assert (List.length (drop 32 x) < List.length x)%nat; [|lia]. pose proof (zlen_drop 32 x) as Q. unfold zlen in *. lia.
  - destruct p; [discriminate|]. intros H. injection H as <- <-. cbn. lia.
Qed.
Lemma link_read_data r : let (o, r') := link_read p r 32 in
  match o with
  | Some d => rx_bytes r = d ++ rx_bytes r' /\ zlen d <= 32
  | None => exists gone, rx_bytes r = gone ++ rx_bytes r'
  end.
Proof.
  unfold link_read. destruct r as [|[x| |] r]; cbn [rx_bytes flat_map]; fold rx_bytes.
  - exists []. reflexivity.
  - split; [|rewrite zlen_take; lia].
    destruct (Z.ltb_spec 32 (zlen x)) as [L|L]; cbn [rx_bytes flat_map].
    + fold rx_bytes. rewrite app_assoc, take_drop. reflexivity.
    + rewrite take_all by lia. reflexivity.
  - destruct p; [exists []; reflexivity|]. split; [reflexivity|]. rewrite zlen_nil. lia.
  - exists []. reflexivity.
Qed.
Lemma wait_code_loop_ok fuel : forall h r, (rx_size r < fuel)%nat -> hinv h -> bytes (rx_bytes r) -> h_recv h + zlen (rx_bytes r) < 2 ^ 31 ->
  exists code r' gone, wait_code_loop p fuel h r = Some (code, r') /\ rx_bytes r = gone ++ rx_bytes r' /\
    (code = -1 \/ exists pieces h' n, concat pieces = gone /\ feed h pieces false 0 = Some (true, h', n) /\ code = h_status h').
Proof.
  induction fuel as [|fuel IH]; intros h r F V B L; [lia|]. cbn [wait_code_loop].
  pose proof (link_read_data r) as D. pose proof (link_read_size r) as Sz. destruct (link_read p r 32) as [[d|] r1].
  - destruct D as [D Ld]. rewrite D in B, L. apply bytes_app in B as [B1 B2]. rewrite zlen_app in L. pose proof (zlen_nonneg (rx_bytes r1)).
    destruct (parse_recv d false h B1 V ltac:(lia)) as (f & h1 & E1 & V1 & R1). rewrite E1. cbn [bind]. destruct f.
    + exists (h_status h1), r1, d. split; [reflexivity|]. split; [exact D|]. right. exists [d], h1, (0 + h_done h1). split; [cbn; apply app_nil_r|]. cbn [feed]. rewrite E1. split; reflexivity.
    + destruct (IH h1 r1) as (code & r2 & gone & E2 & G & P); [specialize (Sz _ _ eq_refl); lia|exact V1|exact B2|lia|].
      exists code, r2, (d ++ gone). split; [exact E2|]. split; [now rewrite D, G, app_assoc|]. destruct P as [P|(pieces & h' & n & C & Fd & St)]; [left; exact P|right].
      destruct (feed h (d :: pieces) false 0) as [[[g h2] n2]|] eqn:Ef.
      * exists (d :: pieces), h2, n2. split; [cbn; now rewrite C|]. rewrite Ef. cbn [feed] in Ef. rewrite E1 in Ef.
        pose proof (feed_status pieces h1 0 (0 + h_done h1)) as Y. rewrite Fd, Ef in Y. destruct Y as [<- <-]. auto.
      * exfalso. cbn [feed] in Ef. rewrite E1 in Ef. pose proof (feed_status pieces h1 0 (0 + h_done h1)) as Y. rewrite Fd, Ef in Y. exact Y.
  - destruct D as [gone D]. exists (-1), r1, gone. split; [reflexivity|]. split; [exact D|]. left. reflexivity.
Qed.
Lemma wait_code_ok r : bytes (rx_bytes r) -> zlen (rx_bytes r) < 2 ^ 31 ->
  exists code r' gone, wait_code p r = Some (code, r') /\ rx_bytes r = gone ++ rx_bytes r' /\
    (code = -1 \/ exists h, parse_http h_init gone false = Some (true, h) /\ code = h_status h).
Proof.
  intros B L. destruct (wait_code_loop_ok (S (rx_size r)) h_init r) as (code & r' & gone & E & G & P); [lia|apply hinv_init|exact B|cbn; exact L|].
  exists code, r', gone. split; [exact E|]. split; [exact G|]. destruct P as [P|(pieces & h' & n & C & Fd & St)]; [left; exact P|right].
  pose proof (feed_ok pieces false h_init 0) as Y. rewrite Fd, C in Y. destruct (parse_http h_init gone false) as [[x y]|]; [|discriminate Y].
  destruct Y as (z & Y1 & Y2). injection Y1 as <- <- _. exists y. split; [reflexivity|]. rewrite St. unfold view in Y2. now injection Y2.
Qed.
End Wait.

Section Delivery.
Context {W A O Re : Type}.
Variables (so : sources W) (cfg : up_cfg) (app : W -> O -> option (Re * W)) (dev : device A O Re) (rel : option (src * Z) -> W -> A -> Prop).
Hypothesis K : keeps_contract so cfg app dev rel.
Variables (p : client) (lc : l_cfg) (junk : list Z).
Notation sn := (lc_serial lc). Notation hs := (lc_host lc). Notation ky := (lc_key lc).
Notation uinv := (uinv cfg dev rel). Notation ucfg := (u_cfg cfg).
Hypothesis Lens : zlen (lc_host lc) < 2 ^ 32 /\ zlen (lc_key lc) < 2 ^ 32.
Hypothesis Small : forall f w a s m, rel f w a -> offer dev s a = Some m -> zlen (wire ucfg s m) < 2 ^ 31 - 3.
Hypothesis Junk : zlen junk = 128.

Lemma l_pieces_ok fuel : forall w a st f c base, uinv w a st (Some f) -> f_multi f = true -> (List.length (cn_tx c) < fuel)%nat ->
  suits p lc (cn_tx c) -> (cn_hdr c = true -> cn_out c = base ++ concat (f_outs f)) ->
  exists rv st' w' c' a' t, l_pieces p so cfg junk fuel w st c = Some (rv, st', w', c') /\ uinv w' a' st' None /\ deeds dev a t a' /\ app_deeds t = [] /\
    cn_rx c' = cn_rx c /\ suits p lc (cn_tx c') /\ cn_hdr c' = cn_hdr c /\
    (rv = true /\ (exists body crc, 
       (cn_hdr c = true -> cn_out c' = base ++ body) /\ receive [body] = Some (wire ucfg (f_src f) (f_msg f), crc) /\ is_crc 0 (wire ucfg (f_src f) (f_msg f)) crc /\
       sent t = [(f_src f, f_msg f)]) \/
     rv = false /\ zlen (sent t) <= 1 /\
       (cn_hdr c = true -> exists b, cn_out c' = base ++ b /\ zlen b < 3 + zlen (wire ucfg (f_src f) (f_msg f)))).
Proof.
  pose proof (flight_here cfg dev rel Small) as FH. pose proof (reset_up so cfg app dev rel K) as RU.
  induction fuel as [|fuel IH]; intros w a st f c base U Mu Fu Su Out; [lia|]. cbn [l_pieces].
  destruct (next_up so cfg app dev rel K w a st (Some f) junk U ltac:(lia)) as (status & out & st1 & w1 & cs & q & fl1 & E & N & U1 & M1 & _).
  rewrite E. cbn [bind]. destruct (FH _ _ _ _ U) as [Of Lf].
  inv N; cbn [f_multi f_src f_msg f_outs] in *; try lia.
  - (* a piece that is not the last *)
    subst multi. assert (Sh : short lc out) by (left; lia). destruct (l_body p c out) as [b c1] eqn:Eb. destruct (l_body_ok p lc Lens _ _ _ _ Su Sh Eb) as (A1 & A2 & A3 & A4 & A5 & A6 & A7).
    assert (Ea : effects dev a cs = a) by (eapply reads_effect; eassumption). rewrite Ea in U1.
    match goal with X : incomplete _ _ _ |- _ => rename X into Xi; unfold incomplete in Xi; rewrite concat_app in Xi; cbn [concat] in Xi; rewrite app_nil_r in Xi end.
    destruct b; cbn [negb].
    + destruct (IH w1 a st1 (mk_fl s m true (outs ++ [out])) c1 base U1 eq_refl) as (rv & st2 & w2 & c2 & a2 & t & E2 & U2 & D2 & Y2 & B1 & B2 & B3 & R).
      { assert (out <> []) by (intros Z0; apply (f_equal zlen) in Z0; rewrite zlen_nil in Z0; lia). specialize (A6 eq_refl ltac:(assumption)). lia. }
      { exact A2. }
      { cbn [f_outs]. intros X. rewrite A3 in X. rewrite (A5 eq_refl), (Out X), concat_app. cbn [concat]. now rewrite app_nil_r, app_assoc. }
      exists rv, st2, w2, c2, a2, t. split; [exact E2|]. split; [exact U2|]. split; [exact D2|]. split; [exact Y2|].
      cbn [f_outs f_src f_msg] in *. split; [congruence|]. split; [exact B2|]. split; [congruence|].
      rewrite A3 in R. exact R.
    + destruct (RU _ _ _ _ U1) as (w2 & Er & U2). rewrite Er. cbn [bind].
      exists false, (pk_abort st1), w2, c1, a, []. split; [reflexivity|]. split; [exact U2|]. split; [constructor|]. split; [reflexivity|].
      split; [exact A1|]. split; [exact A2|]. split; [exact A3|]. right. split; [reflexivity|]. split; [exact Z.le_0_1|]. intros X.
      destruct (A7 eq_refl) as (pre & tail & T1 & T2 & T3). exists (concat outs ++ pre). rewrite T1, (Out X), app_assoc. split; [reflexivity|].
      rewrite T2 in Xi. rewrite !zlen_app in *. pose proof (zlen_nonneg tail). lia.
  - (* the last *)
    subst multi. assert (Sh : short lc out) by (left; lia). destruct (l_body p c out) as [b c1] eqn:Eb. destruct (l_body_ok p lc Lens _ _ _ _ Su Sh Eb) as (A1 & A2 & A3 & A4 & A5 & A6 & A7).
    match goal with X : reads_only _ _ _ |- _ => rename X into Xr end.
    match goal with X : complete _ _ _ |- _ => destruct X as (crc & Rc & Cc) end. rewrite concat_app in Rc. cbn [concat] in Rc. rewrite app_nil_r in Rc.
    pose proof (receive_one _ _ _ Rc) as Ln. rewrite zlen_app in Ln.
    rewrite effects_app, (reads_effect dev _ _ _ a Xr) in U1. cbn [effects fold_left effect] in U1.
    assert (D : deeds dev a [DSent s m] (mark dev s a)) by (econstructor; [exact Of|constructor]).
    destruct b; cbn [negb].
    + exists true, st1, w1, c1, (mark dev s a), [DSent s m]. split; [reflexivity|]. split; [exact U1|]. split; [exact D|]. split; [reflexivity|].
      split; [exact A1|]. split; [exact A2|]. split; [exact A3|]. left. split; [reflexivity|]. exists (concat outs ++ out), crc.
      split; [intros X; rewrite (A5 eq_refl), (Out X); now rewrite app_assoc|]. split; [exact Rc|]. split; [exact Cc|reflexivity].
    + destruct (RU _ _ _ _ U1) as (w2 & Er & U2). rewrite Er. cbn [bind].
      exists false, (pk_abort st1), w2, c1, (mark dev s a), [DSent s m]. split; [reflexivity|]. split; [exact U2|]. split; [exact D|]. split; [reflexivity|].
      split; [exact A1|]. split; [exact A2|]. split; [exact A3|]. right. split; [reflexivity|]. split; [exact (Z.le_refl 1)|]. intros X.
      destruct (A7 eq_refl) as (pre & tail & T1 & T2 & T3). exists (concat outs ++ pre). rewrite T1, (Out X), app_assoc. split; [reflexivity|].
      rewrite T2 in Ln. rewrite !zlen_app in *. assert (zlen tail <> 0) by (intros X0; apply zlen_0_nil in X0; contradiction). pose proof (zlen_nonneg tail). lia.
Qed.

(** One post on an active client *)
Lemma l_post_ok w a st c : uinv w a st None -> suits p lc (cn_tx c) -> bytes (rx_bytes (cn_rx c)) -> zlen (rx_bytes (cn_rx c)) < 2 ^ 31 -> cn_out c = [] ->
  exists rv cb st' w' c' a' t bodies got, l_post p so cfg lc junk w st c = Some (rv, cb, st', w', c') /\ uinv w' a' st' None /\ deeds dev a t a' /\ app_deeds t = [] /\
    suits p lc (cn_tx c') /\ bytes (rx_bytes (cn_rx c')) /\ zlen (rx_bytes (cn_rx c')) < 2 ^ 31 /\ cloud None bodies = (None, got) /\
    (cn_hdr c' = true -> post_done p cfg lc rv cb (cn_out c') bodies got (sent t)) /\
    (cb = None -> rv = 1 -> forall s, enabled (pk_mask st') s = true -> offer dev s a' = None).
Proof.
  pose proof l_pieces_ok as SP. pose proof (flight_here cfg dev rel Small) as FH. intros U Su Br Lr Oc. unfold l_post.
  destruct (begin_up so cfg app dev rel K w a st None true U) as (ok & len & pr & st1 & w1 & cs & fl1 & E & B & Of & U1 & M1 & Cu & _).
  rewrite E. cbn [bind]. inv B; cbn [negb].
  - match goal with X : queries_only _ _ |- _ => destruct (queries_deeds dev _ _ a X) as (t1 & D1 & X1 & Y1) end.
    destruct (FH _ _ _ _ U1) as [Of1 Lf]. cbn [f_src f_msg] in Of1, Lf.
    pose proof (zlen_nonneg (wire ucfg s m)) as Wn.
    destruct (l_start_ok p lc Lens c (3 + zlen (wire ucfg s m))) as (A1 & A2 & A3 & A4); [lia|exact Su|].
    set (c1 := l_start p lc c (3 + zlen (wire ucfg s m))) in *.
    destruct (SP (S (List.length (cn_tx c1))) w1 (effects dev a cs) st1 (mk_fl s m true []) c1 (cn_out c1) U1 eq_refl ltac:(lia) A2) as (rv & st2 & w2 & c2 & a2 & t2 & E2 & U2 & D2 & Y2 & B1 & B2 & B3 & R).
    { intros _. cbn [f_outs concat]. now rewrite app_nil_r. }
    assert (St : sent (t1 ++ t2) = sent t2) by (unfold sent in *; rewrite flat_map_app, X1; reflexivity).
    assert (Yt : app_deeds (t1 ++ t2) = []) by (unfold app_deeds in *; rewrite flat_map_app, Y1, Y2; reflexivity).
    rewrite E2. cbn [bind]. cbn [f_outs concat f_src f_msg] in R. destruct R as [(-> & body & crc & R4 & R5 & R6 & R7)|(-> & R1 & R2)]; cbn [negb].
    + destruct (wait_code_ok p (cn_rx c2)) as (code & r' & gone & Ew & Gn & _); [rewrite B1, A1; exact Br|rewrite B1, A1; exact Lr|]. rewrite Ew. cbn [bind].
      rewrite B1, A1 in Gn. rewrite Gn in Br, Lr. apply bytes_app in Br as [_ Br]. rewrite zlen_app in Lr. pose proof (zlen_nonneg gone).
      eexists _, _, st2, w2, _, a2, (t1 ++ t2), [body], [(wire ucfg s m, crc)]. split; [reflexivity|]. split; [exact U2|]. split; [eapply deeds_app; eassumption|]. split; [exact Yt|].
      cbn [cn_tx cn_rx cn_out cn_hdr]. split; [exact B2|]. split; [exact Br|]. split; [lia|]. split; [apply receive_cloud; exact R5|]. split; [|discriminate].
      intros X. rewrite B3 in X. destruct (A4 X) as (ds & Dd & Do). rewrite St, R7. apply (PD_posted p cfg lc code).
      * pose proof (receive_one _ _ _ R5) as Ln. exists ds. rewrite Ln. split; [exact Dd|]. rewrite (R4 X), Do, Oc. reflexivity.
      * constructor; [cbn; auto|constructor].
    + exists 0, None, st2, w2, c2, a2, (t1 ++ t2), [], []. split; [reflexivity|]. split; [exact U2|]. split; [eapply deeds_app; eassumption|]. split; [exact Yt|].
      split; [exact B2|]. split; [rewrite B1, A1; exact Br|]. split; [rewrite B1, A1; exact Lr|]. split; [reflexivity|]. split; [|discriminate].
      intros X. rewrite B3 in X. destruct (A4 X) as (ds & Dd & Do). destruct (R2 X) as (b & Rb & Lb). apply PD_cut; [|rewrite St; exact R1].
      exists ds, (3 + zlen (wire ucfg s m)), b. split; [exact Dd|]. split; [rewrite Rb, Do, Oc; reflexivity|exact Lb].
  - match goal with X : queries_only _ _ |- _ => destruct (queries_deeds dev _ _ a X) as (t1 & D1 & X1 & Y1) end.
    exists 1, None, st1, w1, c, (effects dev a cs), t1, [], []. split; [reflexivity|]. split; [exact U1|]. split; [exact D1|]. split; [exact Y1|].
    split; [exact Su|]. split; [exact Br|]. split; [exact Lr|]. split; [reflexivity|]. split; [intros _; rewrite X1, Oc; apply PD_idle; auto|].
    intros _ _ s Hs. rewrite Of. match goal with X : nothing_to_send _ _ |- _ => destruct (X s) as [Q|Q]; [rewrite M1 in Hs; congruence|] end.
    rewrite view_q in Q. destruct (offer dev s a); [discriminate|reflexivity].
Qed.

Definition link_ok (l : link) : Prop :=
  match l with Some (t, r) => suits p lc t /\ bytes (rx_bytes r) /\ zlen (rx_bytes r) < 2 ^ 31 | None => True end.
Lemma l_step_post w a st l : uinv w a st None -> link_ok l ->
  exists rv cb c st' w' l' a' t bodies got, l_step p so cfg lc junk app w st l LPost = Some (LRPost rv cb c, st', w', l') /\ uinv w' a' st' None /\ link_ok l' /\
    deeds dev a t a' /\ app_deeds t = [] /\ cloud None bodies = (None, got) /\
    (cn_hdr c = true -> post_done p cfg lc rv cb (cn_out c) bodies got (sent t)) /\
    (cb = None -> rv = 1 -> forall s, enabled (pk_mask st') s = true -> offer dev s a' = None).
Proof.
  intros U L. destruct l as [[t0 r0]|]; cbn [l_step].
  - destruct L as (Su & Br & Lr). destruct (l_post_ok w a st (new_conn t0 r0) U Su Br Lr eq_refl) as (rv & cb & st' & w' & c & a' & t & bodies & got & E & U' & D & Y & S' & B' & L' & Cl & Ok & Nt).
    rewrite E. cbn [bind]. eexists rv, cb, c, st', w', _, a', t, bodies, got. split; [reflexivity|]. split; [exact U'|]. split; [exact (conj S' (conj B' L'))|]. auto 6.
  - eexists (-1), None, _, st, w, None, a, [], [], []. split; [reflexivity|]. split; [exact U|]. split; [exact I|]. split; [constructor|]. split; [reflexivity|]. split; [reflexivity|].
    split; [intros _; apply PD_idle; auto|discriminate].
Qed.

Lemma l_general ops : forall w a st l, uinv w a st None -> link_ok l -> Forall (l_fine p lc (fine dev)) ops ->
  exists ops1 rs st' w' l' a' t log, l_played dev ops ops1 a' /\ l_run p so cfg lc junk app w st l ops1 = Some (rs, st', w', l') /\ uinv w' a' st' None /\ link_ok l' /\
    deeds dev a t a' /\ app_deeds t = l_calls ops1 rs /\ sent t = concat (map e_acked log) /\
    cloud None (concat (map e_bodies log)) = (None, concat (map e_got log)) /\
    Forall2 (fun u e => cn_hdr (snd u) = true -> post_done p cfg lc (fst (fst u)) (snd (fst u)) (cn_out (snd u)) (e_bodies e) (e_got e) (e_acked e)) (l_posts rs) log.
Proof.
  induction ops as [|o ops IH]; intros w a st l U L F.
  - exists [], [], st, w, l, a, [], []. split; [exists []; auto|]. do 3 (split; [reflexivity || assumption|]). split; [constructor|]. do 3 (split; [reflexivity|]). constructor.
  - pose proof (Forall_inv F) as Fo. pose proof (Forall_inv_tail F) as Ft. destruct o as [tx0 rx0| | |x].
    + destruct (IH w a st (Some (tx0, rx0)) U Fo Ft) as (ops1 & rs & st2 & w2 & l2 & a2 & t & log & (ops2 & P1 & P2) & E2 & U2 & L2 & D2 & Y2 & S2 & C2 & Q).
      exists (LOpen tx0 rx0 :: ops1), (LROpen :: rs), st2, w2, l2, a2, t, log. split; [exists ops2; split; [cbn; now rewrite P1|exact P2]|].
      split; [cbn [l_run l_step bind]; rewrite E2; reflexivity|]. do 5 (split; [assumption|]). split; assumption.
    + destruct (IH w a st None U I Ft) as (ops1 & rs & st2 & w2 & l2 & a2 & t & log & (ops2 & P1 & P2) & E2 & U2 & L2 & D2 & Y2 & S2 & C2 & Q).
      exists (LClose :: ops1), (LRClose :: rs), st2, w2, l2, a2, t, log. split; [exists ops2; split; [cbn; now rewrite P1|exact P2]|].
      split; [cbn [l_run l_step bind]; rewrite E2; reflexivity|]. do 5 (split; [assumption|]). split; assumption.
    + destruct (l_step_post w a st l U L) as (rv & cb & c & st1 & w1 & l1 & a1 & ds & bodies & got & E & U1 & L1 & D & Y & Cl & Ok & _).
      destruct (IH w1 a1 st1 l1 U1 L1 Ft) as (ops1 & rs & st2 & w2 & l2 & a2 & t & log & (ops2 & P1 & P2) & E2 & U2 & L2 & D2 & Y2 & S2 & C2 & Q).
      exists (LPost :: ops1), (LRPost rv cb c :: rs), st2, w2, l2, a2, (ds ++ t), (mk_entry bodies got (sent ds) :: log).
      split; [exists ops2; split; [cbn; now rewrite P1|exact P2]|]. split; [cbn [l_run]; rewrite E; cbn [bind]; rewrite E2; reflexivity|].
      split; [exact U2|]. split; [exact L2|]. split; [eapply deeds_app; eassumption|]. split; [rewrite app_deeds_app, Y, Y2; reflexivity|].
      split; [rewrite sent_app, S2; reflexivity|]. split; [cbn [map concat e_bodies e_got]; rewrite cloud_app, Cl, C2; reflexivity|].
      cbn [l_posts flat_map Datatypes.app]. constructor; [exact Ok|exact Q].
    + destruct (spec dev a x) as [[r a1]|] eqn:Es.
      * destruct (step_up so cfg app dev rel K w a st None (UApp x) U Fo) as (r1 & st1 & w1 & a1' & fl1 & E & S & U1); [rewrite Es; discriminate|].
        cbn [up_step] in E. apply bind_inv in E as ([r2 w2'] & Ea & E). injection E as <- <- <-.
        remember (pk_mask st) as m1 eqn:Em1. inv S. match goal with X : spec dev a x = Some (r2, a1') |- _ => rename X into Es2 end.
        destruct (IH w2' a1' st l U1 L Ft) as (ops1 & rs & st2 & w2 & l2 & a2 & t & log & (ops2 & P1 & P2) & E2 & U2 & L2 & D2 & Y2 & S2 & C2 & Q).
        exists (LApp x :: ops1), (LRApp r2 :: rs), st2, w2, l2, a2, (DApp x r2 :: t), log.
        split; [exists ops2; split; [cbn; now rewrite P1|exact P2]|]. split; [cbn [l_run l_step]; rewrite Ea; cbn [bind]; rewrite E2; reflexivity|].
        split; [exact U2|]. split; [exact L2|]. split; [econstructor; eassumption|]. split; [change (app_deeds (DApp x r2 :: t)) with ((x, r2) :: app_deeds t); rewrite Y2; reflexivity|]. split; [exact S2|]. split; [exact C2|exact Q].
      * exists [], [], st, w, l, a, [], []. split; [exists (LApp x :: ops); split; [reflexivity|right; eauto]|]. do 3 (split; [reflexivity || assumption|]). split; [constructor|]. do 3 (split; [reflexivity|]). constructor.
Qed.

Theorem l_accounts w a ops : rel None w a -> Forall (l_fine p lc (fine dev)) ops ->
  exists ops1 rs st w' l a' t log, l_played dev ops ops1 a' /\ l_run p so cfg lc junk app w pk_init None ops1 = Some (rs, st, w', l) /\
    deeds dev a t a' /\ app_deeds t = l_calls ops1 rs /\ sent t = concat (map e_acked log) /\
    cloud None (concat (map e_bodies log)) = (None, concat (map e_got log)) /\
    (l_headers rs -> Forall2 (fun u e => post_done p cfg lc (fst (fst u)) (snd (fst u)) (cn_out (snd u)) (e_bodies e) (e_got e) (e_acked e)) (l_posts rs) log) /\
    exists rv cb c st2 w2 l2 a2 t2, l_step p so cfg lc junk app w' st l LPost = Some (LRPost rv cb c, st2, w2, l2) /\ deeds dev a' t2 a2 /\
      (cb = None -> rv = 1 -> forall s, enabled (pk_mask st2) s = true -> offer dev s a2 = None).
Proof.
  intros R F. destruct (l_general ops w a pk_init None (uinv_boot _ _ _ _ _ K w a R) I F) as (ops1 & rs & st & w' & l & a' & t & log & P & E & U & L & D & Y & S & C & Q).
  exists ops1, rs, st, w', l, a', t, log. do 6 (split; [assumption|]). split.
  - intros H. unfold l_headers in H. clear - H Q. revert H. induction Q as [|u e us es Hu Q IH]; intros H; [constructor|]. inv H. constructor; auto.
  - destruct (l_step_post w' a' st l U L) as (rv & cb & c & st1 & w1 & l1 & a1 & ds & bodies & got & E1 & _ & _ & D1 & _ & _ & _ & Nt). eauto 12.
Qed.
End Delivery.
