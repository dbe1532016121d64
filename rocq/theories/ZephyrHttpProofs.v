From Verif Require Import Base VarintSpec Crc16Spec ChunkSpec ChunkTransport Packetizer PacketizerSpec PacketizerProofs Uplink UplinkSpec UplinkProofs
  HttpUtils HttpUtilsSpec HttpUtilsProofs HttpResponseProofs HttpRequest HttpRequestSpec HttpRequestProofs ZephyrHttp ZephyrHttpSpec.

(* ------------------------------------------------------------ sending *)
Lemma try_send_ok t : forall buf b s t', try_send t buf = (b, s, t') ->
  (b = true -> s = buf) /\ (b = false -> exists tail, buf = s ++ tail /\ tail <> []) /\
  (length t' <= length t)%nat /\ (b = true -> buf <> [] -> (length t' < length t)%nat).
Proof.
  induction t as [|x t IH]; intros buf b s t' H.
  - cbn in H. destruct (Z.eqb_spec (zlen buf) 0) as [E|E].
    + apply zlen_0_nil in E. subst buf. injection H as <- <- <-. repeat split; try easy.
    + injection H as <- <- <-. split; [easy|]. split; [|split; [lia|easy]]. intros _. exists buf. split; [reflexivity|]. intros ->. now rewrite zlen_nil in E.
  - cbn [try_send] in H. destruct (Z.eqb_spec (zlen buf) 0) as [E|E].
    { apply zlen_0_nil in E. subst buf. injection H as <- <- <-. repeat split; try easy. }
    assert (NE : buf <> []) by (intros ->; now rewrite zlen_nil in E).
    destruct x as [n| |].
    + destruct (Z.leb_spec n 0) as [L|L].
      * injection H as <- <- <-. split; [easy|]. split; [intros _; exists buf; easy|]. split; [cbn; lia|easy].
      * destruct (try_send t (drop n buf)) as [[b1 s1] t1] eqn:E1. injection H as <- <- <-. destruct (IH _ _ _ _ E1) as (A & B & C & D).
        split; [intros X; rewrite (A X); apply take_drop|]. split.
        { intros X. destruct (B X) as (tail & T & TN). exists tail. split; [|exact TN]. rewrite <- app_assoc, <- T. symmetry. apply take_drop. }
        split; [cbn; lia|]. intros _ _. cbn. lia.
    + destruct (IH _ _ _ _ H) as (A & B & C & D). split; [exact A|]. split; [exact B|]. split; [cbn; lia|]. intros X Y. specialize (D X Y). cbn. lia.
    + injection H as <- <- <-. split; [easy|]. split; [intros _; exists buf; easy|]. split; [cbn; lia|easy].
Qed.
Lemma send_msgs_ok ms : forall t b s t', send_msgs t ms = (b, s, t') ->
  (b = true -> s = concat ms) /\ (b = false -> exists tail, concat ms = s ++ tail).
Proof.
  induction ms as [|m r IH]; intros t b s t' H; cbn [send_msgs] in H.
  - injection H as <- <- <-. split; [reflexivity|discriminate].
  - destruct (send_data t m) as [[b1 s1] t1] eqn:E1. assert (S1 : (b1 = true -> s1 = m) /\ exists tail, m = s1 ++ tail).
    { unfold send_data in E1. destruct t as [|[n| |] t]; injection E1 as <- <- <-; (split; [try discriminate|]).
      - now exists m.
      - intros X. apply take_all. lia.
      - exists (drop n m). symmetry. apply take_drop.
      - now exists m.
      - now exists m. }
    destruct S1 as [S1 S2]. destruct b1.
    + destruct (send_msgs t1 r) as [[b2 s2] t2] eqn:E2. injection H as <- <- <-. destruct (IH _ _ _ _ E2) as [A B]. rewrite (S1 eq_refl). cbn [concat]. split.
      * intros X. now rewrite (A X).
      * intros X. destruct (B X) as [tail T]. exists tail. now rewrite T, app_assoc.
    + injection H as <- <- <-. split; [discriminate|]. intros _. destruct S2 as [tail ->]. exists (tail ++ concat r). cbn [concat]. now rewrite app_assoc.
Qed.

Section Conn.
Variable zc : z_cfg.
Lemma start_post_ok c len : 0 <= len < 2 ^ 31 ->
  let c' := start_post zc c len in
  cn_rx c' = cn_rx c /\ cn_bytes c' = cn_bytes c /\ (cn_hdr c' = true -> cn_hdr c = true) /\
  (cn_hdr c' = true -> exists ds, decimal_text len ds /\ cn_out c' = cn_out c ++ post_request (zc_serial zc) (zc_host zc) (zc_key zc) ds).
Proof.
  intros L. unfold start_post.
  destruct (start_chunk_post (fun _ => true) (zc_serial zc) (zc_host zc) (zc_key zc) len) as [b ms] eqn:E.
  destruct (send_msgs (cn_tx c) ms) as [[ok s] t] eqn:E2. cbn [cn_rx cn_bytes cn_hdr cn_out]. split; [reflexivity|]. split; [reflexivity|].
  split; [intros X; apply andb_prop in X; tauto|]. intros X. apply andb_prop in X as [_ X]. apply andb_prop in X as [X1 X2]. subst b ok.
  destruct (send_msgs_ok _ _ _ _ _ E2) as [A _]. rewrite (A eq_refl).
  destruct (post_ok (fun _ => true) (zc_serial zc) (zc_host zc) (zc_key zc) len L) as [P1 P2]. rewrite E in *.
  destruct (Z.le_gt_cases (zlen (zc_serial zc)) 68) as [Q|Q].
  - destruct (P1 Q) as (ds & D & S). exists ds. split; [exact D|]. unfold sends in S. destruct S as [S _]. destruct (S eq_refl) as [S1 _]. now rewrite S1.
  - specialize (P2 ltac:(lia)). discriminate P2.
Qed.
Lemma send_body_ok c buf b c' : send_body c buf = (b, c') ->
  cn_rx c' = cn_rx c /\ cn_bytes c' = cn_bytes c /\ cn_hdr c' = cn_hdr c /\ (length (cn_tx c') <= length (cn_tx c))%nat /\
  (b = true -> cn_out c' = cn_out c ++ buf) /\ (b = true -> buf <> [] -> (length (cn_tx c') < length (cn_tx c))%nat) /\
  (b = false -> exists pre tail, cn_out c' = cn_out c ++ pre /\ buf = pre ++ tail /\ tail <> []).
Proof.
  unfold send_body. intros H. destruct (try_send (cn_tx c) buf) as [[b1 s] t] eqn:E. injection H as <- <-.
  destruct (try_send_ok _ _ _ _ _ E) as (A & B & C & D). cbn [cn_rx cn_bytes cn_hdr cn_out cn_tx].
  do 3 (split; [reflexivity|]). split; [exact C|]. split; [intros X; now rewrite (A X)|]. split; [exact D|].
  intros X. destruct (B X) as (tail & T1 & T2). exists s, tail. auto.
Qed.
End Conn.

(* ------------------------------------------------------------ responses *)
Lemma take_min (cap : Z) (x : list Z) : take (Z.min cap (zlen x)) x = take cap x.
Proof. destruct (Z_le_gt_dec cap (zlen x)); [now rewrite Z.min_l by lia|]. rewrite Z.min_r by lia. rewrite !take_all by lia. reflexivity. Qed.
Lemma read_socket_size r cap d r' : read_socket r cap = (Some d, r') -> (rx_size r' < rx_size r)%nat.
Proof.
  unfold read_socket. destruct r as [|[x| |] r]; try discriminate.
  - rewrite take_min. destruct (Z.eqb_spec (zlen (take cap x)) 0) as [E|E]; [discriminate|]. intros H. injection H as <- <-. cbn [rx_size].
    rewrite zlen_take in E. destruct (Z.ltb_spec cap (zlen x)); cbn [rx_size]; [|lia].
    assert (length (drop cap x) < length x)%nat; [|lia]. pose proof (zlen_drop cap x) as Q. unfold zlen in *. lia.
  - intros H. injection H as <- <-. cbn. lia.
Qed.
Lemma read_socket_data r cap : let (o, r') := read_socket r cap in
  match o with
  | Some d => rx_bytes r = d ++ rx_bytes r' /\ zlen d <= Z.max 0 cap
  | None => exists gone, rx_bytes r = gone ++ rx_bytes r'
  end.
Proof.
  unfold read_socket. destruct r as [|[x| |] r]; cbn [rx_bytes flat_map]; fold rx_bytes.
  - exists []. reflexivity.
  - rewrite take_min. destruct (zlen (take cap x) =? 0) eqn:E; [exists x; reflexivity|]. split; [|rewrite zlen_take; lia].
    destruct (Z.ltb_spec cap (zlen x)) as [L|L]; cbn [rx_bytes flat_map].
    + fold rx_bytes. rewrite app_assoc, take_drop. reflexivity.
    + rewrite take_all by lia. reflexivity.
  - split; [reflexivity|]. rewrite zlen_nil. lia.
  - exists []. reflexivity.
Qed.
Lemma http_loop_recv data ho : bytes data -> forall h, hinv h -> h_recv h + zlen data < 2 ^ 31 ->
  exists f h', http_loop h data ho = Some (f, h') /\ hinv h' /\ h_recv h' <= h_recv h + zlen data.
Proof.
  change (2 ^ 31) with 2147483648.
  induction 1 as [|c r C B IH]; intros h V L; cbn [http_loop]; [exists false, h; split; [reflexivity|]; split; [exact V|rewrite zlen_nil; lia]|].
  rewrite zlen_cons in L. pose proof (zlen_nonneg r). destruct (http_byte_safe h c ho V C ltac:(lia)) as [f [h' [E [V' R']]]].
  rewrite E. cbn [bind]. rewrite zlen_cons. destruct f; [exists true, h'; split; [reflexivity|]; split; [exact V'|lia]|].
  destruct (IH (hset_done h' (h_done h' + 1))) as (f & h2 & E2 & V2 & R2); [destruct V'; constructor; easy|cbn; lia|].
  exists f, h2. split; [exact E2|]. split; [exact V2|]. cbn in R2. lia.
Qed.
Lemma parse_recv data ho h : bytes data -> hinv h -> h_recv h + zlen data < 2 ^ 31 ->
  exists f h', parse_http h data ho = Some (f, h') /\ hinv h' /\ h_recv h' <= h_recv h + zlen data.
Proof. intros B V L. unfold parse_http. apply (http_loop_recv data ho B (hset_done h 0)); [destruct V; constructor; easy|exact L]. Qed.

Lemma wait_loop_ok fuel : forall h r, (rx_size r < fuel)%nat -> hinv h -> bytes (rx_bytes r) -> h_recv h + zlen (rx_bytes r) < 2 ^ 31 ->
  exists ok r' gone, wait_loop fuel h r = Some (ok, r') /\ rx_bytes r = gone ++ rx_bytes r' /\
    (ok = true -> exists pieces h' n, concat pieces = gone /\ feed h pieces false 0 = Some (true, h', n)).
Proof.
  induction fuel as [|fuel IH]; intros h r F V B L; [lia|]. cbn [wait_loop].
  pose proof (read_socket_data r 32) as D. pose proof (read_socket_size r 32) as Sz. destruct (read_socket r 32) as [[d|] r1].
  - destruct D as [D Ld]. rewrite D in B, L. apply bytes_app in B as [B1 B2]. rewrite zlen_app in L. pose proof (zlen_nonneg (rx_bytes r1)).
    destruct (parse_recv d false h B1 V ltac:(lia)) as (f & h1 & E1 & V1 & R1). rewrite E1. cbn [bind]. destruct f.
    + exists true, r1, d. split; [reflexivity|]. split; [exact D|]. intros _. exists [d], h1, (0 + h_done h1). split; [cbn; apply app_nil_r|]. cbn [feed]. rewrite E1. reflexivity.
    + destruct (IH h1 r1) as (ok & r2 & gone & E2 & G & P); [specialize (Sz _ _ eq_refl); lia|exact V1|exact B2|lia|].
      exists ok, r2, (d ++ gone). split; [exact E2|]. split; [now rewrite D, G, app_assoc|]. intros X. destruct (P X) as (pieces & h' & n & C & Fd).
      destruct (feed h (d :: pieces) false 0) as [[[g h2] n2]|] eqn:Ef.
      * exists (d :: pieces), h2, n2. split; [cbn; now rewrite C|]. rewrite Ef. cbn [feed] in Ef. rewrite E1 in Ef.
        pose proof (feed_ok pieces false h1 0) as Y1. pose proof (feed_ok pieces false h1 (0 + h_done h1)) as Y2. rewrite Fd in Y1. rewrite Ef in Y2.
        destruct (parse_http h1 (concat pieces) false) as [[x y]|]; [|discriminate Y1]. destruct Y1 as (? & Y1 & _), Y2 as (? & Y2 & _). congruence.
      * exfalso. cbn [feed] in Ef. rewrite E1 in Ef. pose proof (feed_ok pieces false h1 0) as Y1. pose proof (feed_ok pieces false h1 (0 + h_done h1)) as Y2. rewrite Fd in Y1. rewrite Ef in Y2.
        destruct (parse_http h1 (concat pieces) false) as [[x y]|]; [destruct Y2 as (? & Y2 & _); discriminate|discriminate Y1].
  - destruct D as [gone D]. exists false, r1, gone. split; [reflexivity|]. split; [exact D|]. discriminate.
Qed.
Lemma wait_response_ok r : bytes (rx_bytes r) -> zlen (rx_bytes r) < 2 ^ 31 ->
  exists ok r' gone, wait_response r = Some (ok, r') /\ rx_bytes r = gone ++ rx_bytes r' /\
    (ok = true -> exists pieces h' n, concat pieces = gone /\ feed h_init pieces false 0 = Some (true, h', n)).
Proof. intros B L. apply wait_loop_ok; [lia|apply hinv_init|exact B|cbn; exact L]. Qed.

(* ------------------------------------------------------------ one message *)
Lemma receive_one s p crc : receive [s] = Some (p, crc) -> zlen s = 3 + zlen p.
Proof.
  unfold receive. destruct (parse_chunk s) as [[cont md num d kcrc]|] eqn:E; [|discriminate].
  destruct cont; [destruct md, num, kcrc; discriminate|]. destruct md.
  - destruct num as [n|]; [|discriminate]. destruct kcrc; discriminate.
  - destruct num as [n|]; [discriminate|]. destruct kcrc as [kc|]; [|discriminate]. intros H. injection H as -> ->.
    unfold parse_chunk in E. destruct s as [|h r]; [discriminate|]. destruct (_ || _); [discriminate|].
    destruct (Z.testbit h 7), (Z.testbit h 6); cbn [negb andb] in E; cbv iota in E;
      try (destruct (leb_read r) as [[? ?]|]; [|discriminate]; try discriminate; try (destruct (split_crc _) as [[? ?]|]; discriminate)).
    destruct (split_crc r) as [[d0 c0]|] eqn:Es; [|discriminate]. injection E as -> ->.
    unfold split_crc in Es. destruct (Z.ltb_spec (zlen r) 2); [discriminate|]. destruct (drop (zlen r - 2) r) as [|x [|y [|]]]; try discriminate.
    injection Es as <- _. rewrite zlen_cons, zlen_take. lia.
Qed.

Lemma F2_len {X Y} (R : X -> Y -> Prop) a b : Forall2 R a b -> length a = length b.
Proof. induction 1; cbn; congruence. Qed.

Lemma chunk_cases pc q mask fl buf ok out cs q' m' fl' :
  s_step pc (mk_ss q mask fl) (PChunk buf) (ResChunk ok out) cs (mk_ss q' m' fl') -> fl_single fl ->
  m' = mask /\ (ok = false -> out = [] /\ (9 <= zlen buf -> nothing_to_send q mask /\ queries_only mask cs)) /\ (ok = true -> 0 < zlen out <= zlen buf).
Proof.
  intros S Fs. inv S.
  - match goal with X : s_begin _ _ _ _ _ _ _ _ |- _ => inv X end. split; [reflexivity|]. split; [auto|discriminate].
  - match goal with X : s_begin _ _ _ _ _ _ _ _ |- _ => rename X into B end. match goal with X : s_next _ _ _ _ _ _ _ |- _ => rename X into N end.
    assert (B1 : exists f, s_fl st1 = Some f /\ f_multi f = false /\ s_mask st1 = mask).
    { inv B; cbn [s_fl s_mask]; eexists; (split; [reflexivity|]); split; try reflexivity. exact Fs. }
    destruct B1 as (f & B1 & B2 & B3). inv N; cbn [s_fl s_mask] in *; try discriminate; injection B1 as <-; cbn [f_multi] in B2; subst.
    + split; [reflexivity|]. split; [split; [reflexivity|lia]|discriminate].
    + split; [reflexivity|]. split; [discriminate|]. intros _. lia.
    + split; [reflexivity|]. split; [discriminate|]. intros _. lia.
Qed.

Section Delivery.
Context {W A O Re : Type}.
Variables (so : sources W) (cfg : up_cfg) (app : W -> O -> option (Re * W)) (dev : device A O Re) (rel : option (src * Z) -> W -> A -> Prop).
Hypothesis K : keeps_contract so cfg app dev rel.
Variables (zc : z_cfg) (junk : list Z).
Notation sn := (zc_serial zc). Notation hs := (zc_host zc). Notation ky := (zc_key zc).
Notation uinv := (uinv cfg dev rel). Notation ucfg := (u_cfg cfg).
(** Messages whose length the request header can announce *)
Hypothesis Small : forall f w a s m, rel f w a -> offer dev s a = Some m -> zlen (wire ucfg s m) < 2 ^ 31 - 3.
Hypothesis Junk : zlen junk = (if zc_post zc =? 0 then 128 else zc_post zc).
Hypothesis Post : 0 <= zc_post zc < 2 ^ 31.

Definition minv (fl : option flight) (k : cloud_state) : Prop :=
  if zc_post zc =? 0 then fl = None else fl_single fl /\ at_cloud k fl.
Definition nothing (st : pk) (a : A) : Prop := forall s, enabled (pk_mask st) s = true -> offer dev s a = None.

Lemma flight_here w a st f : uinv w a st (Some f) -> offer dev (f_src f) a = Some (f_msg f) /\ zlen (wire ucfg (f_src f) (f_msg f)) < 2 ^ 31 - 3.
Proof.
  intros [[_ _ _ F] R]. cbn [s_fl] in F. destruct (pk_cur st) as [pm|]; [|contradiction].
  destruct (fo_q _ _ _ _ _ F) as (r & Q). rewrite view_q in Q. destruct (offer dev (f_src f) a) as [m|] eqn:E; [|discriminate].
  injection Q as -> _. split; [reflexivity|]. eapply Small; eassumption.
Qed.

Lemma reset_up w a st fl : uinv w a st fl -> exists w', so_reset so w = Some w' /\ uinv w' a (pk_abort st) None.
Proof.
  intros U. destruct (call_up so cfg app dev rel K w a st fl PAbort U I) as (res & st' & w' & cs & q & fl' & E & S & U').
  cbn [up_call] in E. apply bind_inv in E as (w1 & Ew & E). injection E as <- <- <- <-. exists w1. split; [exact Ew|]. inv S. exact U'.
Qed.
Lemma cloud_one k c k' got : cloud k [c] = (k', got) -> zlen got <= 1.
Proof.
  cbn [cloud]. intros H. assert (L : zlen (snd (cloud_step k c)) <= 1).
  { unfold cloud_step. destruct (parse_chunk c) as [[[] [] [n|] d [crc|]]|]; try (unfold zlen; cbn [snd length]; lia).
    - destruct k as [[t acc]|]; [case (n =? zlen acc)|]; unfold zlen; cbn [snd length]; lia.
    - destruct k as [[t acc]|]; [cbn [snd]; match goal with |- context [if ?b then _ else _] => case b end|]; unfold zlen; cbn [snd length]; lia. }
  destruct (cloud_step k c) as [k1 g]. injection H as <- <-. now rewrite app_nil_r.
Qed.

Lemma send_pieces_ok fuel : forall w a st f c base, uinv w a st (Some f) -> f_multi f = true -> (length (cn_tx c) < fuel)%nat ->
  zc_post zc = 0 -> (cn_hdr c = true -> cn_out c = base ++ concat (f_outs f)) ->
  exists rv st' w' c' a' t, send_pieces so cfg junk fuel w st c = Some (rv, st', w', c') /\ uinv w' a' st' None /\ deeds dev a t a' /\ app_deeds t = [] /\
    cn_rx c' = cn_rx c /\ cn_hdr c' = cn_hdr c /\
    (rv = 1 /\ (exists body crc, concat (f_outs f) ++ drop (zlen (concat (f_outs f))) body = body /\ u32 (cn_bytes c') = u32 (cn_bytes c + zlen body - zlen (concat (f_outs f))) /\
       is_u32 (cn_bytes c') /\
       (cn_hdr c = true -> cn_out c' = base ++ body) /\ receive [body] = Some (wire ucfg (f_src f) (f_msg f), crc) /\ is_crc 0 (wire ucfg (f_src f) (f_msg f)) crc /\
       sent t = [(f_src f, f_msg f)]) \/
     rv = -1 /\ zlen (sent t) <= 1 /\
       (cn_hdr c = true -> exists b, cn_out c' = base ++ b /\ zlen b < 3 + zlen (wire ucfg (f_src f) (f_msg f)))).
Proof.
  induction fuel as [|fuel IH]; intros w a st f c base U Mu Fu P0 Out; [lia|]. cbn [send_pieces].
  assert (Lj : zlen junk = 128) by (rewrite Junk, P0; reflexivity).
  destruct (next_up so cfg app dev rel K w a st (Some f) junk U ltac:(lia)) as (status & out & st1 & w1 & cs & q & fl1 & E & N & U1 & M1 & _).
  rewrite E. cbn [bind]. destruct (flight_here _ _ _ _ U) as [Of Lf].
  inv N; cbn [f_multi f_src f_msg f_outs] in *; try lia.
  - (* a piece that is not the last *)
    subst multi. destruct (send_body c out) as [b c1] eqn:Eb. destruct (send_body_ok _ _ _ _ Eb) as (A1 & A2 & A3 & A4 & A5 & A6 & A7).
    assert (Ea : effects dev a cs = a) by (eapply reads_effect; eassumption). rewrite Ea in U1.
    match goal with X : incomplete _ _ _ |- _ => rename X into Xi; unfold incomplete in Xi; rewrite concat_app in Xi; cbn [concat] in Xi; rewrite app_nil_r in Xi end.
    destruct b; cbn [negb].
    + destruct (IH w1 a st1 (mk_fl s m true (outs ++ [out])) (count_sent c1 out) base U1 eq_refl) as (rv & st2 & w2 & c2 & a2 & t & E2 & U2 & D2 & Y2 & B1 & B2 & R).
      { cbn [count_sent cn_tx]. assert (out <> []) by (intros Z0; apply (f_equal zlen) in Z0; rewrite zlen_nil in Z0; lia). specialize (A6 eq_refl ltac:(assumption)). lia. }
      { exact P0. }
      { cbn [count_sent cn_hdr cn_out f_outs]. intros X. rewrite A3 in X. rewrite (A5 eq_refl), (Out X), concat_app. cbn [concat]. now rewrite app_nil_r, app_assoc. }
      exists rv, st2, w2, c2, a2, t. split; [exact E2|]. split; [exact U2|]. split; [exact D2|]. split; [exact Y2|].
      cbn [count_sent cn_rx cn_hdr cn_bytes f_outs f_src f_msg] in *. split; [congruence|]. split; [congruence|].
      rewrite concat_app in R. cbn [concat] in R. rewrite app_nil_r in R. destruct R as [(-> & body & crc & R1 & R2 & R3 & R4 & R5 & R6 & R7)|(-> & R1 & R2)].
      * left. split; [reflexivity|]. exists body, crc.
        split. { clear - R1. revert R1. generalize (drop (zlen (concat outs ++ out)) body). intros x <-. rewrite <- app_assoc, drop_app_ge, Z.sub_diag, drop_0 by lia. reflexivity. }
        split. { rewrite R2, A2, zlen_app. unfold u32. rewrite <- Z.add_sub_assoc, Zplus_mod_idemp_l. f_equal. lia. }
        split; [exact R3|]. split; [intros X; apply R4; congruence|]. auto.
      * right. split; [reflexivity|]. split; [exact R1|]. intros X. apply R2. congruence.
    + destruct (reset_up _ _ _ _ U1) as (w2 & Er & U2). rewrite Er. cbn [bind].
      exists (-1), (pk_abort st1), w2, c1, a, []. split; [reflexivity|]. split; [exact U2|]. split; [constructor|]. split; [reflexivity|].
      split; [exact A1|]. split; [exact A3|]. right. split; [reflexivity|]. split; [exact Z.le_0_1|]. intros X.
      destruct (A7 eq_refl) as (pre & tail & T1 & T2 & T3). exists (concat outs ++ pre). rewrite T1, (Out X), app_assoc. split; [reflexivity|].
      rewrite T2 in Xi. rewrite !zlen_app in *. pose proof (zlen_nonneg tail). lia.
  - (* the last *)
    subst multi. destruct (send_body c out) as [b c1] eqn:Eb. destruct (send_body_ok _ _ _ _ Eb) as (A1 & A2 & A3 & A4 & A5 & A6 & A7).
    match goal with X : reads_only _ _ _ |- _ => rename X into Xr end.
    match goal with X : complete _ _ _ |- _ => destruct X as (crc & Rc & Cc) end. rewrite concat_app in Rc. cbn [concat] in Rc. rewrite app_nil_r in Rc.
    pose proof (receive_one _ _ _ Rc) as Ln. rewrite zlen_app in Ln.
    rewrite effects_app, (reads_effect dev _ _ _ a Xr) in U1. cbn [effects fold_left effect] in U1.
    assert (D : deeds dev a [DSent s m] (mark dev s a)) by (econstructor; [exact Of|constructor]).
    destruct b; cbn [negb].
    + exists 1, st1, w1, (count_sent c1 out), (mark dev s a), [DSent s m]. split; [reflexivity|]. split; [exact U1|]. split; [exact D|]. split; [reflexivity|].
      cbn [count_sent cn_rx cn_hdr cn_bytes cn_out]. split; [exact A1|]. split; [exact A3|]. left. split; [reflexivity|]. exists (concat outs ++ out), crc.
      split; [rewrite drop_app_ge, Z.sub_diag, drop_0 by lia; reflexivity|].
      split; [rewrite A2, zlen_app; unfold u32; rewrite Zmod_mod; f_equal; lia|].
      split; [unfold is_u32, u32; pose proof (Z.mod_pos_bound (cn_bytes c1 + zlen out) (2 ^ 32) eq_refl); change (2 ^ 32) with 4294967296 in *; lia|].
      split; [intros X; rewrite (A5 eq_refl), (Out X); now rewrite app_assoc|]. split; [exact Rc|]. split; [exact Cc|reflexivity].
    + destruct (reset_up _ _ _ _ U1) as (w2 & Er & U2). rewrite Er. cbn [bind].
      exists (-1), (pk_abort st1), w2, c1, (mark dev s a), [DSent s m]. split; [reflexivity|]. split; [exact U2|]. split; [exact D|]. split; [reflexivity|].
      split; [exact A1|]. split; [exact A3|]. right. split; [reflexivity|]. split; [exact (Z.le_refl 1)|]. intros X.
      destruct (A7 eq_refl) as (pre & tail & T1 & T2 & T3). exists (concat outs ++ pre). rewrite T1, (Out X), app_assoc. split; [reflexivity|].
      rewrite T2 in Ln. rewrite !zlen_app in *. assert (zlen tail <> 0) by (intros X0; apply zlen_0_nil in X0; contradiction). pose proof (zlen_nonneg tail). lia.
Qed.

Definition next_outcome (k : cloud_state) (c : conn) (rv : Z) (st' : pk) (c' : conn) (a' : A) (fl' : option flight) (t : list (@deed O Re)) : Prop :=
  rv = 0 /\ c' = c /\ sent t = [] /\ minv fl' k /\ (zc_post zc = 0 \/ 9 <= zc_post zc -> nothing st' a') \/
  rv = 1 /\ (exists body k' got, body <> [] /\ cn_bytes c' = u32 (cn_bytes c + zlen body) /\
     (cn_hdr c' = true -> exists req, posts sn hs ky body req /\ cn_out c' = cn_out c ++ req) /\
     cloud k [body] = (k', got) /\ received cfg got (sent t) /\ minv fl' k') \/
  rv = -1 /\ fl' = None /\ zlen (sent t) <= 1 /\
     (cn_hdr c' = true -> exists part, unfinished sn hs ky part /\ cn_out c' = cn_out c ++ part).

Lemma send_next_ok w a st fl k c : uinv w a st fl -> minv fl k ->
  exists rv st' w' c' a' fl' t, send_next so cfg zc junk w st c = Some (rv, st', w', c') /\ uinv w' a' st' fl' /\
    deeds dev a t a' /\ app_deeds t = [] /\ cn_rx c' = cn_rx c /\ (cn_hdr c' = true -> cn_hdr c = true) /\
    next_outcome k c rv st' c' a' fl' t.
Proof.
  pose proof send_pieces_ok as SP. pose proof flight_here as FH. intros U. unfold send_next, next_outcome, minv. destruct (Z.eqb_spec (zc_post zc) 0) as [P0|P0]; cbn [negb]; intros Mi.
  - subst fl. destruct (begin_up so cfg app dev rel K w a st None true U) as (ok & len & pr & st1 & w1 & cs & fl1 & E & B & Of & U1 & M1 & Cu & _).
    rewrite E. cbn [bind]. inv B; cbn [negb].
    + match goal with X : queries_only _ _ |- _ => destruct (queries_deeds dev _ _ a X) as (t1 & D1 & X1 & Y1) end.
      destruct (FH _ _ _ _ U1) as [Of1 Lf]. cbn [f_src f_msg] in Of1, Lf.
      pose proof (zlen_nonneg (wire ucfg s m)) as Wn.
      destruct (start_post_ok zc c (3 + zlen (wire ucfg s m))) as (A1 & A2 & A3 & A4); [lia|].
      set (c1 := start_post zc c (3 + zlen (wire ucfg s m))) in *.
      destruct (SP (S (length (cn_tx c1))) w1 (effects dev a cs) st1 (mk_fl s m true []) c1 (cn_out c1) U1 eq_refl ltac:(lia) P0) as (rv & st2 & w2 & c2 & a2 & t2 & E2 & U2 & D2 & Y2 & B1 & B2 & R).
      { intros _. cbn [f_outs concat]. now rewrite app_nil_r. }
      exists rv, st2, w2, c2, a2, None, (t1 ++ t2). split; [exact E2|]. split; [exact U2|]. split; [eapply deeds_app; eassumption|].
      split; [unfold app_deeds in *; rewrite flat_map_app, Y1, Y2; reflexivity|]. split; [congruence|]. split; [intros X; apply A3; congruence|].
      assert (St : sent (t1 ++ t2) = sent t2) by (unfold sent in *; rewrite flat_map_app, X1; reflexivity). rewrite St.
      cbn [f_outs concat f_src f_msg] in R. destruct R as [(-> & body & crc & R1 & R2 & R3 & R4 & R5 & R6 & R7)|(-> & R1 & R2)].
      * right; left. split; [reflexivity|]. exists body, None, [(wire ucfg s m, crc)]. pose proof (receive_one _ _ _ R5) as Ln.
        split; [intros ->; rewrite zlen_nil in Ln; lia|].
        split. { rewrite zlen_nil, Z.sub_0_r, A2 in R2. rewrite <- R2. symmetry. apply u32_id. exact R3. }
        split.
        { intros X. rewrite B2 in X. destruct (A4 X) as (ds & Dd & Do). exists (post_request sn hs ky ds ++ body).
          split; [exists ds; rewrite Ln; auto|rewrite (R4 X), Do; now rewrite app_assoc]. }
        split; [apply receive_cloud; exact R5|]. rewrite R7. split; [constructor; [cbn; auto|constructor]|reflexivity].
      * right; right. split; [reflexivity|]. split; [reflexivity|]. split; [exact R1|]. intros X. rewrite B2 in X.
        destruct (A4 X) as (ds & Dd & Do). destruct (R2 X) as (b & Rb & Lb).
        exists (post_request sn hs ky ds ++ b). split; [exists ds, (3 + zlen (wire ucfg s m)), b; auto|rewrite Rb, Do; now rewrite app_assoc].
    + match goal with X : queries_only _ _ |- _ => destruct (queries_deeds dev _ _ a X) as (t1 & D1 & X1 & Y1) end.
      exists 0, st1, w1, c, (effects dev a cs), None, t1. split; [reflexivity|]. split; [exact U1|]. split; [exact D1|]. split; [exact Y1|]. split; [reflexivity|].
      split; [auto|]. left. split; [reflexivity|]. split; [reflexivity|]. split; [exact X1|]. split; [reflexivity|].
      intros _ s Hs. rewrite Of. match goal with X : nothing_to_send _ _ |- _ => destruct (X s) as [Q|Q]; [rewrite M1 in Hs; congruence|] end.
      rewrite view_q in Q. destruct (offer dev s a); [discriminate|reflexivity].
  - destruct Mi as [Fs Ac]. assert (Lj : zlen junk = zc_post zc) by (rewrite Junk; now replace (zc_post zc =? 0) with false by lia).
    change (2 ^ 31) with 2147483648 in *.
    destruct (call_up so cfg app dev rel K w a st fl (PChunk junk) U) as (res & st1 & w1 & cs & q & fl1 & E & S & U1); [cbn; lia|].
    cbn [up_call] in E. apply bind_inv in E as ([[[[ok out] st2] w2] cs2] & E & E2). injection E2 as <- <- <- <-. rewrite E. cbn [bind].
    destruct (call_sent so cfg app dev rel K w2 a st2 (pk_mask st) fl (PChunk junk) (ResChunk ok out) cs2 q fl1 k _ ltac:(cbn; lia) Fs Ac S U1) as (t & got & k' & D & Y & Cl & Rc & F' & A').
    destruct ok; cbn [negb].
    + assert (Ro : 0 < zlen out <= zlen junk).
      { destruct (chunk_cases _ _ _ _ _ _ _ _ _ _ _ S Fs) as (_ & _ & Q). exact (Q eq_refl). }
      destruct (start_post_ok zc c (zlen out)) as (A1 & A2 & A3 & A4); [change (2 ^ 31) with 2147483648; lia|].
      set (c1 := start_post zc c (zlen out)) in *. destruct (send_body c1 out) as [b c2] eqn:Eb.
      destruct (send_body_ok _ _ _ _ Eb) as (B1 & B2 & B3 & B4 & B5 & B6 & B7).
      assert (Pc : piece_of (ResChunk true out) = [out]) by (clear - Ro; destruct out; [change (zlen (@nil Z)) with 0 in Ro; lia|reflexivity]).
      rewrite Pc in Cl.
      destruct b; cbn [negb].
      * exists 1, st2, w2, (count_sent c2 out), (effects dev a cs2), fl1, t. split; [reflexivity|]. split; [exact U1|]. split; [exact D|]. split; [exact Y|].
        cbn [count_sent cn_rx cn_hdr cn_bytes cn_out]. split; [congruence|]. split; [intros X; apply A3; congruence|]. right; left. split; [reflexivity|].
        exists out, k', got. split; [intros X; clear - Ro X; subst out; change (zlen (@nil Z)) with 0 in Ro; lia|]. split; [now rewrite B2, A2|].
        split; [intros X; rewrite B3 in X; destruct (A4 X) as (ds & Dd & Do); exists (post_request sn hs ky ds ++ out); split; [exists ds; auto|rewrite (B5 eq_refl), Do; now rewrite app_assoc]|].
        split; [exact Cl|]. split; [exact Rc|]. split; assumption.
      * destruct (reset_up _ _ _ _ U1) as (w3 & Er & U3). rewrite Er. cbn [bind].
        exists (-1), (pk_abort st2), w3, c2, (effects dev a cs2), None, t. split; [reflexivity|]. split; [exact U3|]. split; [exact D|]. split; [exact Y|].
        split; [congruence|]. split; [intros X; apply A3; congruence|]. right; right. split; [reflexivity|]. split; [reflexivity|].
        split; [pose proof (cloud_one _ _ _ _ Cl); pose proof (F2_len _ _ _ Rc); unfold zlen in *; lia|].
        intros X. rewrite B3 in X. destruct (A4 X) as (ds & Dd & Do). destruct (B7 eq_refl) as (pre & tail & T1 & T2 & T3).
        exists (post_request sn hs ky ds ++ pre). split; [|rewrite T1, Do; now rewrite app_assoc]. exists ds, (zlen out), pre. split; [exact Dd|]. split; [reflexivity|].
        rewrite T2, zlen_app. assert (zlen tail <> 0) by (intros X0; apply zlen_0_nil in X0; contradiction). pose proof (zlen_nonneg tail). lia.
    + exists 0, st2, w2, c, (effects dev a cs2), fl1, t. split; [reflexivity|]. split; [exact U1|]. split; [exact D|]. split; [exact Y|]. split; [reflexivity|].
      split; [auto|]. left. split; [reflexivity|]. split; [reflexivity|].
      destruct (chunk_cases _ _ _ _ _ _ _ _ _ _ _ S Fs) as (Em & Q & _). specialize (Q eq_refl).
      destruct Q as [-> Q]. cbn [piece_of cloud] in Cl. injection Cl as <- <-.
      split; [inv Rc; reflexivity|]. split; [split; assumption|]. intros [X|X]; [contradiction|]. destruct (Q ltac:(lia)) as [Q1 Q2].
      intros s Hs. rewrite (queries_offer so cfg app dev rel K _ _ a s Q2). destruct (Q1 s) as [Q3|Q3]; [|rewrite view_q in Q3; destruct (offer dev s a); [discriminate|reflexivity]].
      exfalso. congruence.
Qed.

Lemma sent_app (t1 t2 : list (@deed O Re)) : sent (t1 ++ t2) = sent t1 ++ sent t2. Proof. apply flat_map_app. Qed.
Lemma app_deeds_app (t1 t2 : list (@deed O Re)) : app_deeds (t1 ++ t2) = app_deeds t1 ++ app_deeds t2. Proof. apply flat_map_app. Qed.
Lemma minv_none k : minv None k. Proof. unfold minv. destruct (zc_post zc =? 0); [reflexivity|split; exact I]. Qed.

Lemma upload_loop_ok n : forall w a st fl k c, uinv w a st fl -> minv fl k -> bytes (rx_bytes (cn_rx c)) -> zlen (rx_bytes (cn_rx c)) < 2 ^ 31 -> is_u32 (cn_bytes c) ->
  exists rv st' w' c' a' fl' t bodies k' got, upload_loop so cfg zc junk n w st c = Some (rv, st', w', c') /\ uinv w' a' st' fl' /\ minv fl' k' /\
    deeds dev a t a' /\ app_deeds t = [] /\ (cn_hdr c' = true -> cn_hdr c = true) /\ cloud k bodies = (k', got) /\ (rv = 0 \/ rv = -1) /\
    (rv = 0 -> cn_bytes c' = u32 (cn_bytes c + total bodies)) /\
    (cn_hdr c' = true -> exists out, cn_out c' = cn_out c ++ out /\ upload_ok cfg sn hs ky (Z.of_nat n) rv out (u32 (total bodies)) bodies got (sent t)) /\
    (rv = 0 -> zlen bodies < Z.of_nat n -> zc_post zc = 0 \/ 9 <= zc_post zc -> nothing st' a').
Proof.
  induction n as [|n IH]; intros w a st fl k c U Mi Br Lr Bc; cbn [upload_loop].
  - exists 0, st, w, c, a, fl, [], [], k, []. do 3 (split; [reflexivity || assumption|]). split; [constructor|]. split; [reflexivity|]. split; [auto|]. split; [reflexivity|]. split; [auto|].
    split; [intros _; cbn [total fold_right]; rewrite Z.add_0_r; symmetry; now apply u32_id|].
    split; [|intros _ X; rewrite zlen_nil in X; lia].
    intros _. exists []. split; [now rewrite app_nil_r|]. split; [rewrite zlen_nil; lia|]. split; [constructor|]. left. split; [reflexivity|]. split; [constructor|]. split; [reflexivity|constructor].
  - destruct (send_next_ok w a st fl k c U Mi) as (rv & st1 & w1 & c1 & a1 & fl1 & t1 & E1 & U1 & D1 & Y1 & X1 & H1 & Oc). rewrite E1. cbn [bind].
    destruct Oc as [(-> & -> & S1 & M1 & Nt)|[(-> & body & k1 & got1 & Nb & Cb & Ho & Cl & Rc & M1)|(-> & -> & Ls & Ho)]]; cbn [Z.eqb Z.ltb Z.compare].
    + change (0 =? 0) with true. cbv iota. exists 0, st1, w1, c, a1, fl1, t1, [], k, []. do 3 (split; [reflexivity || assumption|]). split; [exact D1|]. split; [exact Y1|]. split; [auto|]. split; [reflexivity|]. split; [auto|].
      split; [intros _; cbn [total fold_right]; rewrite Z.add_0_r; symmetry; now apply u32_id|].
      split; [|intros _ _; exact Nt].
      intros _. exists []. split; [now rewrite app_nil_r|]. rewrite S1. split; [rewrite zlen_nil; lia|]. split; [constructor|]. left. split; [reflexivity|]. split; [constructor|]. split; [reflexivity|constructor].
    + change (1 =? 0) with false. change (1 <? 0) with false. cbv iota.
      destruct (wait_response_ok (cn_rx c1)) as (ok & r' & gone & Ew & Gn & _); [rewrite X1; exact Br|rewrite X1; exact Lr|]. rewrite Ew. cbn [bind].
      assert (B0 : zlen [body] = 1) by reflexivity.
      destruct ok.
      * destruct (IH w1 a1 st1 fl1 k1 (mk_cn (cn_tx c1) r' (cn_out c1) (cn_bytes c1) (cn_hdr c1)) U1 M1) as (rv & st2 & w2 & c2 & a2 & fl2 & t2 & bodies & k2 & got2 & E2 & U2 & M2 & D2 & Y2 & H2 & Cl2 & Rv & By & Ok & Nt).
        { cbn [cn_rx]. rewrite X1 in Gn. rewrite Gn in Br. apply bytes_app in Br. tauto. }
        { cbn [cn_rx]. rewrite X1 in Gn. rewrite Gn, zlen_app in Lr. pose proof (zlen_nonneg gone). lia. }
        { cbn [cn_bytes]. rewrite Cb. unfold is_u32, u32. apply (Z.mod_pos_bound _ (2 ^ 32)). reflexivity. }
        cbn [cn_tx cn_rx cn_out cn_bytes cn_hdr] in *.
        exists rv, st2, w2, c2, a2, fl2, (t1 ++ t2), (body :: bodies), k2, (got1 ++ got2).
        split; [exact E2|]. split; [exact U2|]. split; [exact M2|]. split; [eapply deeds_app; eassumption|]. split; [rewrite app_deeds_app, Y1, Y2; reflexivity|].
        split; [auto|]. split; [change (body :: bodies) with ([body] ++ bodies); rewrite cloud_app, Cl, Cl2; reflexivity|]. split; [exact Rv|].
        cbn [total fold_right]. fold (total bodies).
        split; [intros X; rewrite (By X), Cb; unfold u32; rewrite Zplus_mod_idemp_l; f_equal; lia|].
        split.
        { intros X. destruct (Ho (H2 X)) as (req & Pq & Oq). destruct (Ok X) as (out & Oo & Lb & Fb & Q). exists (req ++ out).
          split; [rewrite Oo, Oq; now rewrite app_assoc|]. split; [rewrite zlen_cons; lia|]. split; [constructor; assumption|]. rewrite sent_app.
          destruct Q as [(-> & Q1 & _ & Q2)|(-> & done & part & Q1 & Q2 & Q3)].
          - left. split; [reflexivity|]. split; [constructor; assumption|]. split; [reflexivity|]. apply Forall2_app; assumption.
          - right. split; [reflexivity|]. exists (req ++ done), part. split; [rewrite Q1; now rewrite app_assoc|]. split; [constructor; assumption|].
            destruct Q3 as [(-> & Q3 & Q4)|(Q3 & [Q4|(l & m & Q4 & Q5)])].
            + left. split; [reflexivity|]. split; [discriminate|]. apply Forall2_app; assumption.
            + right. split; [exact Q3|]. left. apply Forall2_app; assumption.
            + right. split; [exact Q3|]. right. exists (sent t1 ++ l), m. split; [rewrite Q4; now rewrite app_assoc|]. apply Forall2_app; assumption. }
        intros X Y. apply Nt; [exact X|]. rewrite zlen_cons in Y. lia.
      * exists (-1), st1, w1, (mk_cn (cn_tx c1) r' (cn_out c1) (cn_bytes c1) (cn_hdr c1)), a1, fl1, t1, [body], k1, got1. cbn [cn_tx cn_rx cn_out cn_bytes cn_hdr].
        do 3 (split; [reflexivity || assumption|]). split; [exact D1|]. split; [exact Y1|]. split; [auto|]. split; [exact Cl|]. split; [auto|]. split; [discriminate|].
        split; [|discriminate]. intros X. destruct (Ho X) as (req & Pq & Oq). exists req. split; [exact Oq|]. split; [lia|]. split; [constructor; [exact Nb|constructor]|].
        right. split; [reflexivity|]. exists (req ++ []), []. split; [now rewrite !app_nil_r|]. split; [constructor; [exact Pq|constructor]|]. left. split; [reflexivity|]. split; [discriminate|exact Rc].
    + change (-1 =? 0) with false. change (-1 <? 0) with true. cbv iota.
      exists (-1), st1, w1, c1, a1, None, t1, [], k, []. split; [reflexivity|]. split; [exact U1|]. split; [apply minv_none|]. split; [exact D1|]. split; [exact Y1|]. split; [auto|]. split; [reflexivity|]. split; [auto|]. split; [discriminate|].
      split; [|discriminate]. intros X. destruct (Ho X) as (part & Pq & Oq). exists part. split; [exact Oq|]. split; [rewrite zlen_nil; lia|]. split; [constructor|].
      right. split; [reflexivity|]. exists [], part. split; [reflexivity|]. split; [constructor|]. right. split; [exact Pq|].
      destruct (sent t1) as [|m [|m2 r]]; [left; constructor|right; exists [], m; split; [reflexivity|constructor]|].
      exfalso. rewrite !zlen_cons in Ls. pose proof (zlen_nonneg r). lia.
Qed.

Lemma upload_good w a st fl k t r : uinv w a st fl -> minv fl k -> bytes (rx_bytes r) -> zlen (rx_bytes r) < 2 ^ 31 ->
  exists rv st' w' c a' fl' ds bodies k' got, upload so cfg zc junk w st (new_conn t r) = Some (rv, st', w', c) /\ uinv w' a' st' fl' /\ minv fl' k' /\
    deeds dev a ds a' /\ app_deeds ds = [] /\ cloud k bodies = (k', got) /\
    (cn_hdr c = true -> upload_ok cfg sn hs ky (max_messages zc) rv (cn_out c) (cn_bytes c) bodies got (sent ds)) /\
    (rv = 0 -> zlen bodies < max_messages zc -> zc_post zc = 0 \/ 9 <= zc_post zc -> nothing st' a').
Proof.
  intros U Mi B L. assert (Mm : 0 <= max_messages zc) by (unfold max_messages; destruct (_ && _); lia).
  destruct (upload_loop_ok (Z.to_nat (max_messages zc)) w a st fl k (new_conn t r) U Mi B L) as (rv & st' & w' & c & a' & fl' & ds & bodies & k' & got & E & U' & M' & D & Y & H & Cl & Rv & By & Ok & Nt).
  { cbn. unfold is_u32. lia. }
  rewrite Z2Nat.id in Ok, Nt by exact Mm. cbn [new_conn cn_bytes cn_out cn_hdr Datatypes.app] in *.
  exists rv, st', w', c, a', fl', ds, bodies, k', got. split; [exact E|]. split; [exact U'|]. split; [exact M'|]. split; [exact D|]. split; [exact Y|]. split; [exact Cl|]. split; [|exact Nt].
  intros X. destruct (Ok X) as (out & -> & Q). destruct Rv as [Rv|Rv]; rewrite Rv in *.
  - rewrite (By eq_refl), Z.add_0_l. exact Q.
  - destruct Q as (Q1 & Q2 & [(Q3 & _)|Q3]); [discriminate|]. split; [exact Q1|]. split; [exact Q2|]. right. exact Q3.
Qed.

Lemma z_general ops : forall w a st fl k, uinv w a st fl -> minv fl k -> Forall (z_fine (fine dev)) ops ->
  exists ops1 rs st' w' a' fl' t log k', z_played dev ops ops1 a' /\ z_run so cfg zc junk app w st ops1 = Some (rs, st', w') /\ uinv w' a' st' fl' /\ minv fl' k' /\
    deeds dev a t a' /\ app_deeds t = z_calls ops1 rs /\ sent t = concat (map e_acked log) /\
    cloud k (concat (map e_bodies log)) = (k', concat (map e_got log)) /\
    Forall2 (fun u e => cn_hdr (snd u) = true -> upload_ok cfg sn hs ky (max_messages zc) (fst u) (cn_out (snd u)) (cn_bytes (snd u)) (e_bodies e) (e_got e) (e_acked e)) (uploads rs) log.
Proof.
  induction ops as [|o ops IH]; intros w a st fl k U Mi F.
  - exists [], [], st, w, a, fl, [], [], k. split; [exists []; auto|]. do 3 (split; [reflexivity || assumption|]). split; [constructor|]. do 3 (split; [reflexivity|]). constructor.
  - pose proof (Forall_inv F) as Fo. pose proof (Forall_inv_tail F) as Ft. destruct o as [tx0 rx0|x].
    + destruct Fo as [Fb Fl]. destruct (upload_good w a st fl k tx0 rx0 U Mi Fb Fl) as (rv & st1 & w1 & c & a1 & fl1 & ds & bodies & k1 & got & E & U1 & M1 & D & Y & Cl & Ok & _).
      destruct (IH w1 a1 st1 fl1 k1 U1 M1 Ft) as (ops1 & rs & st2 & w2 & a2 & fl2 & t & log & k2 & (ops2 & P1 & P2) & E2 & U2 & M2 & D2 & Y2 & S2 & C2 & Q).
      exists (ZUp tx0 rx0 :: ops1), (ZRUp rv c :: rs), st2, w2, a2, fl2, (ds ++ t), (mk_entry bodies got (sent ds) :: log), k2.
      split; [exists ops2; split; [cbn; now rewrite P1|exact P2]|]. split; [cbn [z_run z_step]; rewrite E; cbn [bind]; rewrite E2; reflexivity|].
      split; [exact U2|]. split; [exact M2|]. split; [eapply deeds_app; eassumption|]. split; [rewrite app_deeds_app, Y, Y2; reflexivity|].
      split; [rewrite sent_app, S2; reflexivity|]. split; [cbn [map concat e_bodies e_got]; rewrite cloud_app, Cl, C2; reflexivity|].
      cbn [uploads flat_map Datatypes.app]. constructor; [exact Ok|exact Q].
    + destruct (spec dev a x) as [[r a1]|] eqn:Es.
      * destruct (step_up so cfg app dev rel K w a st fl (UApp x) U Fo) as (r1 & st1 & w1 & a1' & fl1 & E & S & U1); [rewrite Es; discriminate|].
        cbn [up_step] in E. apply bind_inv in E as ([r2 w2'] & Ea & E). injection E as <- <- <-.
        remember (pk_mask st) as m1 eqn:Em1. inv S. match goal with X : spec dev a x = Some (r2, a1') |- _ => rename X into Es2 end.
        destruct (IH w2' a1' st _ k U1 Mi Ft) as (ops1 & rs & st2 & w2 & a2 & fl2 & t & log & k2 & (ops2 & P1 & P2) & E2 & U2 & M2 & D2 & Y2 & S2 & C2 & Q).
        exists (ZApp x :: ops1), (ZRApp r2 :: rs), st2, w2, a2, fl2, (DApp x r2 :: t), log, k2.
        split; [exists ops2; split; [cbn; now rewrite P1|exact P2]|]. split; [cbn [z_run z_step]; rewrite Ea; cbn [bind]; rewrite E2; reflexivity|].
        split; [exact U2|]. split; [exact M2|]. split; [econstructor; eassumption|]. split; [change (app_deeds (DApp x r2 :: t)) with ((x, r2) :: app_deeds t); rewrite Y2; reflexivity|]. split; [exact S2|]. split; [exact C2|exact Q].
      * exists [], [], st, w, a, fl, [], [], k. split; [exists (ZApp x :: ops); split; [reflexivity|right; eauto]|]. do 3 (split; [reflexivity || assumption|]). split; [constructor|]. do 3 (split; [reflexivity|]). constructor.
Qed.

Theorem z_accounts w a ops : rel None w a -> Forall (z_fine (fine dev)) ops ->
  exists ops1 rs st w' a' t log k, z_played dev ops ops1 a' /\ z_run so cfg zc junk app w pk_init ops1 = Some (rs, st, w') /\
    deeds dev a t a' /\ app_deeds t = z_calls ops1 rs /\ sent t = concat (map e_acked log) /\
    cloud None (concat (map e_bodies log)) = (k, concat (map e_got log)) /\
    (headers_written rs -> Forall2 (fun u e => upload_ok cfg sn hs ky (max_messages zc) (fst u) (cn_out (snd u)) (cn_bytes (snd u)) (e_bodies e) (e_got e) (e_acked e)) (uploads rs) log) /\
    forall tr rr, z_fine (fine dev) (ZUp tr rr) -> zc_post zc = 0 \/ 9 <= zc_post zc ->
      exists rv c st2 w2 a2 t2, z_step so cfg zc junk app w' st (ZUp tr rr) = Some (ZRUp rv c, st2, w2) /\ deeds dev a' t2 a2 /\
        (cn_hdr c = true -> rv = 0 -> (exists bodies, stream sn hs ky bodies (cn_out c) /\ zlen bodies = max_messages zc) \/ forall s, enabled (pk_mask st2) s = true -> offer dev s a2 = None).
Proof.
  intros R F. destruct (z_general ops w a pk_init None None (uinv_boot _ _ _ _ _ K w a R) (minv_none None) F) as (ops1 & rs & st & w' & a' & fl & t & log & k & P & E & U & M & D & Y & S & C & Q).
  exists ops1, rs, st, w', a', t, log, k. do 6 (split; [assumption|]). split.
  - intros H. unfold headers_written in H. clear - H Q. revert H. induction Q as [|u e us es Hu Q IH]; intros H; [constructor|]. inv H. constructor; auto.
  - intros tr rr [Fb Fl] Pp. destruct (upload_good w' a' st fl k tr rr U M Fb Fl) as (rv & st1 & w1 & c & a1 & fl1 & ds & bodies & k1 & got & E1 & _ & _ & D1 & _ & _ & Ok & Nt).
    exists rv, c, st1, w1, a1, ds. split; [cbn [z_step]; rewrite E1; reflexivity|]. split; [exact D1|]. intros H Z0.
    destruct (Ok H) as (L & _ & [(_ & St & _)|(X & _)]); [|congruence].
    destruct (Z.eq_dec (zlen bodies) (max_messages zc)) as [Eq|Ne]; [left; eauto|right; apply Nt; [exact Z0|lia|exact Pp]].
Qed.
End Delivery.

(* ------------------------------------------------------------ one chunk *)
Lemma try_send_whole t buf : exists b s t', try_send t buf = (b, s, t') /\ if b then s = buf else exists rest, buf = s ++ rest /\ rest <> [].
Proof.
  destruct (try_send t buf) as [[b s] t'] eqn:E. exists b, s, t'. split; [reflexivity|]. destruct (try_send_ok _ _ _ _ _ E) as (X & Y & _).
  destruct b; auto.
Qed.
Lemma post_chunk_good zc c data : bytes (rx_bytes (cn_rx c)) -> zlen (rx_bytes (cn_rx c)) < 2 ^ 31 -> zlen data < 2 ^ 31 -> cn_hdr c = true ->
  exists rv c', post_chunk zc c data = Some (rv, c') /\
    (cn_hdr c' = true ->
       (rv = 0 /\ (exists gone h, rx_bytes (cn_rx c) = gone ++ rx_bytes (cn_rx c') /\ parse_http h_init gone false = Some (true, h)) \/ rv = -3) /\
       (exists req, posts (zc_serial zc) (zc_host zc) (zc_key zc) data req /\ cn_out c' = cn_out c ++ req) \/
       rv = -2 /\ exists part, unfinished (zc_serial zc) (zc_host zc) (zc_key zc) part /\ cn_out c' = cn_out c ++ part).
Proof.
  intros B L Ld _. pose proof (zlen_nonneg data). unfold post_chunk.
  destruct (start_post_ok zc c (zlen data) ltac:(lia)) as (A1 & _ & _ & A4). set (c1 := start_post zc c (zlen data)) in *.
  destruct (send_body c1 data) as [b c2] eqn:E. destruct (send_body_ok _ _ _ _ E) as (B1 & _ & B3 & _ & B5 & _ & B7). destruct b; cbn [negb].
  - destruct (wait_response_ok (cn_rx c2)) as (ok & r & gone & W & G & P); [now rewrite B1, A1|now rewrite B1, A1|]. rewrite W. cbn [bind].
    eexists _, _. split; [reflexivity|]. cbn [cn_hdr cn_out cn_rx]. intros X. rewrite B3 in X. destruct (A4 X) as (ds & Dd & Do). left. split.
    + destruct ok; [left; split; [reflexivity|]|right; reflexivity]. destruct (P eq_refl) as (pieces & h' & n & C & F). exists gone.
      pose proof (feed_ok pieces false h_init 0) as Y. rewrite F, C in Y. destruct (parse_http h_init gone false) as [[x y]|]; [|discriminate Y].
      destruct Y as (z & Y & _). exists y. split; [rewrite <- A1, <- B1; exact G|]. congruence.
    + exists (post_request (zc_serial zc) (zc_host zc) (zc_key zc) ds ++ data). split; [exists ds; auto|]. rewrite (B5 eq_refl), Do. now rewrite app_assoc.
  - eexists _, _. split; [reflexivity|]. intros X. rewrite B3 in X. destruct (A4 X) as (ds & Dd & Do). right. split; [reflexivity|].
    destruct (B7 eq_refl) as (pre & tail & Ho & Hd & Ht). exists (post_request (zc_serial zc) (zc_host zc) (zc_key zc) ds ++ pre). split.
    + exists ds, (zlen data), pre. split; [exact Dd|]. split; [reflexivity|]. rewrite Hd, zlen_app. pose proof (zlen_nonneg tail). enough (zlen tail <> 0) by lia. intros Z0. apply zlen_0_nil in Z0. contradiction.
    + rewrite Ho, Do. now rewrite app_assoc.
Qed.
