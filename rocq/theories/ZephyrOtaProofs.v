(** Proofs about the Zephyr OTA client. *)
From Verif Require Import Base HttpUtils HttpUtilsSpec HttpResponseProofs ZephyrHttp ZephyrHttpSpec ZephyrHttpProofs ZephyrOta ZephyrOtaSpec.

Lemma app_cut {A} (a b c d : list A) : a ++ b = c ++ d -> zlen a <= zlen c -> exists x, c = a ++ x /\ b = x ++ d.
Proof.
  revert c. induction a as [|x a IH]; intros c E L; [exists c; split; [reflexivity|exact E]|].
  destruct c as [|y c]; [rewrite zlen_cons, zlen_nil in L; pose proof (zlen_nonneg a); lia|].
  cbn in E. injection E as -> E. rewrite !zlen_cons in L. destruct (IH c E ltac:(lia)) as (z & -> & ->). exists z. auto.
Qed.
Lemma http_line_keep h len h' f : http_line h len = Some (f, h') -> h_done h' = h_done h.
Proof.
  unfold http_line. destruct (h_phase h =? 0).
  - destruct (parse_status_line (h_buf h) len) as [[ok [v|]]|]; cbn [bind]; [| |discriminate]; destruct ok; cbn [negb]; intros E; injection E as <- <-; reflexivity.
  - destruct (parse_header (h_buf h) len) as [[ok [v|]]|]; cbn [bind]; [| |discriminate]; destruct ok; cbn [negb];
      try (intros E; injection E as <- <-; reflexivity); destruct (len =? 0); cbn [negb]; try (intros E; injection E as <- <-; reflexivity).
    + destruct (h_clen (hset_clen h v) =? 0); intros E; injection E as <- <-; reflexivity.
    + destruct (h_clen h =? 0); intros E; injection E as <- <-; reflexivity.
Qed.
Lemma http_byte_keep h c ho h' : http_byte h c ho = Some (false, h') -> h_done h' = h_done h.
Proof.
  unfold http_byte. destruct (h_phase h =? 2).
  - destruct ho; [discriminate|]. destruct (2147483647 <=? h_recv h); [discriminate|]. cbn [h_llen hset_recv h_buf h_recv h_clen].
    destruct (h_llen h <? 127).
    + destruct (put (h_buf h) (h_llen h) c) as [b|]; cbn [bind]; [|discriminate]. destruct (negb _); [intros E; injection E as <-; reflexivity|].
      destruct (put _ _ 0); cbn [bind]; discriminate.
    + cbn [bind]. destruct (negb _); [intros E; injection E as <-; reflexivity|]. destruct (put _ _ 0); cbn [bind]; discriminate.
  - destruct (_ && _); [discriminate|]. intros E. apply bind_inv in E as (h1 & E1 & E).
    assert (K : h_done h1 = h_done h).
    { destruct (128 <=? h_llen h); [destruct (c =? 13); [|destruct (c =? 10)]|]; try (destruct (put _ _ c); cbn [bind] in E1; [|discriminate]); injection E1 as <-; reflexivity. }
    rewrite <- K. destruct (h_llen h1 <? 2); [injection E as <-; reflexivity|]. apply bind_inv in E as (e & _ & E). destruct (negb e); [injection E as <-; reflexivity|].
    apply bind_inv in E as (b & _ & E). apply http_line_keep in E. exact E.
Qed.
Lemma http_loop_count data ho : forall h h', http_loop h data ho = Some (false, h') -> h_done h' = h_done h + zlen data.
Proof.
  induction data as [|c r IH]; intros h h' E; cbn [http_loop] in E; [injection E as <-; rewrite zlen_nil; lia|].
  destruct (http_byte h c ho) as [[f h1]|] eqn:B; [|discriminate]. cbn [bind] in E. destruct f; [discriminate|].
  apply IH in E. rewrite E, h_done_set, zlen_cons, (http_byte_keep _ _ _ _ B). lia.
Qed.
Lemma http_loop_within data ho : forall h f h', http_loop h data ho = Some (f, h') -> h_done h <= h_done h' <= h_done h + zlen data.
Proof.
  induction data as [|c r IH]; intros h f h' E; cbn [http_loop] in E; [injection E as <- <-; rewrite zlen_nil; lia|].
  destruct (http_byte h c ho) as [[f1 h1]|] eqn:B; [|discriminate]. cbn [bind] in E. rewrite zlen_cons. pose proof (zlen_nonneg r). destruct f1.
  - injection E as <- <-. revert B. unfold http_byte. destruct (h_phase h =? 2).
    + destruct ho; [intros E; injection E as <-; lia|]. destruct (2147483647 <=? h_recv h); [discriminate|]. cbn [h_llen hset_recv h_buf h_recv h_clen].
      destruct (h_llen h <? 127).
      * destruct (put (h_buf h) (h_llen h) c) as [b|]; cbn [bind]; [|discriminate]. destruct (negb _); [discriminate|].
        destruct (put _ _ 0); cbn [bind]; [|discriminate]. intros E; injection E as <-. cbn. lia.
      * cbn [bind]. destruct (negb _); [discriminate|]. destruct (put _ _ 0); cbn [bind]; [|discriminate]. intros E; injection E as <-. cbn. lia.
    + destruct (_ && _); [intros E; injection E as <-; cbn; lia|]. intros E. apply bind_inv in E as (h2 & E1 & E).
      assert (K : h_done h2 = h_done h).
      { destruct (128 <=? h_llen h); [destruct (c =? 13); [|destruct (c =? 10)]|]; try (destruct (put _ _ c); cbn [bind] in E1; [|discriminate]); injection E1 as <-; reflexivity. }
      destruct (h_llen h2 <? 2); [discriminate|]. apply bind_inv in E as (e & _ & E). destruct (negb e); [discriminate|].
      apply bind_inv in E as (b & _ & E). apply http_line_keep in E. change (h_done (hset_line h2 0 b)) with (h_done h2) in E. lia.
  - apply IH in E. rewrite h_done_set, (http_byte_keep _ _ _ _ B) in E. lia.
Qed.

Lemma parse_after pre d ho h0 k : http_loop (hset_done h_init 0) pre ho = Some (false, h0) ->
  parse_http (hset_done h0 k) d ho = match parse_http h_init (pre ++ d) ho with
    | None => None | Some (f, h') => Some (f, hset_done h' (h_done h' - zlen pre)) end.
Proof.
  intros E. unfold parse_http. rewrite hset_done_done, http_loop_app, E, http_loop_done.
  apply http_loop_count in E. change (h_done (hset_done h_init 0)) with 0 in E.
  destruct (http_loop h0 d ho) as [[f h']|]; [|reflexivity]. do 3 f_equal. lia.
Qed.

Lemma read_no_failure r cap : 0 < cap -> no_failure r -> rx_bytes r <> [] ->
  exists d r', read_socket r cap = (Some d, r') /\ no_failure r'.
Proof.
  intros C N B. destruct N as [|x r X N]; [now contradiction B|]. destruct x as [d| |]; [|exists [], r; split; [reflexivity|exact N]|contradiction].
  cbn [read_socket]. rewrite take_min. destruct (Z.eqb_spec (zlen (take cap d)) 0) as [E|E].
  - exfalso. rewrite zlen_take in E. apply X. apply zlen_0_nil. lia.
  - eexists _, _. split; [reflexivity|]. destruct (Z.ltb_spec cap (zlen d)); [|exact N]. constructor; [|exact N].
    intros Q; apply (f_equal (@zlen Z)) in Q; rewrite zlen_drop in Q; change (zlen (@nil Z)) with 0 in Q; lia.
Qed.
Lemma read_keeps r cap d r' : read_socket r cap = (Some d, r') -> no_failure r -> no_failure r'.
Proof.
  intros E N. destruct N as [|x r X N]; [discriminate|]. destruct x as [d'| |]; cbn [read_socket] in E; [|injection E as <- <-; exact N|contradiction].
  rewrite take_min in E. destruct (Z.eqb_spec (zlen (take cap d')) 0) as [|Z1]; [discriminate|]. rewrite zlen_take in Z1. injection E as <- <-. destruct (Z.ltb_spec cap (zlen d')); [|exact N]. constructor; [|exact N].
  pose proof (zlen_nonneg d'); intros Q; apply (f_equal (@zlen Z)) in Q; rewrite zlen_drop in Q; change (zlen (@nil Z)) with 0 in Q; lia.
Qed.

Section Response.
Variables (hd body : list Z) (code clen : Z).
Hypotheses (Bh : bytes hd) (Rh : response_head hd code clen) (Lc : clen = zlen body) (Nz : clen <> 0).

Lemma in_head x y : hd = x ++ y -> exists h0, http_loop (hset_done h_init 0) x true = Some (false, h0).
Proof.
  intros E. destruct (head_fed hd code clen [] true Bh Rh) as [_ X]. destruct (Z.eqb_spec clen 0) as [|_]; [contradiction|].
  destruct X as (h' & X & _). rewrite app_nil_r in X. cbn [http_loop] in X. unfold parse_http in X. rewrite E, http_loop_app in X.
  destruct (http_loop (hset_done h_init 0) x true) as [[[|] h0]|]; try discriminate. eauto.
Qed.

Lemma head_loop_ok cap missing fuel : 0 < cap -> forall r pre h0 k, (rx_size r < fuel)%nat ->
  http_loop (hset_done h_init 0) pre true = Some (false, h0) -> pre ++ rx_bytes r ++ missing = hd ++ body ->
  exists o r', head_loop fuel (hset_done h0 k) r cap = Some (o, r') /\
    match o with
    | None => 400 <= code \/ ~ (no_failure r /\ missing = [])
    | Some (h, got) => h_status h = code /\ code < 400 /\ h_clen h = clen /\ got ++ rx_bytes r' ++ missing = body /\ got <> [] /\ zlen got <= cap /\ (no_failure r -> no_failure r')
    end.
Proof.
  intros Cp. induction fuel as [|fuel IH]; intros r pre h0 k F E Q; [lia|]. cbn [head_loop].
  assert (Lp : zlen pre <= zlen hd).
  { destruct (Z_le_gt_dec (zlen pre) (zlen hd)) as [|G]; [assumption|]. exfalso. destruct (app_cut _ _ _ _ (eq_sym Q) ltac:(lia)) as (x & Px & _).
    destruct (header_only_ok hd code clen x Bh Rh) as (h & H & _); [intros ->; rewrite app_nil_r in Px; subst pre; lia|].
    unfold parse_http in H. rewrite <- Px, E in H. discriminate. }
  pose proof (read_socket_data r cap) as D. pose proof (read_socket_size r cap) as Sz. pose proof (read_keeps r cap) as Kp.
  destruct (read_socket r cap) as [[d|] r1] eqn:Er.
  - destruct D as [D Ld]. specialize (Sz _ _ eq_refl). specialize (Kp _ _ eq_refl). rewrite (parse_after pre d true h0 k E).
    rewrite D in Q. rewrite <- app_assoc in Q. rewrite app_assoc in Q. destruct (Z_le_gt_dec (zlen (pre ++ d)) (zlen hd)) as [L|G].
    + destruct (app_cut _ _ _ _ Q L) as (y & Hy & _). destruct (in_head _ _ Hy) as (h1 & H1). unfold parse_http. rewrite H1. cbn [bind negb].
      destruct (IH r1 (pre ++ d) h1 (h_done h1 - zlen pre) ltac:(lia) H1 Q) as (o & r2 & E2 & P). exists o, r2. split; [exact E2|]. destruct o as [[h got]|].
      * destruct P as (P1 & P2 & P3 & P4 & P5 & P6 & P7). do 6 (split; [assumption|]). auto.
      * destruct P as [P|P]; [auto|right]. intros [N M]. apply P. auto.
    + destruct (app_cut _ _ _ _ (eq_sym Q) ltac:(lia)) as (more & Hm & Hb).
      assert (Nm : more <> []) by (intros ->; rewrite app_nil_r in Hm; rewrite Hm in G; lia).
      destruct (header_only_ok hd code clen more Bh Rh Nm) as (h & H & H1 & H2 & H3 & _ & H5). rewrite Hm, H. cbn [bind negb].
      change (h_err (hset_done h (h_done h - zlen pre))) with (h_err h). change (h_status (hset_done h (h_done h - zlen pre))) with (h_status h).
      rewrite H1. change (0 =? 0) with true. cbn [negb]. rewrite H2. rewrite h_done_set, H5. destruct (Z.eqb_spec clen 0) as [|_]; [contradiction|].
      destruct (app_cut _ _ _ _ Hm Lp) as (x & Hx & Hd). rewrite Hd. replace (zlen hd - 0 - zlen pre) with (zlen x) by (rewrite Hx, zlen_app; lia).
      destruct (Z.leb_spec 400 code) as [C4|C4]; [eexists _, _; split; [reflexivity|]; cbv iota; auto|].
      eexists _, _. split; [reflexivity|]. cbv iota beta. split; [exact H2|]. split; [exact C4|]. split; [exact H3|].
      rewrite drop_app_exact by reflexivity. split; [now rewrite Hb|]. split; [exact Nm|]. split; [rewrite Hd, zlen_app in Ld; pose proof (zlen_nonneg x); lia|exact Kp].
  - exists None, r1. split; [reflexivity|]. right. intros [N M]. subst missing. rewrite app_nil_r in Q.
    destruct (read_no_failure r cap Cp N) as (d & r2 & E2 & _); [|congruence]. intros Z0. rewrite Z0, app_nil_r in Q. apply (f_equal zlen) in Q. rewrite zlen_app in Q. pose proof (zlen_nonneg body). lia.
Qed.
Lemma wait_header_ok cap r missing : 0 < cap -> serves r hd body missing ->
  exists o r', wait_header r cap = Some (o, r') /\
    match o with
    | None => 400 <= code \/ ~ (no_failure r /\ missing = [])
    | Some (h, got) => h_status h = code /\ code < 400 /\ h_clen h = clen /\ got ++ rx_bytes r' ++ missing = body /\ got <> [] /\ zlen got <= cap /\ (no_failure r -> no_failure r')
    end.
Proof.
  intros C Sv. destruct (head_loop_ok cap missing (S (rx_size r)) C r [] (hset_done h_init 0) 0 ltac:(lia) eq_refl Sv) as (o & r' & E & P).
  exists o, r'. split; [exact E|exact P].
Qed.

(* ------------------------------------------------------------ the URL *)
Lemma url_loop_ok missing fuel : forall r got, (rx_size r < fuel)%nat -> zlen body < 4294967296 -> got ++ rx_bytes r ++ missing = body ->
  exists o r', url_loop fuel clen (got ++ fill (clen + 1 - zlen got) 0) (zlen got) r = Some (o, r') /\
    match o with None => ~ (no_failure r /\ missing = []) | Some buf => buf = body ++ [0] end.
Proof.
  induction fuel as [|fuel IH]; intros r got F Lb Q; [lia|]. cbn [url_loop].
  assert (Lg : zlen got <= clen). { rewrite Lc, <- Q, !zlen_app. pose proof (zlen_nonneg (rx_bytes r)). pose proof (zlen_nonneg missing). lia. }
  destruct (Z.eqb_spec (zlen got) clen) as [E|E].
  - eexists _, _. split; [reflexivity|]. rewrite E. replace (clen + 1 - clen) with 1 by lia. f_equal.
    rewrite <- Q. symmetry. rewrite <- (app_nil_r got) at 2. f_equal. apply zlen_0_nil. apply (f_equal zlen) in Q. rewrite !zlen_app in Q. rewrite zlen_app. lia.
  - pose proof (zlen_nonneg got). rewrite u32_id by (unfold is_u32; lia).
    pose proof (read_socket_data r (clen - zlen got)) as D. pose proof (read_socket_size r (clen - zlen got)) as Sz. pose proof (read_keeps r (clen - zlen got)) as Kp.
    destruct (read_socket r (clen - zlen got)) as [[d|] r1] eqn:Er.
    + destruct D as [D Ld]. specialize (Sz _ _ eq_refl). specialize (Kp _ _ eq_refl). pose proof (zlen_nonneg d).
      rewrite splice_app_pre by (rewrite ?zlen_fill; lia). cbn [bind]. rewrite D in Q. rewrite <- app_assoc in Q. rewrite app_assoc in Q.
      rewrite u32_id by (unfold is_u32; lia). destruct (IH r1 (got ++ d) ltac:(lia) Lb Q) as (o & r2 & E2 & P). exists o, r2. split.
      * rewrite <- E2, zlen_app. f_equal. rewrite <- app_assoc. do 2 f_equal. unfold fill, drop. rewrite <- (Nat2Z.id (Z.to_nat (clen + 1 - (zlen got + zlen d)))).
        replace (Z.to_nat (clen + 1 - zlen got)) with (Z.to_nat (zlen d) + Z.to_nat (clen + 1 - (zlen got + zlen d)))%nat by lia.
        rewrite repeat_app, skipn_app, repeat_length, Nat.sub_diag.
        rewrite skipn_all2 by (rewrite repeat_length; lia). rewrite Nat2Z.id. reflexivity.
      * destruct o; [exact P|]. intros [N M]. apply P. auto.
    + eexists _, _. split; [reflexivity|]. intros [N M]. subst missing. rewrite app_nil_r in Q.
      destruct (read_no_failure r (clen - zlen got) ltac:(lia) N) as (d & r2 & E2 & _); [|congruence]. intros Z0. rewrite Z0, app_nil_r in Q. subst got. lia.
Qed.

Lemma url_good alloc r missing : serves r hd body missing ->
  exists u asked, url_response alloc r = Some (u, asked) /\
    match u with
    | Url mem => code = 200 /\ mem = body ++ [0]
    | UpToDate => code < 400 /\ code <> 200
    | UrlError => 400 <= code \/ (code = 200 /\ alloc (zlen body + 1) = false) \/ ~ (no_failure r /\ missing = [])
    end.
Proof.
  intros S. destruct (head_fed hd code clen [] true Bh Rh) as [Bc _]. unfold url_response.
  destruct (wait_header_ok 32 r missing ltac:(lia) S) as (o & r1 & E & P). rewrite E. cbn [bind]. destruct o as [[h got]|].
  - destruct P as (P1 & P2 & P3 & P4 & P5 & P6 & P7). rewrite P1. destruct (Z.eqb_spec code 200) as [C|C]; cbn [negb]; [|eexists _, _; split; [reflexivity|]; split; [exact P2|exact C]].
    rewrite P3. rewrite u32_id by (unfold is_u32; lia). destruct (alloc (clen + 1)) eqn:Al; cbn [negb].
    + assert (Lg : zlen got <= clen). { rewrite Lc, <- P4, !zlen_app. pose proof (zlen_nonneg (rx_bytes r1)). pose proof (zlen_nonneg missing). lia. }
      pose proof (zlen_nonneg got). change (splice (fill (clen + 1) 0) 0 got) with (splice ([] ++ fill (clen + 1) 0) 0 got). rewrite splice_app_pre by (rewrite ?zlen_fill; lia || reflexivity). cbn [Datatypes.app bind].
      destruct (url_loop_ok missing (Datatypes.S (rx_size r1)) r1 got ltac:(lia) ltac:(lia) P4) as (o & r2 & E2 & P).
      assert (Dr : drop (zlen got) (fill (clen + 1) 0) = fill (clen + 1 - zlen got) 0).
      { unfold fill, drop. replace (Z.to_nat (clen + 1)) with (Z.to_nat (zlen got) + Z.to_nat (clen + 1 - zlen got))%nat by lia.
        rewrite repeat_app, skipn_app, repeat_length, Nat.sub_diag. rewrite skipn_all2 by (rewrite repeat_length; lia). reflexivity. }
      rewrite Dr, E2. cbn [bind fst]. eexists _, _. split; [reflexivity|]. destruct o as [buf|]; [auto|]. right. right. intros [N M]. apply P. auto.
    + eexists _, _. split; [reflexivity|]. right. left. rewrite <- Lc. auto.
  - eexists _, _. split; [reflexivity|]. tauto.
Qed.

Lemma url_asked alloc r u asked : url_response alloc r = Some (u, asked) ->
  match u with Url _ => exists n, asked = Some n /\ alloc n = true | UpToDate => asked = None | UrlError => True end.
Proof.
  unfold url_response. intros E. apply bind_inv in E as ([[[h got]|] r1] & _ & E); [|injection E as <- <-; exact I].
  destruct (negb (h_status h =? 200)); [injection E as <- <-; reflexivity|]. destruct (alloc (u32 (h_clen h + 1))) eqn:A; cbn [negb] in E; [|injection E as <- <-; exact I].
  apply bind_inv in E as (buf & _ & E). apply bind_inv in E as ([[b|] r2] & _ & E); injection E as <- <-; [eauto|exact I].
Qed.

(* ------------------------------------------------------------ the download *)
Lemma install_loop_ok ans cap missing fuel : 0 < cap -> zlen body < 4294967296 -> forall r got pieces, (rx_size r < fuel)%nat -> got ++ rx_bytes r ++ missing = body ->
  concat pieces = got -> Forall (fun d => zlen d <= cap) pieces ->
  (forall l c l', HUpdate clen :: map HData pieces = l ++ c :: l' -> ans (l ++ [c]) = true) ->
  exists b log r', install_loop ans cap clen fuel (zlen got) (HUpdate clen :: map HData pieces) r = Some (b, log, r') /\
    handled ans cap clen body b log /\ (no_failure r -> missing = [] -> (forall l, ans l = true) -> b = true).
Proof.
  intros Cp Lb. induction fuel as [|fuel IH]; intros r got pieces F Q Cc Fp An; [lia|]. cbn [install_loop].
  assert (Lg : zlen got <= clen). { rewrite Lc, <- Q, !zlen_app. pose proof (zlen_nonneg (rx_bytes r)). pose proof (zlen_nonneg missing). lia. }
  assert (Al : forall x, forall l c l', (HUpdate clen :: map HData pieces) ++ [x] = l ++ c :: l' -> l' <> [] -> ans (l ++ [c]) = true).
  { intros x l c l' X Ne. destruct (exists_last Ne) as (l2 & y & ->). rewrite app_comm_cons, app_assoc in X. apply app_inj_tail in X as [X _]. exact (An _ _ _ X). }
  destruct (Z.eqb_spec (zlen got) clen) as [E|E].
  - eexists _, _, _. split; [reflexivity|].
    assert (Eb : got = body). { rewrite <- Q. rewrite <- (app_nil_r got) at 1. f_equal. symmetry. apply zlen_0_nil. apply (f_equal (@zlen Z)) in Q. rewrite zlen_app in Q. lia. }
    split; [|intros _ _ A; apply A]. right. exists pieces, [HComplete], []. split; [reflexivity|]. split; [rewrite Cc, app_nil_r; auto|]. split; [exact Fp|]. split; [auto|].
    split; [apply Al|]. split; [intros A; split; [reflexivity|exact A]|intros [_ A]; exact A].
  - pose proof (zlen_nonneg got). rewrite u32_id by (unfold is_u32; lia). set (n := Z.min (clen - zlen got) cap). assert (Hn : 0 < n <= cap /\ n <= clen - zlen got) by lia.
    pose proof (read_socket_data r n) as D. pose proof (read_socket_size r n) as Sz. pose proof (read_keeps r n) as Kp.
    destruct (read_socket r n) as [[d|] r1] eqn:Er.
    + destruct D as [D Ld]. specialize (Sz _ _ eq_refl). specialize (Kp _ _ eq_refl). pose proof (zlen_nonneg d). rewrite D in Q. rewrite <- app_assoc in Q.
      assert (Lp : (HUpdate clen :: map HData pieces) ++ [HData d] = HUpdate clen :: map HData (pieces ++ [d])) by (rewrite map_app; reflexivity).
      assert (Fp2 : Forall (fun d => zlen d <= cap) (pieces ++ [d])) by (apply Forall_app; split; [exact Fp|constructor; [lia|constructor]]).
      destruct (ans ((HUpdate clen :: map HData pieces) ++ [HData d])) eqn:A; cbn [negb].
      * rewrite u32_id by (unfold is_u32; lia). rewrite Lp. rewrite <- zlen_app. rewrite app_assoc in Q.
        destruct (IH r1 (got ++ d) (pieces ++ [d]) ltac:(lia) Q) as (b & log & r2 & E2 & P1 & P2).
        -- rewrite concat_app, Cc. cbn. now rewrite app_nil_r.
        -- exact Fp2.
        -- intros l c l' X. rewrite <- Lp in X. destruct l' as [|y l']; [|exact (Al _ _ _ _ X ltac:(discriminate))].
           apply app_inj_tail in X as [<- <-]. exact A.
        -- exists b, log, r2. split; [exact E2|]. split; [exact P1|]. auto.
      * eexists _, _, _. split; [reflexivity|]. split; [|intros _ _ X; rewrite X in A; discriminate]. right. exists (pieces ++ [d]), [], (rx_bytes r1 ++ missing).
        split; [rewrite app_nil_r; exact Lp|]. split; [rewrite concat_app, Cc; cbn; rewrite app_nil_r, <- app_assoc; auto|]. split; [exact Fp2|]. split; [auto|].
        split; [apply Al|]. split; [discriminate|intros [X _]; discriminate].
    + eexists _, _, _. split; [reflexivity|]. split.
      * right. exists pieces, [], (rx_bytes r ++ missing). split; [now rewrite app_nil_r|]. split; [now rewrite Cc|]. split; [exact Fp|]. split; [auto|].
        split; [intros l c l' X _; exact (An _ _ _ X)|]. split; [discriminate|intros [X _]; discriminate].
      * intros N M _. exfalso. subst missing. rewrite app_nil_r in Q.
        destruct (read_no_failure r n ltac:(lia) N) as (d & r2 & E2 & _); [|congruence]. intros Z0. rewrite Z0, app_nil_r in Q. subst got. lia.
Qed.

Lemma install_good ans cap r missing : 0 < cap -> serves r hd body missing ->
  exists b log r', install ans cap r = Some (b, log, r') /\ handled ans cap clen body b log /\ (400 <= code -> log = []) /\
    (no_failure r -> missing = [] -> code < 400 -> (forall l, ans l = true) -> b = true).
Proof.
  intros Cp Sv. destruct (head_fed hd code clen [] true Bh Rh) as [Bc _]. unfold install.
  destruct (wait_header_ok cap r missing Cp Sv) as (o & r1 & E & P). rewrite E. cbn [bind]. destruct o as [[h got]|].
  - destruct P as (P1 & P2 & P3 & P4 & P5 & P6 & P7). rewrite P3.
    assert (Zg : zlen got <> 0) by (intros X; apply zlen_0_nil in X; contradiction). destruct (Z.eqb_spec (zlen got) 0) as [|_]; [contradiction|]. cbn [negb andb].
    destruct (ans [HUpdate clen]) eqn:A1; cbn [negb].
    + change ([HUpdate clen] ++ [HData got]) with (HUpdate clen :: map HData [got]). destruct (ans (HUpdate clen :: map HData [got])) eqn:A2; cbn [negb].
      * destruct (install_loop_ok ans cap missing (S (rx_size r1)) Cp ltac:(lia) r1 got [got] ltac:(lia) P4) as (b & log & r2 & E2 & Q1 & Q2).
        -- cbn. apply app_nil_r.
        -- constructor; [exact P6|constructor].
        -- intros l c l' X. destruct l as [|y l]; [cbn in X; injection X as <- _; exact A1|]. cbn in X. injection X as <- X. destruct l as [|z l]; [cbn in X; injection X as <- _; exact A2|].
           cbn in X. injection X as _ X. destruct l; discriminate.
        -- exists b, log, r2. split; [exact E2|]. split; [exact Q1|]. split; [lia|]. auto.
      * eexists _, _, _. split; [reflexivity|]. split; [|split; [lia|intros _ _ _ X; rewrite X in A2; discriminate]]. right. exists [got], [], (rx_bytes r1 ++ missing).
        split; [reflexivity|]. split; [cbn [concat]; rewrite app_nil_r; auto|]. split; [constructor; [exact P6|constructor]|]. split; [auto|]. split.
        -- intros l c l' X Ne. destruct l as [|y l]; [cbn in X; injection X as <- _; exact A1|]. cbn in X. injection X as <- X. destruct l as [|z l]; [cbn in X; injection X as _ <-; contradiction|].
           cbn in X. injection X as _ X. destruct l; discriminate.
        -- split; [discriminate|intros [X _]; discriminate].
    + eexists _, _, _. split; [reflexivity|]. split; [|split; [lia|intros _ _ _ X; rewrite X in A1; discriminate]]. right. exists [], [], body.
      split; [reflexivity|]. split; [reflexivity|]. split; [constructor|]. split; [auto|]. split.
      * intros l c l' X Ne. destruct l as [|y l]; [cbn in X; injection X as _ <-; contradiction|]. cbn in X. injection X as _ X. destruct l; discriminate.
      * split; [discriminate|intros [X _]; discriminate].
  - eexists _, _, _. split; [reflexivity|]. split; [left; auto|]. split; [auto|]. intros N M C _. exfalso. destruct P as [P|P]; [lia|apply P; auto].
Qed.
End Response.

(* ------------------------------------------------------------ any server *)
Lemma head_loop_safe cap fuel : forall h r, (rx_size r < fuel)%nat -> hinv h -> bytes (rx_bytes r) -> h_recv h + zlen (rx_bytes r) < 2 ^ 31 ->
  exists o r', head_loop fuel h r cap = Some (o, r') /\ match o with Some (h', got) => zlen got <= Z.max 0 cap | None => True end.
Proof.
  induction fuel as [|fuel IH]; intros h r F V B L; [lia|]. cbn [head_loop].
  pose proof (read_socket_data r cap) as D. pose proof (read_socket_size r cap) as Sz. destruct (read_socket r cap) as [[d|] r1].
  - destruct D as [D Ld]. specialize (Sz _ _ eq_refl). rewrite D in B, L. apply bytes_app in B as [B1 B2]. rewrite zlen_app in L. pose proof (zlen_nonneg (rx_bytes r1)).
    destruct (parse_recv d true h B1 V ltac:(lia)) as (f & h1 & E1 & V1 & R1). rewrite E1. cbn [bind]. destruct f; cbn [negb].
    + destruct (negb _); [eexists _, _; split; [reflexivity|exact I]|]. destruct (400 <=? _); [eexists _, _; split; [reflexivity|exact I]|].
      eexists _, _. split; [reflexivity|]. cbv iota beta. rewrite zlen_drop. lia.
    + apply IH; [lia|exact V1|exact B2|lia].
  - eexists _, _. split; [reflexivity|exact I].
Qed.
Lemma install_loop_safe ans cap clen fuel : forall off pieces r, (rx_size r < fuel)%nat -> Forall (fun d => zlen d <= Z.max 0 cap) pieces ->
  exists b r' pieces' fin, install_loop ans cap clen fuel off (HUpdate clen :: map HData pieces) r = Some (b, HUpdate clen :: map HData pieces' ++ fin, r') /\
    Forall (fun d => zlen d <= Z.max 0 cap) pieces' /\ (fin = [] \/ fin = [HComplete]) /\ (b = true -> fin = [HComplete]).
Proof.
  induction fuel as [|fuel IH]; intros off pieces r F Fp; [lia|]. cbn [install_loop]. destruct (off =? clen).
  - eexists _, _, pieces, [HComplete]. split; [reflexivity|]. auto.
  - pose proof (read_socket_data r (Z.min (u32 (clen - off)) cap)) as D. pose proof (read_socket_size r (Z.min (u32 (clen - off)) cap)) as Sz.
    destruct (read_socket r (Z.min (u32 (clen - off)) cap)) as [[d|] r1].
    + destruct D as [_ Ld]. specialize (Sz _ _ eq_refl).
      assert (Lp : (HUpdate clen :: map HData pieces) ++ [HData d] = HUpdate clen :: map HData (pieces ++ [d])) by (rewrite map_app; reflexivity). rewrite Lp.
      assert (Fp2 : Forall (fun d => zlen d <= Z.max 0 cap) (pieces ++ [d])) by (apply Forall_app; split; [exact Fp|constructor; [lia|constructor]]).
      destruct (ans _); cbn [negb].
      * apply IH; [lia|exact Fp2].
      * eexists _, _, (pieces ++ [d]), []. split; [rewrite app_nil_r; reflexivity|]. split; [exact Fp2|]. split; [auto|discriminate].
    + eexists _, _, pieces, []. split; [rewrite app_nil_r; reflexivity|]. split; [exact Fp|]. split; [auto|discriminate].
Qed.
Lemma install_safe ans cap r : bytes (rx_bytes r) -> zlen (rx_bytes r) < 2 ^ 31 -> 0 <= cap ->
  exists b log r', install ans cap r = Some (b, log, r') /\
    (log = [] /\ b = false \/ exists size pieces fin, log = HUpdate size :: map HData pieces ++ fin /\ Forall (fun d => zlen d <= cap) pieces /\
       (fin = [] \/ fin = [HComplete]) /\ (b = true -> fin = [HComplete])).
Proof.
  intros B L C. unfold install, wait_header. destruct (head_loop_safe cap (S (rx_size r)) h_init r ltac:(lia) hinv_init B ltac:(exact L)) as (o & r1 & E & P). rewrite E. cbn [bind].
  destruct o as [[h got]|]; [|eexists _, _, _; split; [reflexivity|left; auto]]. rewrite Z.max_r in P by lia.
  destruct (ans [HUpdate (h_clen h)]); cbn [negb].
  - destruct (Z.eqb_spec (zlen got) 0) as [Zg|Zg]; cbn [negb andb].
    + destruct (install_loop_safe ans cap (h_clen h) (S (rx_size r1)) (zlen got) [] r1 ltac:(lia) ltac:(constructor)) as (b & r2 & ps & fin & E2 & Q1 & Q2 & Q3).
      rewrite Z.max_r in Q1 by lia. eexists _, _, _. split; [exact E2|]. right. eauto 10.
    + change ([HUpdate (h_clen h)] ++ [HData got]) with (HUpdate (h_clen h) :: map HData [got]). destruct (ans (HUpdate (h_clen h) :: map HData [got])); cbn [negb].
      * destruct (install_loop_safe ans cap (h_clen h) (S (rx_size r1)) (zlen got) [got] r1 ltac:(lia)) as (b & r2 & ps & fin & E2 & Q1 & Q2 & Q3).
        { constructor; [lia|constructor]. }
        rewrite Z.max_r in Q1 by lia. eexists _, _, _. split; [exact E2|]. right. eauto 10.
      * eexists _, _, _. split; [reflexivity|]. right. exists (h_clen h), [got], []. split; [reflexivity|]. split; [constructor; [exact P|constructor]|]. split; [auto|discriminate].
  - eexists _, _, _. split; [reflexivity|]. right. exists (h_clen h), [], []. split; [reflexivity|]. split; [constructor|]. split; [auto|discriminate].
Qed.
