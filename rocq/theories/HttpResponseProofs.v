(** The response parser. *)
From Coq Require Import String.
From Verif Require Import Base HttpUtils HttpUtilsSpec HttpUtilsProofs HttpUriProofs.

(** ** The count of processed bytes does not influence the parser *)
Lemma http_line_done h d len :
  http_line (hset_done h d) len = match http_line h len with
    | None => None | Some (f, h') => Some (f, hset_done h' (h_done h' + (d - h_done h))) end.
Proof.
  assert (X : forall y, y + (d - y) = d) by lia.
  unfold http_line. cbn [h_phase h_buf hset_done]. destruct (h_phase h =? 0).
  - destruct (parse_status_line (h_buf h) len) as [[ok [v|]]|]; cbn [bind]; [| |easy]; destruct ok; cbn; rewrite X; easy.
  - destruct (parse_header (h_buf h) len) as [[ok [v|]]|]; cbn [bind]; [| |easy]; destruct ok; cbn [negb];
      try (cbn; rewrite X; reflexivity); destruct (len =? 0); cbn [negb];
      try (cbn; rewrite X; reflexivity); cbn [h_clen hset_clen hset_done].
    + destruct (v =? 0); cbn; rewrite X; easy.
    + destruct (h_clen h =? 0); cbn; rewrite X; easy.
Qed.
Lemma http_byte_done h d c ho :
  http_byte (hset_done h d) c ho = match http_byte h c ho with
    | None => None | Some (f, h') => Some (f, hset_done h' (h_done h' + (d - h_done h))) end.
Proof.
  assert (X : forall y, y + (d - y) = d) by lia.
  unfold http_byte. cbn [h_phase h_llen h_recv h_buf hset_done]. destruct (h_phase h =? 2).
  - destruct ho; [cbn; rewrite X; easy|]. destruct (2147483647 <=? h_recv h); [easy|].
    cbn [h_phase h_llen h_recv h_buf hset_done hset_recv h_clen].
    destruct (h_llen h <? 127).
    + destruct (put (h_buf h) (h_llen h) c) as [b|]; cbn [bind]; [|easy].
      cbn [h_phase h_llen h_recv h_buf hset_done hset_recv h_clen hset_line].
      destruct (h_recv h + 1 =? h_clen h); cbn [negb]; [|cbn; rewrite X; easy].
      destruct (put b (h_llen h + 1) 0); cbn [bind]; [|easy]. cbn. replace (h_done h + 1 + (d - h_done h)) with (d + 1) by lia. reflexivity.
    + cbn [bind]. cbn [h_phase h_llen h_recv h_buf hset_done hset_recv h_clen hset_line].
      destruct (h_recv h + 1 =? h_clen h); cbn [negb]; [|cbn; rewrite X; easy].
      destruct (put (h_buf h) (h_llen h) 0); cbn [bind]; [|easy]. cbn. replace (h_done h + 1 + (d - h_done h)) with (d + 1) by lia. reflexivity.
  - destruct ((128 <=? h_llen h) && negb (h_phase h =? 1)); [cbn; rewrite X; easy|].
    assert (K : forall o n, match (do b <- o; Some (hset_line (hset_done h d) n b)) with Some g => True | None => True end) by (intros; destruct (bind _ _); easy).
    clear K.
    assert (K : forall n b,
      (if h_llen (hset_line (hset_done h d) n b) <? 2 then Some (false, hset_line (hset_done h d) n b)
       else do e <- is_cr_lf (h_buf (hset_line (hset_done h d) n b)) (h_llen (hset_line (hset_done h d) n b) - 2);
            if negb e then Some (false, hset_line (hset_done h d) n b)
            else do b0 <- put (h_buf (hset_line (hset_done h d) n b)) (h_llen (hset_line (hset_done h d) n b) - 2) 0;
                 http_line (hset_line (hset_line (hset_done h d) n b) 0 b0) (h_llen (hset_line (hset_done h d) n b) - 2))
      = match (if h_llen (hset_line h n b) <? 2 then Some (false, hset_line h n b)
               else do e <- is_cr_lf (h_buf (hset_line h n b)) (h_llen (hset_line h n b) - 2);
                    if negb e then Some (false, hset_line h n b)
                    else do b0 <- put (h_buf (hset_line h n b)) (h_llen (hset_line h n b) - 2) 0;
                         http_line (hset_line (hset_line h n b) 0 b0) (h_llen (hset_line h n b) - 2))
        with None => None | Some (f, h') => Some (f, hset_done h' (h_done h' + (d - h_done h))) end).
    { intros n b. cbn [h_llen h_buf hset_line]. destruct (n <? 2); [cbn; rewrite X; easy|].
      destruct (is_cr_lf b (n - 2)) as [[|]|]; cbn [bind negb]; [|cbn; rewrite X; easy|easy].
      destruct (put b (n - 2) 0) as [b0|]; cbn [bind]; [|easy].
      change (hset_line (hset_line (hset_done h d) n b) 0 b0) with (hset_done (hset_line (hset_line h n b) 0 b0) d).
      rewrite http_line_done. easy. }
    assert (K2 : hset_done h d = hset_line (hset_done h d) (h_llen h) (h_buf h)) by easy.
    assert (K3 : h = hset_line h (h_llen h) (h_buf h)) by (destruct h; easy).
    destruct (128 <=? h_llen h).
    + destruct (c =? 13); [destruct (put (h_buf h) 126 c) as [b|]; cbn [bind]; [apply K|easy]|].
      destruct (c =? 10); [destruct (put (h_buf h) 127 c) as [b|]; cbn [bind]; [apply K|easy]|].
      cbn [bind]. rewrite K2 at 1. specialize (K (h_llen h) (h_buf h)). rewrite <- K3 in K. exact K.
    + destruct (put (h_buf h) (h_llen h) c) as [b|]; cbn [bind]; [apply K|easy].
Qed.
Lemma hset_done_done h a b : hset_done (hset_done h a) b = hset_done h b. Proof. easy. Qed.
Lemma h_done_set h a : h_done (hset_done h a) = a. Proof. easy. Qed.
Lemma hset_done_id h : hset_done h (h_done h) = h. Proof. destruct h; easy. Qed.

Lemma http_loop_done data ho : forall h d,
  http_loop (hset_done h d) data ho = match http_loop h data ho with
    | None => None | Some (f, h') => Some (f, hset_done h' (h_done h' + (d - h_done h))) end.
Proof.
  induction data as [|c r IH]; intros h d; cbn [http_loop].
  - replace (h_done h + (d - h_done h)) with d by lia. easy.
  - rewrite http_byte_done. destruct (http_byte h c ho) as [[f h']|]; cbn [bind]; [|easy]. destruct f; [easy|].
    rewrite hset_done_done, h_done_set.
    rewrite (IH h' (h_done h' + (d - h_done h) + 1)), (IH h' (h_done h' + 1)).
    destruct (http_loop h' r ho) as [[f h2]|]; [|easy]. rewrite hset_done_done, h_done_set. do 3 f_equal. lia.
Qed.
Lemma http_loop_app a b ho : forall h,
  http_loop h (a ++ b) ho = match http_loop h a ho with Some (false, h') => http_loop h' b ho | x => x end.
Proof.
  induction a as [|c a IH]; intros h; cbn [app http_loop]; [easy|].
  destruct (http_byte h c ho) as [[f h']|]; cbn [bind]; [|easy]. destruct f; [easy|]. apply IH.
Qed.
Lemma view_done h d : view (hset_done h d) = view h. Proof. easy. Qed.

Lemma feed_ok pieces ho : forall h total,
  match parse_http h (concat pieces) ho with
  | None => feed h pieces ho total = None
  | Some (f, h1) => exists h2, feed h pieces ho total = Some (f, h2, total + h_done h1) /\ view h2 = view h1
  end.
Proof.
  induction pieces as [|p r IH]; intros h total; unfold parse_http; cbn [concat feed].
  - cbn [http_loop]. exists h. rewrite h_done_set, Z.add_0_r. easy.
  - rewrite http_loop_app. fold (parse_http h p ho). destruct (parse_http h p ho) as [[f h1]|] eqn:E; [|easy].
    destruct f; [exists h1; easy|].
    specialize (IH h1 (total + h_done h1)). unfold parse_http in IH.
    rewrite http_loop_done in IH.
    destruct (http_loop h1 (concat r) ho) as [[f h2]|]; [|exact IH].
    destruct IH as [h3 [E1 E2]]. exists h3. rewrite E1, E2, h_done_set. split; [|easy]. do 2 f_equal. lia.
Qed.

(** ** Single lines *)
Lemma spaces_unique sp r sp' r' : sp ++ r = sp' ++ r' -> spaces sp -> spaces sp' ->
  (forall t, r <> 32 :: t) -> (forall t, r' <> 32 :: t) -> sp = sp' /\ r = r'.
Proof.
  intros E S S' R R'. revert sp' E S'. induction S as [|c sp C S IH]; intros sp' E S'.
  - destruct sp' as [|d sp']; [easy|]. inv S'. exfalso. apply (R (sp' ++ r')). exact E.
  - destruct sp' as [|d sp']; [exfalso; subst c; apply (R' (sp ++ r)); easy|].
    cbn [app] in E. injection E as X E. inv S'. destruct (IH sp' E H2) as [-> ->]. easy.
Qed.
Lemma spaces_split l : exists sp r, l = sp ++ r /\ spaces sp /\ forall t, r <> 32 :: t.
Proof.
  destruct (count_spaces_ok l (length l) ltac:(lia)) as [sp [r [E [S [R _]]]]]. rewrite firstn_all in E. eauto.
Qed.
(** Counting spaces inside a line followed by anything. *)
Lemma count_in_line p sp r rest : spaces sp -> (forall t, r <> 32 :: t) ->
  count_spaces (drop (zlen p) ((p ++ sp ++ r) ++ rest)) (Z.to_nat (zlen (p ++ sp ++ r) - zlen p)) = Some (zlen sp).
Proof.
  intros S R. apply (count_spaces_at _ _ _ sp r); try easy.
  - apply zlen_nonneg.
  - rewrite (zlen_app p). pose proof (zlen_nonneg (sp ++ r)). lia.
  - rewrite <- app_assoc, (drop_app_exact _ p) by easy. apply take_app_exact. rewrite (zlen_app p). lia.
  - rewrite (zlen_app _ rest). pose proof (zlen_nonneg rest). lia.
Qed.
Lemma digit_not_space ds t : digits ds -> ds <> [] -> forall x, ds ++ t <> 32 :: x.
Proof. intros D N x E. destruct D; [easy|]. inv E. lia. Qed.

(** *** The status code: three digits and a space. *)
Lemma dec3 l n : 4 <= n -> 4 <= zlen l <= 128 -> (n <= zlen l \/ In 0 l) ->
  exists o, str_to_dec l n = Some o /\
    forall v, o = Some (3, v) <-> exists ds t, l = ds ++ 32 :: t /\ digits ds /\ zlen ds = 3 /\ v = dec_value ds.
Proof.
  intros N L H. unfold str_to_dec.
  assert (TW : forall x, dtail x = [] -> digits x).
  { intros x E. rewrite (dsplit x), E, app_nil_r. apply ddigits_digits. }
  destruct (dec_loop_some l (Z.to_nat n) 0 0 ltac:(lia)) as [o [E [E1 E2]]].
  { destruct (Z.leb_spec n (zlen l)) as [LE|GT]; [left; unfold zlen in *; lia|]. right.
    destruct H as [H|H]; [lia|]. intros X. apply TW in X. rewrite firstn_all2 in X by (unfold zlen in *; lia).
    unfold digits in X. rewrite Forall_forall in X. specialize (X 0 H). lia. }
  fold (take n l) in *. exists o. split; [exact E|].
  assert (DL : zlen (ddigits (take n l)) <= 128).
  { pose proof (f_equal zlen (dsplit (take n l))) as X. rewrite zlen_app, zlen_take in X.
    pose proof (zlen_nonneg (dtail (take n l))). lia. }
  pose proof (zlen_nonneg (ddigits (take n l))) as NN.
  intros v. split.
  - intros ->. destruct (proj1 E1 ltac:(congruence)) as [A B]. destruct (E2 _ _ eq_refl) as [K ->].
    rewrite s32_in in K by lia.
    assert (TL : zlen (take n l) >= 4) by (rewrite zlen_take; lia).
    destruct B as [B|[t B]].
    { exfalso. rewrite (dsplit (take n l)), B, app_nil_r in TL. lia. }
    exists (ddigits (take n l)), (t ++ drop n l). split.
    + change (32 :: t ++ drop n l) with ((32 :: t) ++ drop n l). rewrite <- B, app_assoc, <- dsplit. symmetry. apply take_drop.
    + split; [apply ddigits_digits|]. split; [lia|easy].
  - intros [ds [t [-> [D [D3 ->]]]]].
    assert (TK : take n (ds ++ 32 :: t) = ds ++ 32 :: take (n - 4) t).
    { rewrite take_app_ge by lia. f_equal. rewrite D3. replace (n - 3) with (1 + (n - 4)) by lia. rewrite take_plus by lia. easy. }
    rewrite TK in *.
    destruct (dsplit_unique ds (32 :: take (n - 4) t) D ltac:(intros c r X; inv X; easy)) as [F1 F2].
    rewrite F1, F2 in *.
    destruct o as [[k v]|].
    + destruct (E2 k v eq_refl) as [-> ->]. rewrite s32_in by lia. rewrite D3. easy.
    + exfalso. apply (proj2 E1); [|easy]. split; [right|right; eauto].
      destruct ds as [|a [|b [|c [|e ds]]]]; try (exfalso; rewrite ?zlen_cons in D3; change (zlen (@nil Z)) with 0 in D3; lia).
      2:{ exfalso. rewrite ?zlen_cons in D3. pose proof (zlen_nonneg ds). lia. }
      unfold dec_fits. cbn [dfold fold_left]. inv D. inv H3. inv H5.
      assert (X : 0 <= ((0 * 10 + (a - 48)) * 10 + (b - 48)) * 10 + (c - 48) < 1000) by lia.
      pose proof (Z.div_lt_upper_bound _ 10 100 ltac:(lia) (proj2 X)). pose proof (Z.mod_pos_bound (((0 * 10 + (a - 48)) * 10 + (b - 48)) * 10 + (c - 48)) 10 ltac:(lia)). lia.
Qed.

Lemma parse_status_line_ok line rest : zlen (line ++ 0 :: rest) = 128 -> zlen line <= 126 ->
  exists ok v, parse_status_line (line ++ 0 :: rest) (zlen line) = Some (ok, v) /\
    (ok = true -> v <> None) /\ forall code, (ok = true /\ v = Some code) <-> status_line line code.
Proof.
  intros L128 LL. set (buf := line ++ 0 :: rest) in *. unfold parse_status_line.
  assert (FAIL : (forall code, ~ status_line line code) ->
     exists ok v, Some (false, @None Z) = Some (ok, v) /\ (ok = true -> v <> None) /\
       forall code, (ok = true /\ v = Some code) <-> status_line line code).
  { intros N. exists false, None. split; [easy|]. split; [easy|]. intros code. split; [intros [X _]; easy|].
    intros X. exfalso. eapply N; eauto. }
  assert (SHAPE : forall code, status_line line code -> exists d x, line = str "HTTP/1." ++ d :: x /\ digits [d] /\
            exists sp y, x = sp ++ y /\ spaces sp /\ sp <> [] /\ (forall t, y <> 32 :: t) /\
              exists ds t, y = ds ++ 32 :: t /\ digits ds /\ zlen ds = 3 /\ code = dec_value ds).
  { intros code (d & sp & ds & reason & E & D & S & SN & DD & D3 & C). exists d, (sp ++ ds ++ 32 :: reason).
    split; [easy|]. split; [easy|]. exists sp, (ds ++ 32 :: reason). split; [easy|]. split; [easy|]. split; [easy|].
    split; [apply digit_not_space; [easy|intros ->; easy]|]. exists ds, reason. easy. }
  destruct (Z.ltb_spec (zlen line) 7) as [L7|L7].
  { apply FAIL. intros code H. destruct (SHAPE code H) as [d [x [E _]]]. rewrite E, zlen_app in L7.
    change (zlen (str "HTTP/1.")) with 7 in L7. pose proof (zlen_nonneg (d :: x)). lia. }
  rewrite read_at_some by (unfold buf; rewrite ?zlen_app, ?zlen_cons; pose proof (zlen_nonneg rest); lia). cbn [bind].
  rewrite drop_0. assert (T7 : take 7 buf = take 7 line) by (unfold buf; apply take_app_le; lia). rewrite T7.
  destruct (list_eq_dec Z.eq_dec (take 7 line) (str "HTTP/1.")) as [EQ|NEQ]; cbn [negb].
  2:{ apply FAIL. intros code H. destruct (SHAPE code H) as [d [x [E _]]]. apply NEQ. rewrite E. reflexivity. }
  destruct (Z.ltb_spec (zlen line) 8) as [L8|L8].
  { apply FAIL. intros code H. destruct (SHAPE code H) as [d [x [E _]]]. rewrite E, zlen_app, zlen_cons in L8.
    change (zlen (str "HTTP/1.")) with 7 in L8. pose proof (zlen_nonneg x). lia. }
  assert (EX : exists d x, line = str "HTTP/1." ++ d :: x).
  { destruct (drop 7 line) as [|d x] eqn:DR; [exfalso; apply (f_equal zlen) in DR; rewrite zlen_drop in DR; change (zlen (@nil Z)) with 0 in DR; lia|].
    exists d, x. rewrite <- EQ, <- DR. symmetry. apply take_drop. }
  destruct EX as [d [x EL]].
  assert (G7 : get buf 7 = Some d).
  { unfold buf. rewrite EL, <- app_assoc. apply get_app_pre. easy. }
  rewrite G7. cbn [bind].
  destruct (is_number d) eqn:DN; cbn [negb].
  2:{ apply FAIL. intros code H. destruct (SHAPE code H) as [d' [x' [E [D _]]]]. rewrite EL in E. apply app_inv_head in E.
      injection E as -> ->. inv D. apply is_number_iff in H2. congruence. }
  destruct (spaces_split x) as [sp [y [-> [S YN]]]].
  set (p := str "HTTP/1." ++ [d]) in *.
  assert (EL2 : line = p ++ sp ++ y) by (unfold p; rewrite EL, <- app_assoc; easy).
  assert (P8 : zlen p = 8) by easy.
  assert (CS : count_spaces (drop 8 buf) (Z.to_nat (zlen line - 8)) = Some (zlen sp)).
  { unfold buf. rewrite EL2, <- P8. apply count_in_line; easy. }
  rewrite CS. cbn [bind]. pose proof (zlen_nonneg sp) as SPN. pose proof (zlen_nonneg y) as YNN.
  assert (UNI : forall code, status_line line code -> sp <> [] /\ exists ds t, y = ds ++ 32 :: t /\ digits ds /\ zlen ds = 3 /\ code = dec_value ds).
  { intros code H. destruct (SHAPE code H) as [d' [x' [E [D [sp' [y' [-> [S' [SN' [YN' R]]]]]]]]]].
    rewrite EL in E. apply app_inv_head in E. injection E as -> E.
    destruct (spaces_unique _ _ _ _ E S S' YN YN') as [-> ->]. easy. }
  destruct (Z.eqb_spec (zlen sp) 0) as [Z0|Z0].
  { apply FAIL. intros code H. apply UNI in H. destruct H as [H _]. apply H. apply zlen_0_nil. easy. }
  assert (LE : zlen line = 8 + zlen sp + zlen y) by (rewrite EL2, !zlen_app, P8; lia).
  destruct (Z.ltb_spec (zlen line) (8 + zlen sp + 3)) as [L3|L3].
  { apply FAIL. intros code H. destruct (UNI code H) as [_ [ds [t [E [_ [D3 _]]]]]].
    rewrite E, zlen_app, zlen_cons in LE. pose proof (zlen_nonneg t). lia. }
  assert (DB : drop (8 + zlen sp) buf = y ++ 0 :: rest).
  { unfold buf. rewrite EL2. replace ((p ++ sp ++ y) ++ 0 :: rest) with ((p ++ sp) ++ y ++ 0 :: rest) by (rewrite <- !app_assoc; easy).
    apply drop_app_exact. rewrite zlen_app, P8. easy. }
  rewrite DB.
  assert (YL : zlen (y ++ 0 :: rest) = 128 - (8 + zlen sp)).
  { rewrite <- DB, zlen_drop. lia. }
  destruct (dec3 (y ++ 0 :: rest) (8 + zlen sp + 3)) as [o [E1 E2]]; [lia|lia|right; apply in_or_app; right; left; easy|].
  rewrite E1. cbn [bind].
  assert (SPEC : forall code, status_line line code <-> exists ds t, y ++ 0 :: rest = ds ++ 32 :: t /\ digits ds /\ zlen ds = 3 /\ code = dec_value ds).
  { intros code. split.
    - intros H. destruct (UNI code H) as [_ [ds [t [-> R]]]]. exists ds, (t ++ 0 :: rest). split; [rewrite <- app_assoc; easy|easy].
    - intros [ds [t [E [D [D3 C]]]]].
      exists d, sp, ds.
      assert (Y4 : exists t', y = ds ++ 32 :: t').
      { assert (T3 : take 3 y = ds).
        { rewrite <- (take_app_le 3 y (0 :: rest)) by lia. rewrite E. apply take_app_exact. easy. }
        assert (D3' : drop 3 y ++ 0 :: rest = 32 :: t).
        { rewrite <- (drop_app_le 3 y (0 :: rest)) by lia. rewrite E. apply drop_app_exact. easy. }
        destruct (drop 3 y) as [|c t'] eqn:DY; cbn [app] in D3'; [inv D3'|]. injection D3' as -> _.
        exists t'. rewrite <- T3, <- DY. symmetry. apply take_drop. }
      destruct Y4 as [t' Y4]. exists t'. split; [rewrite EL, Y4; easy|]. split; [constructor; [apply is_number_iff; easy|constructor]|].
      split; [easy|]. split; [intros ->; easy|]. easy. }
  destruct o as [[k v]|].
  - exists (k =? 3), (Some v). split; [easy|]. split; [easy|]. intros code. rewrite SPEC, <- (E2 code). split.
    + intros [K V]. apply Z.eqb_eq in K. injection V as ->. subst k. easy.
    + intros X. injection X as -> ->. easy.
  - apply FAIL. intros code H. apply SPEC in H. apply E2 in H. easy.
Qed.

Lemma lower_content_length : lower_text (str "content-length").
Proof. unfold lower_text. cbn. repeat (apply Forall_cons; [lia|]). constructor. Qed.

Lemma parse_header_ok line rest : bytes line -> zlen (line ++ 0 :: rest) = 128 -> zlen line <= 126 -> bytes rest ->
  exists ok v, parse_header (line ++ 0 :: rest) (zlen line) = Some (ok, v) /\
    (~ names_length line -> ok = true /\ v = None) /\
    (names_length line -> (ok = true -> v <> None) /\ forall w, (ok = true /\ v = Some w) <-> length_line line w).
Proof.
  intros B L128 LL BR. set (buf := line ++ 0 :: rest) in *. unfold parse_header.
  assert (NLEN : forall n, same_text n (str "content-length") -> zlen n = 14).
  { intros n S. apply same_text_length in S. unfold zlen. rewrite S. easy. }
  destruct (Z.ltb_spec (zlen line) 14) as [L14|L14].
  { exists true, None. split; [easy|]. split; [easy|]. intros (n & r & -> & S). exfalso. apply NLEN in S.
    rewrite zlen_app in L14. pose proof (zlen_nonneg r). lia. }
  assert (BB : bytes buf) by (unfold buf; apply bytes_app; split; [easy|constructor; [unfold is_u8; lia|easy]]).
  destruct (strcasecmp_ok buf (str "content-length") BB lower_content_length) as [b [E1 E2]].
  { change (zlen (str "content-length")) with 14. lia. }
  rewrite E1. cbn [bind]. change (zlen (str "content-length")) with 14 in E2.
  assert (T14 : take 14 buf = take 14 line) by (unfold buf; apply take_app_le; lia). rewrite T14 in E2.
  destruct b; cbn [negb].
  2:{ exists true, None. split; [easy|]. split; [easy|]. intros (n & r & E & S). exfalso.
      assert (X : false = true) by (apply E2; rewrite E, take_app_exact; [easy|symmetry; apply NLEN; easy]). easy. }
  pose proof (proj1 E2 eq_refl) as SN. set (n := take 14 line) in *.
  assert (EL : line = n ++ drop 14 line) by (symmetry; apply take_drop).
  assert (N14 : zlen n = 14) by (apply NLEN; easy).
  assert (NL : names_length line) by (exists n, (drop 14 line); easy).
  destruct (spaces_split (drop 14 line)) as [s1 [r1 [ER [S1 R1]]]].
  assert (FAIL : (forall w, ~ length_line line w) ->
     exists ok v, Some (false, @None Z) = Some (ok, v) /\ (~ names_length line -> ok = true /\ v = None) /\
      (names_length line -> (ok = true -> v <> None) /\ forall w, (ok = true /\ v = Some w) <-> length_line line w)).
  { intros N. exists false, None. split; [easy|]. split; [easy|]. intros _. split; [easy|]. intros w. split; [intros [X _]; easy|].
    intros X. exfalso. eapply N; eauto. }
  rewrite ER in EL. clear T14 E2 E1.
  assert (SHAPE : forall w, length_line line w -> exists s2 r2 ds, r1 = 58 :: s2 ++ r2 /\ spaces s2 /\ (forall t, r2 <> 32 :: t) /\
             decimal r2 ds /\ ds <> [] /\ w = dec_value ds /\ dec_fits w).
  { intros w (n' & s1' & s2 & ds & tail & E & SN' & S1' & S2 & DN & D & T & W & F).
    pose proof (NLEN n' SN') as N14'. rewrite EL in E.
    assert (E' : n = n' /\ s1 ++ r1 = s1' ++ 58 :: s2 ++ ds ++ tail).
    { pose proof (f_equal (take 14) E) as X. pose proof (f_equal (drop 14) E) as Y.
      rewrite !take_app_exact in X by easy. rewrite !drop_app_exact in Y by easy. easy. }
    destruct E' as [_ E'].
    destruct (spaces_unique _ _ _ _ E' S1 S1' R1 ltac:(easy)) as [_ ->].
    exists s2, (ds ++ tail), ds. split; [easy|]. split; [easy|]. split; [apply digit_not_space; easy|].
    split; [split; [easy|]; exists tail; easy|]. easy. }
  assert (CS : count_spaces (drop 14 buf) (Z.to_nat (zlen line - 14)) = Some (zlen s1)).
  { unfold buf. rewrite EL, <- N14. apply count_in_line; easy. }
  rewrite CS. cbn [bind]. pose proof (zlen_nonneg s1) as SPN.
  assert (LE : zlen line = 14 + zlen s1 + zlen r1) by (rewrite EL, !zlen_app, N14; lia).
  assert (BUF : buf = (n ++ s1) ++ r1 ++ 0 :: rest) by (unfold buf; rewrite EL, <- !app_assoc; easy).
  assert (P : zlen (n ++ s1) = 14 + zlen s1) by (rewrite zlen_app, N14; easy).
  assert (GC : get buf (14 + zlen s1) = Some (match r1 with [] => 0 | c :: _ => c end)).
  { rewrite BUF. destruct r1 as [|c r1]; apply get_app_pre; easy. }
  rewrite GC. cbn [bind].
  destruct (Z.eqb_spec (match r1 with [] => 0 | c :: _ => c end) 58) as [C|C]; cbn [negb].
  2:{ apply FAIL. intros w H. destruct (SHAPE w H) as (s2 & r2 & ds & -> & _). apply C. easy. }
  destruct r1 as [|c r2']; [easy|]. subst c.
  destruct (spaces_split r2') as [s2 [r2 [-> [S2 R2]]]].
  set (p := (n ++ s1) ++ [58]) in *.
  assert (PL : zlen p = 14 + zlen s1 + 1) by (unfold p; rewrite zlen_app, P; easy).
  assert (EL2 : line = p ++ s2 ++ r2) by (unfold p; rewrite EL, <- !app_assoc; easy).
  assert (CS2 : count_spaces (drop (14 + zlen s1 + 1) buf) (Z.to_nat (zlen line - (14 + zlen s1 + 1))) = Some (zlen s2)).
  { unfold buf. rewrite EL2, <- PL. apply count_in_line; easy. }
  rewrite CS2. cbn [bind]. pose proof (zlen_nonneg s2) as S2N. pose proof (zlen_nonneg r2) as R2N.
  assert (LE2 : zlen line = 14 + zlen s1 + 1 + zlen s2 + zlen r2) by (rewrite EL2, !zlen_app, PL; lia).
  assert (DB : drop (14 + zlen s1 + 1 + zlen s2) buf = r2 ++ 0 :: rest).
  { unfold buf. rewrite EL2. replace ((p ++ s2 ++ r2) ++ 0 :: rest) with ((p ++ s2) ++ r2 ++ 0 :: rest) by (rewrite <- !app_assoc; easy).
    apply drop_app_exact. rewrite zlen_app, PL. easy. }
  rewrite DB, u32_id by (unfold is_u32; lia).
  replace (zlen line - (14 + zlen s1 + 1 + zlen s2)) with (zlen r2) by lia.
  destruct (str_to_dec_ok (r2 ++ 0 :: rest) (zlen r2)) as [o [E1 E2]].
  { rewrite zlen_app. pose proof (zlen_nonneg (0 :: rest)). lia. }
  { rewrite <- DB, zlen_drop. change (2 ^ 31) with 2147483648. lia. }
  rewrite take_app_exact in E2 by easy. rewrite E1. cbn [bind].
  assert (SPEC : forall w, length_line line w <-> exists ds, decimal r2 ds /\ ds <> [] /\ w = dec_value ds /\ dec_fits w).
  { intros w. split.
    - intros H. destruct (SHAPE w H) as (s2' & r2' & ds & E & S2' & R2' & D). injection E as E.
      destruct (spaces_unique _ _ _ _ E S2 S2' R2 R2') as [_ ->]. eauto.
    - intros (ds & [D [tail [E T]]] & DN & W & F). exists n, s1, s2, ds, tail. split; [rewrite EL, E; easy|]. easy. }
  destruct o as [[k v]|].
  - exists (0 <? k), (Some v). split; [easy|]. split; [easy|]. intros _. split; [easy|]. intros w. rewrite SPEC.
    destruct (proj1 (E2 k v) eq_refl) as [ds [D [K [V F]]]]. split.
    + intros [X Y]. injection Y as <-. exists ds. split; [easy|]. split; [|easy].
      intros ->. apply Z.ltb_lt in X. change (zlen (@nil Z)) with 0 in K. lia.
    + intros (ds' & D' & DN' & W & F'). apply decimal_split in D, D'. destruct D as [-> _], D' as [-> _].
      split; [|congruence]. apply Z.ltb_lt. rewrite K. pose proof (zlen_nonneg (ddigits r2)).
      destruct (Z.eq_dec (zlen (ddigits r2)) 0) as [X|X]; [exfalso; apply DN'; apply zlen_0_nil; easy|lia].
  - apply FAIL. intros w H. apply SPEC in H. destruct H as (ds & D & DN & W & F).
    assert (X : @None (Z * Z) = Some (zlen ds, w)) by (apply E2; exists ds; easy). easy.
Qed.

(** ** Safety *)
Record hinv (h : hctx) : Prop := {
  hv_buf : zlen (h_buf h) = 128;
  hv_bytes : bytes (h_buf h);
  hv_llen : 0 <= h_llen h <= 128;
  hv_phase : h_phase h = 0 \/ h_phase h = 1 \/ h_phase h = 2;
  hv_body : h_phase h = 2 -> h_llen h <= 127;
  hv_recv : 0 <= h_recv h }.

Lemma put_ok l i v : 0 <= i < zlen l -> put l i v = Some (take i l ++ v :: drop (i + 1) l).
Proof.
  intros I. unfold put. rewrite splice_some by (change (zlen [v]) with 1; lia). change (zlen [v]) with 1. easy.
Qed.
Lemma put_ok2 l i v : bytes l -> is_u8 v -> 0 <= i < zlen l ->
  exists l', put l i v = Some l' /\ zlen l' = zlen l /\ bytes l' /\ get l' i = Some v.
Proof.
  intros B V I. exists (take i l ++ v :: drop (i + 1) l). split; [apply put_ok; easy|].
  split; [rewrite zlen_app, zlen_cons, zlen_take, zlen_drop; lia|].
  split; [apply bytes_app; split; [apply bytes_take; easy|constructor; [easy|apply bytes_drop; easy]]|].
  apply get_app_pre. rewrite zlen_take. lia.
Qed.

Lemma http_line_safe h len : hinv h -> h_llen h = 0 -> 0 <= len <= 126 -> h_phase h <> 2 ->
  (exists rest, h_buf h = take len (h_buf h) ++ 0 :: rest) ->
  exists f h', http_line h len = Some (f, h') /\ hinv h' /\ h_recv h' = h_recv h /\ h_llen h' = 0.
Proof.
  intros [H1 H2 H3 H4 H5 H6] L0 LL P [rest E]. unfold http_line.
  set (line := take len (h_buf h)) in *. assert (ZL : zlen line = len) by (unfold line; rewrite zlen_take; lia).
  rewrite E in H1, H2. pose proof (proj1 (proj1 (bytes_app _ _) H2)) as BL.
  pose proof (Forall_inv_tail (proj2 (proj1 (bytes_app _ _) H2))) as BR.
  rewrite E, <- ZL.
  assert (K : forall h', h_buf h' = h_buf h -> h_llen h' = h_llen h -> (h_phase h' = h_phase h \/ h_phase h' = 1 \/ h_phase h' = 2) ->
     h_recv h' = h_recv h -> hinv h').
  { intros h' A B C D. constructor; rewrite ?A, ?B, ?D, ?E; [exact H1|exact H2|lia| |lia|lia].
    destruct C as [C|[C|C]]; rewrite C; auto. }
  destruct (h_phase h =? 0).
  - destruct (parse_status_line_ok line rest H1 ltac:(lia)) as [ok [v [E1 _]]]. rewrite E1. cbn [bind].
    destruct ok, v; cbn [negb]; do 2 eexists; (split; [reflexivity|]); (split; [apply K; cbn; auto|]); cbn; auto.
  - destruct (parse_header_ok line rest BL H1 ltac:(lia) BR) as [ok [v [E1 _]]]. rewrite E1. cbn [bind].
    destruct ok, v; cbn [negb].
    all: try (do 2 eexists; (split; [reflexivity|]); (split; [apply K; cbn; auto|]); cbn; auto; fail).
    all: destruct (zlen line =? 0); cbn [negb].
    all: try (do 2 eexists; (split; [reflexivity|]); (split; [apply K; cbn; auto|]); cbn; auto; fail).
    all: match goal with |- context[if ?x then _ else _] => destruct x end.
    all: do 2 eexists; (split; [reflexivity|]); (split; [apply K; cbn; auto|]); cbn; auto.
Qed.

Lemma http_byte_safe h c ho : hinv h -> is_u8 c -> h_recv h < 2147483647 ->
  exists f h', http_byte h c ho = Some (f, h') /\ hinv h' /\ h_recv h' <= h_recv h + 1.
Proof.
  intros [H1 H2 H3 H4 H5 H6] C R. unfold http_byte.
  destruct (Z.eqb_spec (h_phase h) 2) as [P|P].
  - specialize (H5 P). destruct ho; [do 2 eexists; split; [reflexivity|]; split; [constructor; auto|lia]|].
    replace (2147483647 <=? h_recv h) with false by (symmetry; apply Z.leb_gt; lia).
    cbn [h_phase h_llen h_recv h_buf hset_recv h_clen].
    destruct (Z.ltb_spec (h_llen h) 127) as [L|L].
    + destruct (put_ok2 (h_buf h) (h_llen h) c H2 C ltac:(lia)) as [b [E [Z1 [B1 _]]]]. rewrite E. cbn [bind].
      cbn [h_phase h_llen h_recv h_buf hset_recv h_clen hset_line].
      destruct (h_recv h + 1 =? h_clen h); cbn [negb].
      * destruct (put_ok2 b (h_llen h + 1) 0 B1 ltac:(unfold is_u8; lia) ltac:(lia)) as [b2 [E2 [Z2 [B2 _]]]]. rewrite E2. cbn [bind].
        do 2 eexists. split; [reflexivity|]. split; [constructor; cbn; try easy; try lia; auto|cbn; lia].
      * do 2 eexists. split; [reflexivity|]. split; [constructor; cbn; try easy; try lia; auto|cbn; lia].
    + cbn [bind]. cbn [h_phase h_llen h_recv h_buf hset_recv h_clen hset_line].
      destruct (h_recv h + 1 =? h_clen h); cbn [negb].
      * destruct (put_ok2 (h_buf h) (h_llen h) 0 H2 ltac:(unfold is_u8; lia) ltac:(lia)) as [b2 [E2 [Z2 [B2 _]]]]. rewrite E2. cbn [bind].
        do 2 eexists. split; [reflexivity|]. split; [constructor; cbn; try easy; try lia; auto|cbn; lia].
      * do 2 eexists. split; [reflexivity|]. split; [constructor; cbn; try easy; try lia; auto|cbn; lia].
  - destruct ((128 <=? h_llen h) && negb (h_phase h =? 1)).
    { do 2 eexists. split; [reflexivity|]. split; [constructor; cbn; easy|cbn; lia]. }
    assert (K : forall n b, 0 < n <= 128 -> zlen b = 128 -> bytes b ->
      exists f h',
      (if h_llen (hset_line h n b) <? 2 then Some (false, hset_line h n b)
       else do e <- is_cr_lf (h_buf (hset_line h n b)) (h_llen (hset_line h n b) - 2);
            if negb e then Some (false, hset_line h n b)
            else do b0 <- put (h_buf (hset_line h n b)) (h_llen (hset_line h n b) - 2) 0;
                 http_line (hset_line (hset_line h n b) 0 b0) (h_llen (hset_line h n b) - 2)) = Some (f, h') /\
      hinv h' /\ h_recv h' <= h_recv h + 1).
    { intros n b N BL BB. cbn [h_llen h_buf hset_line].
      destruct (Z.ltb_spec n 2) as [N2|N2].
      { do 2 eexists. split; [reflexivity|]. split; [constructor; cbn; try easy; try lia; auto|cbn; lia]. }
      unfold is_cr_lf. destruct (get_some b (n - 2) ltac:(lia)) as [c1 E1]. destruct (get_some b (n - 2 + 1) ltac:(lia)) as [c2 E2].
      rewrite E1, E2. cbn [bind].
      assert (NO : exists f h', Some (false, hset_line h n b) = Some (f, h') /\ hinv h' /\ h_recv h' <= h_recv h + 1).
      { do 2 eexists. split; [reflexivity|]. split; [constructor; cbn; try easy; try lia; auto|cbn; lia]. }
      destruct (c1 =? 13); cbn [negb bind]; [|exact NO]. destruct (c2 =? 10); cbn [negb bind]; [|exact NO].
      rewrite put_ok by lia. cbn [bind]. set (b0 := take (n - 2) b ++ 0 :: drop (n - 2 + 1) b).
      assert (ZT : zlen (take (n - 2) b) = n - 2) by (rewrite zlen_take; lia).
      destruct (http_line_safe (hset_line (hset_line h n b) 0 b0) (n - 2)) as [f [h' [E [V [RR _]]]]]; try easy; try lia.
      - constructor; cbn; try easy; try lia.
        + unfold b0. rewrite zlen_app, zlen_cons, ZT, zlen_drop. lia.
        + unfold b0. apply bytes_app. split; [apply bytes_take; easy|]. constructor; [unfold is_u8; lia|apply bytes_drop; easy].
      - cbn. exists (drop (n - 2 + 1) b). unfold b0. rewrite take_app_exact by lia. easy.
      - exists f, h'. split; [exact E|]. split; [exact V|]. rewrite RR. cbn. lia. }
    destruct (Z.leb_spec 128 (h_llen h)) as [L|L].
    + destruct (c =? 13); [|destruct (c =? 10)].
      * destruct (put_ok2 (h_buf h) 126 c H2 C ltac:(lia)) as [b [E [Z1 [B1 _]]]]. rewrite E. cbn [bind]. apply K; [lia|lia|easy].
      * destruct (put_ok2 (h_buf h) 127 c H2 C ltac:(lia)) as [b [E [Z1 [B1 _]]]]. rewrite E. cbn [bind]. apply K; [lia|lia|easy].
      * cbn [bind]. specialize (K (h_llen h) (h_buf h) ltac:(lia) H1 H2).
        replace (hset_line h (h_llen h) (h_buf h)) with h in K by (destruct h; easy). exact K.
    + destruct (put_ok2 (h_buf h) (h_llen h) c H2 C ltac:(lia)) as [b [E [Z1 [B1 _]]]]. rewrite E. cbn [bind]. apply K; [lia|lia|easy].
Qed.

Lemma http_loop_safe data ho : bytes data -> forall h, hinv h -> h_recv h + zlen data < 2 ^ 31 ->
  exists f h', http_loop h data ho = Some (f, h') /\ hinv h'.
Proof.
  change (2 ^ 31) with 2147483648.
  induction 1 as [|c r C B IH]; intros h V L; cbn [http_loop]; [eauto|].
  rewrite zlen_cons in L. pose proof (zlen_nonneg r). destruct (http_byte_safe h c ho V C ltac:(lia)) as [f [h' [E [V' R']]]].
  rewrite E. cbn [bind]. destruct f; [eauto|]. apply IH; [destruct V'; constructor; easy|]. cbn. lia.
Qed.
Lemma hinv_init : hinv h_init.
Proof. constructor; cbn; try easy; try lia; auto. apply bytes_fill. unfold is_u8. lia. Qed.

(** ** Feeding a line *)
Lemma in_take_get (l : list Z) n i x : get l i = Some x -> i < n -> In x (take n l).
Proof.
  intros G N. pose proof (get_range _ _ _ G) as R. rewrite <- (take_drop n l) in G.
  rewrite get_app1 in G by (rewrite zlen_take; lia). apply get_in in G. easy.
Qed.

(** One character after something that is not a carriage return. *)
Lemma step_char h c ho : h_phase h <> 2 -> 0 <= h_llen h < 128 -> zlen (h_buf h) = 128 -> ~ In 13 (take (h_llen h) (h_buf h)) ->
  http_byte h c ho = Some (false, hset_line h (h_llen h + 1) (take (h_llen h) (h_buf h) ++ c :: drop (h_llen h + 1) (h_buf h))).
Proof.
  intros P L B N. unfold http_byte. replace (h_phase h =? 2) with false by (symmetry; apply Z.eqb_neq; easy).
  replace (128 <=? h_llen h) with false by (symmetry; apply Z.leb_gt; lia). cbn [andb].
  rewrite put_ok by lia. cbn [bind h_llen h_buf hset_line].
  destruct (Z.ltb_spec (h_llen h + 1) 2) as [L2|L2]; [easy|].
  unfold is_cr_lf. rewrite get_app1 by (rewrite zlen_take; lia).
  destruct (get_some (take (h_llen h) (h_buf h)) (h_llen h + 1 - 2)) as [x E]; [rewrite zlen_take; lia|].
  rewrite E. cbn [bind]. destruct (Z.eqb_spec x 13) as [X|X]; [exfalso; apply N; subst; apply get_in in E; easy|]. easy.
Qed.

Lemma feed_chars w ho : ~ In 13 w -> forall h rest, h_phase h <> 2 -> 0 <= h_llen h -> h_llen h + zlen w <= 128 ->
  zlen (h_buf h) = 128 -> ~ In 13 (take (h_llen h) (h_buf h)) ->
  http_loop h (w ++ rest) ho =
  http_loop (hset_done (hset_line h (h_llen h + zlen w)
     (take (h_llen h) (h_buf h) ++ w ++ drop (h_llen h + zlen w) (h_buf h))) (h_done h + zlen w)) rest ho.
Proof.
  induction w as [|c w IH]; intros N h rest P L LW B N13.
  - change (zlen (@nil Z)) with 0. rewrite !Z.add_0_r. cbn [app]. rewrite take_drop. f_equal. destruct h; easy.
  - rewrite zlen_cons in *. pose proof (zlen_nonneg w) as WN. cbn [app http_loop].
    rewrite step_char by (try easy; lia). cbn [bind].
    assert (ZT : zlen (take (h_llen h) (h_buf h)) = h_llen h) by (rewrite zlen_take; lia).
    assert (TK : take (h_llen h + 1) (take (h_llen h) (h_buf h) ++ c :: drop (h_llen h + 1) (h_buf h)) = take (h_llen h) (h_buf h) ++ [c]).
    { rewrite take_app_ge by lia. rewrite ZT. replace (h_llen h + 1 - h_llen h) with 1 by lia. easy. }
    rewrite IH; cbn [h_phase h_llen h_buf h_done hset_line hset_done]; try easy; try lia.
    + rewrite TK. f_equal. unfold hset_done, hset_line. cbn. f_equal; [lia|lia|].
      rewrite <- app_assoc. cbn [app]. do 3 f_equal.
      rewrite drop_app_ge by lia. rewrite ZT.
      replace (h_llen h + 1 + zlen w - h_llen h) with (zlen w + 1) by lia.
      rewrite <- (drop_drop (zlen w) 1 (c :: _)) by lia.
      change (drop 1 (c :: drop (h_llen h + 1) (h_buf h))) with (drop (h_llen h + 1) (h_buf h)).
      rewrite drop_drop by lia. f_equal. lia.
    + intros X. apply N. right. easy.
    + rewrite zlen_app, zlen_cons, ZT, zlen_drop. lia.
    + rewrite TK. intros X. apply in_app_or in X. destruct X as [X|[X|[]]]; [easy|]. apply N. left. easy.
Qed.

Definition after_line (h : hctx) (buf : list Z) (len n : Z) (rest : list Z) (ho : bool) : option (bool * hctx) :=
  match http_line (hset_line (hset_done h (h_done h + n)) 0 buf) len with
  | None => None
  | Some (true, h') => Some (true, h')
  | Some (false, h') => http_loop (hset_done h' (h_done h' + 1)) rest ho
  end.

Lemma feed_line h line rest ho : h_phase h <> 2 -> h_llen h = 0 -> zlen (h_buf h) = 128 -> no_crlf line -> zlen line <= 126 ->
  http_loop h (line ++ crlf ++ rest) ho =
  after_line h (line ++ 0 :: 10 :: drop (zlen line + 2) (h_buf h)) (zlen line) (zlen line + 1) rest ho.
Proof.
  intros P L B [N13 N10] LL. pose proof (zlen_nonneg line) as LN.
  rewrite feed_chars; rewrite ?L; try easy; try lia.
  rewrite take_0, Z.add_0_l. cbn [app]. set (h1 := hset_done (hset_line h (zlen line) (line ++ drop (zlen line) (h_buf h))) (h_done h + zlen line)).
  change (crlf ++ rest) with (13 :: 10 :: rest). cbn [http_loop].
  assert (TK : take (zlen line) (line ++ drop (zlen line) (h_buf h)) = line) by (apply take_app_exact; easy).
  assert (DK : drop (zlen line + 1) (line ++ drop (zlen line) (h_buf h)) = drop (zlen line + 1) (h_buf h)).
  { rewrite drop_app_ge by lia. rewrite drop_drop by lia. f_equal. lia. }
  assert (ZB : zlen (line ++ drop (zlen line) (h_buf h)) = 128) by (rewrite zlen_app, zlen_drop; lia).
  rewrite step_char; unfold h1; cbn [h_phase h_llen h_buf hset_line hset_done]; try easy; [|lia|rewrite TK; easy].
  cbn [bind]. rewrite TK, DK.
  unfold http_byte. cbn [h_phase h_llen h_buf hset_line hset_done h_done].
  replace (h_phase h =? 2) with false by (symmetry; apply Z.eqb_neq; easy).
  replace (128 <=? zlen line + 1) with false by (symmetry; apply Z.leb_gt; lia). cbn [andb].
  assert (PT : put (line ++ 13 :: drop (zlen line + 1) (h_buf h)) (zlen line + 1) 10 = Some (line ++ 13 :: 10 :: drop (zlen line + 2) (h_buf h))).
  { rewrite put_ok by (rewrite zlen_app, zlen_cons, zlen_drop; lia). f_equal.
    rewrite take_app_ge by lia. rewrite <- app_assoc. f_equal. replace (zlen line + 1 - zlen line) with 1 by lia. cbn [app]. change (take 1 (13 :: drop (zlen line + 1) (h_buf h))) with [13].
    cbn [app]. do 2 f_equal. rewrite drop_app_ge by lia. replace (zlen line + 1 + 1 - zlen line) with (1 + 1) by lia.
    rewrite <- drop_drop by lia. change (drop 1 (13 :: drop (zlen line + 1) (h_buf h))) with (drop (zlen line + 1) (h_buf h)).
    rewrite drop_drop by lia. f_equal. lia. }
  rewrite PT. cbn [bind h_llen h_buf hset_line].
  replace (zlen line + 1 + 1 <? 2) with false by (symmetry; apply Z.ltb_ge; lia).
  replace (zlen line + 1 + 1 - 2) with (zlen line) by lia.
  unfold is_cr_lf. rewrite (get_app_pre line 13 _ (zlen line) eq_refl). cbn [bind negb].
  change (13 =? 13) with true. cbn [negb].
  assert (G2 : get (line ++ 13 :: 10 :: drop (zlen line + 2) (h_buf h)) (zlen line + 1) = Some 10).
  { change (line ++ 13 :: 10 :: drop (zlen line + 2) (h_buf h)) with (line ++ [13] ++ 10 :: drop (zlen line + 2) (h_buf h)).
    rewrite app_assoc. apply get_app_pre. rewrite zlen_app. easy. }
  rewrite G2. cbn [bind]. change (10 =? 10) with true. cbn [negb].
  rewrite put_app_pre by easy. cbn [bind]. unfold after_line.
  replace (h_done h + (zlen line + 1)) with (h_done h + zlen line + 1) by lia.
  unfold hset_line, hset_done. cbn. destruct (http_line _ _) as [[[|] h']|]; easy.
Qed.

(** Characters of a header line past the buffer are dropped. *)
Lemma feed_dropped w ho : ~ In 13 w -> ~ In 10 w -> forall h rest, h_phase h = 1 -> h_llen h = 128 ->
  zlen (h_buf h) = 128 -> ~ In 13 (h_buf h) ->
  http_loop h (w ++ rest) ho = http_loop (hset_done h (h_done h + zlen w)) rest ho.
Proof.
  induction w as [|c w IH]; intros N13 N10 h rest P L B NB.
  - change (zlen (@nil Z)) with 0. rewrite Z.add_0_r, hset_done_id. easy.
  - cbn [app http_loop]. unfold http_byte. rewrite P, L. change (1 =? 2) with false. change (128 <=? 128) with true.
    change (1 =? 1) with true. cbn [negb andb].
    destruct (Z.eqb_spec c 13) as [->|C13]; [exfalso; apply N13; left; easy|].
    destruct (Z.eqb_spec c 10) as [->|C10]; [exfalso; apply N10; left; easy|].
    cbn [bind]. rewrite L. change (128 <? 2) with false. change (128 - 2) with 126. unfold is_cr_lf.
    destruct (get_some (h_buf h) 126 ltac:(lia)) as [x E]. rewrite E. cbn [bind].
    destruct (Z.eqb_spec x 13) as [X|X]; [exfalso; apply NB; subst; apply get_in in E; easy|]. cbn [negb bind].
    rewrite IH; cbn [h_phase h_llen h_buf hset_done h_done]; try easy.
    + rewrite hset_done_done. do 2 f_equal. rewrite zlen_cons. lia.
    + intros I. apply N13. right. easy.
    + intros I. apply N10. right. easy.
Qed.

Lemma step_full_cr h t x y ho : h_phase h = 1 -> h_llen h = 128 -> zlen t = 126 -> h_buf h = t ++ [x; y] -> y <> 10 ->
  http_byte h 13 ho = Some (false, hset_line h 128 (t ++ [13; y])).
Proof.
  intros P L ZT EB YN. unfold http_byte. rewrite P, L, EB.
  change (1 =? 2) with false. change (128 <=? 128) with true. change (1 =? 1) with true. cbn [negb andb].
  change (13 =? 13) with true. rewrite put_app_pre by easy. cbn [bind h_llen h_buf hset_line].
  change (128 <? 2) with false. change (128 - 2) with 126. unfold is_cr_lf.
  rewrite (get_app_pre t 13 [y] 126 ZT). cbn [bind]. change (13 =? 13) with true. cbn [negb].
  assert (G : get (t ++ [13; y]) (126 + 1) = Some y).
  { change (t ++ [13; y]) with (t ++ [13] ++ [y]). rewrite app_assoc. apply get_app_pre. rewrite zlen_app, ZT. easy. }
  rewrite G. cbn [bind]. replace (y =? 10) with false by (symmetry; apply Z.eqb_neq; easy). reflexivity.
Qed.
Lemma step_full_lf h t y ho : h_phase h = 1 -> h_llen h = 128 -> zlen t = 126 -> h_buf h = t ++ [13; y] ->
  http_byte h 10 ho = http_line (hset_line h 0 (t ++ [0; 10])) 126.
Proof.
  intros P L ZT EB. unfold http_byte. rewrite P, L, EB.
  change (1 =? 2) with false. change (128 <=? 128) with true. change (1 =? 1) with true. cbn [negb andb].
  change (10 =? 13) with false. change (10 =? 10) with true.
  assert (PT : put (t ++ [13; y]) 127 10 = Some (t ++ [13; 10])).
  { change (t ++ [13; y]) with (t ++ [13] ++ [y]). change (t ++ [13; 10]) with (t ++ [13] ++ [10]). rewrite !app_assoc. apply put_app_pre. rewrite zlen_app, ZT. easy. }
  rewrite PT. cbn [bind h_llen h_buf hset_line].
  change (128 <? 2) with false. change (128 - 2) with 126. unfold is_cr_lf.
  rewrite (get_app_pre t 13 [10] 126 ZT). cbn [bind]. change (13 =? 13) with true. cbn [negb].
  assert (G2 : get (t ++ [13; 10]) (126 + 1) = Some 10).
  { change (t ++ [13; 10]) with (t ++ [13] ++ [10]). rewrite app_assoc. apply get_app_pre. rewrite zlen_app, ZT. easy. }
  rewrite G2. cbn [bind]. change (10 =? 10) with true. cbn [negb].
  rewrite put_app_pre by easy. reflexivity.
Qed.
Lemma feed_long_line h line rest ho : h_phase h = 1 -> h_llen h = 0 -> zlen (h_buf h) = 128 -> no_crlf line -> 128 <= zlen line ->
  http_loop h (line ++ crlf ++ rest) ho = after_line h (take 126 line ++ [0; 10]) 126 (zlen line + 1) rest ho.
Proof.
  intros P L B [N13 N10] LL.
  rewrite <- (take_drop 128 line) at 1. rewrite <- app_assoc.
  set (a := take 128 line). set (b := drop 128 line).
  assert (NA : ~ In 13 a /\ ~ In 10 a /\ ~ In 13 b /\ ~ In 10 b).
  { rewrite <- (take_drop 128 line) in N13, N10. fold a b in N13, N10. rewrite in_app_iff in N13, N10. tauto. }
  destruct NA as (A13 & A10 & B13 & B10).
  assert (ZA : zlen a = 128) by (unfold a; rewrite zlen_take; lia).
  rewrite feed_chars; rewrite ?L; try easy; try lia; try (rewrite P; easy).
  rewrite take_0, Z.add_0_l, ZA. cbn [app]. rewrite (drop_all 128 (h_buf h)) by lia. rewrite app_nil_r.
  rewrite feed_dropped; try easy.
  cbn [h_done hset_done]. change (crlf ++ rest) with (13 :: 10 :: rest). cbn [http_loop].
  assert (EA : exists x y, a = take 126 line ++ [x; y] /\ y <> 10).
  { assert (TA : take 126 line = take 126 a) by (unfold a; rewrite take_take; easy). rewrite TA.
    assert (D : exists x y, drop 126 a = [x; y]).
    { pose proof (zlen_drop 126 a) as X. rewrite ZA in X. destruct (drop 126 a) as [|x [|y [|z t]]]; rewrite ?zlen_cons in X; try (exfalso; change (zlen (@nil Z)) with 0 in X; lia).
      - eauto.
      - exfalso. pose proof (zlen_nonneg t). lia. }
    destruct D as [x [y D]]. exists x, y. split; [rewrite <- D; symmetry; apply take_drop|].
    intros ->. apply A10. rewrite <- (take_drop 126 a), D. apply in_or_app. right. right. left. easy. }
  destruct EA as [x [y [EA YN]]]. assert (ZT : zlen (take 126 line) = 126) by (rewrite zlen_take; lia).
  set (t := take 126 line) in *.
  assert (ZL : zlen line = 128 + zlen b) by (unfold b; rewrite zlen_drop; lia). clearbody t b.
  rewrite EA, (step_full_cr _ t x y) by easy. cbn [bind].
  rewrite (step_full_lf _ t y) by easy. unfold after_line.
  replace (h_done h + (zlen line + 1)) with (h_done h + 128 + zlen b + 1) by lia.
  match goal with |- context[http_line ?g 126] => change g with (hset_line (hset_done h (h_done h + 128 + zlen b + 1)) 0 (t ++ [0; 10])) end.
  destruct (http_line _ _) as [[[|] h']|]; reflexivity.
Qed.

(** A status line that does not fit *)
Lemma feed_long_status h line rest ho : h_phase h = 0 -> h_llen h = 0 -> zlen (h_buf h) = 128 -> no_crlf line -> 127 <= zlen line ->
  exists h', http_loop h (line ++ crlf ++ rest) ho = Some (true, h') /\ h_err h' = 3 /\ h_status h' = h_status h /\ h_done h' = h_done h + 128.
Proof.
  intros P L B [N13 N10] LL.
  assert (K : forall h c r, h_phase h = 0 -> h_llen h = 128 -> http_loop h (c :: r) ho = Some (true, hset_err h 3)).
  { intros g c r P' L'. cbn [http_loop]. unfold http_byte. rewrite P', L'. reflexivity. }
  destruct (Z.eq_dec (zlen line) 127) as [E|E].
  - rewrite feed_chars; rewrite ?L; try easy; try lia; try (rewrite P; easy).
    rewrite take_0, Z.add_0_l, E. cbn [app]. change (crlf ++ rest) with (13 :: 10 :: rest).
    cbn [http_loop]. rewrite step_char; cbn [h_phase h_llen h_buf hset_line hset_done]; [| rewrite P; easy|lia|rewrite zlen_app, zlen_drop; lia|rewrite take_app_exact by easy; easy].
    cbn [bind]. fold (http_loop).
    match goal with |- context[http_byte ?g 10 ho] => pose proof (K g 10 rest ltac:(easy) ltac:(easy)) as X end.
    cbn [http_loop] in X. rewrite X. eexists. split; [reflexivity|]. cbn. split; [easy|]. split; [easy|lia].
  - replace (line ++ crlf ++ rest) with (take 128 line ++ drop 128 line ++ crlf ++ rest) by (rewrite app_assoc, take_drop; easy).
    assert (ZA : zlen (take 128 line) = 128) by (rewrite zlen_take; lia).
    rewrite feed_chars; rewrite ?L; try easy; try lia; try (rewrite P; easy).
    2:{ intros I. apply N13. rewrite <- (take_drop 128 line). apply in_or_app. left. easy. }
    rewrite take_0, Z.add_0_l, ZA.
    assert (NE : exists c r, drop 128 line ++ crlf ++ rest = c :: r) by (destruct (drop 128 line); cbn; eauto).
    destruct NE as [c [r ->]]. rewrite K by easy. eexists. split; [reflexivity|]. cbn. easy.
Qed.

(** ** Responses *)
Record hst (h : hctx) (st ph cl dn : Z) : Prop := {
  hs_buf : zlen (h_buf h) = 128; hs_bytes : bytes (h_buf h); hs_llen : h_llen h = 0;
  hs_phase : h_phase h = ph; hs_status : h_status h = st; hs_clen : h_clen h = cl; hs_done : h_done h = dn;
  hs_err : h_err h = 0; hs_body : h_body h = None; hs_recv : h_recv h = 0 }.

Lemma line_buf line buf : bytes line -> bytes buf -> zlen buf = 128 -> zlen line <= 126 ->
  zlen (line ++ 0 :: 10 :: drop (zlen line + 2) buf) = 128 /\ bytes (line ++ 0 :: 10 :: drop (zlen line + 2) buf).
Proof.
  intros BL BB B L. pose proof (zlen_nonneg line). split.
  - rewrite zlen_app, !zlen_cons, zlen_drop. lia.
  - apply bytes_app. split; [easy|]. constructor; [unfold is_u8; lia|]. constructor; [unfold is_u8; lia|apply bytes_drop; easy].
Qed.

Lemma status_fed h sl code dn rest ho st0 cl0 : bytes sl -> no_crlf sl -> zlen sl <= 126 -> status_line sl code -> hst h st0 0 cl0 dn ->
  exists h', http_loop h (sl ++ crlf ++ rest) ho = http_loop h' rest ho /\ hst h' code 1 cl0 (dn + zlen (sl ++ crlf)).
Proof.
  intros BS NS LS S [H1 H2 H3 H4 H5 H6 H7 H8 H9 H10]. rewrite feed_line by (try easy; rewrite H4; easy).
  destruct (line_buf sl (h_buf h) BS H2 H1 LS) as [LB BB].
  destruct (parse_status_line_ok sl (10 :: drop (zlen sl + 2) (h_buf h)) LB LS) as [ok [v [E [_ SP]]]].
  destruct (proj2 (SP code) S) as [-> ->].
  unfold after_line, http_line. cbn [h_phase h_buf hset_line hset_done]. rewrite H4. change (0 =? 0) with true. cbn iota.
  rewrite E. cbn [bind negb]. eexists. split; [reflexivity|].
  constructor; cbn; try easy. rewrite zlen_app. change (zlen crlf) with 2. lia.
Qed.

Lemma status_bad h sl dn rest ho st0 cl0 : bytes sl -> no_crlf sl -> zlen sl <= 126 -> (forall code, ~ status_line sl code) -> hst h st0 0 cl0 dn ->
  exists h', http_loop h (sl ++ crlf ++ rest) ho = Some (true, h') /\ h_err h' = 1 /\ h_done h' = dn + zlen sl + 1 /\ h_body h' = None.
Proof.
  intros BS NS LS S [H1 H2 H3 H4 H5 H6 H7 H8 H9 H10]. rewrite feed_line by (try easy; rewrite H4; easy).
  destruct (line_buf sl (h_buf h) BS H2 H1 LS) as [LB BB].
  destruct (parse_status_line_ok sl (10 :: drop (zlen sl + 2) (h_buf h)) LB LS) as [ok [v [E [NV SP]]]].
  unfold after_line, http_line. cbn [h_phase h_buf hset_line hset_done]. rewrite H4. change (0 =? 0) with true. cbn iota.
  rewrite E. cbn [bind]. destruct ok; [exfalso; destruct v as [v|]; [apply (S v); apply SP; easy|apply NV; easy]|].
  cbn [negb]. eexists. split; [reflexivity|]. destruct v; cbn; (split; [easy|]); split; (lia || easy).
Qed.

Lemma header_fed h line ok v st cl dn rest ho : no_crlf line -> bytes line -> line <> [] -> hst h st 1 cl dn ->
  (exists b len, (zlen line <= 126 /\ b = line ++ 0 :: 10 :: drop (zlen line + 2) (h_buf h) /\ len = zlen line \/
                  128 <= zlen line /\ b = take 126 line ++ [0; 10] /\ len = 126) /\
                 parse_header b len = Some (ok, v)) ->
  if ok then
    exists h', http_loop h (line ++ crlf ++ rest) ho = http_loop h' rest ho /\
      hst h' st 1 (match v with Some w => w | None => cl end) (dn + zlen (line ++ crlf))
  else exists h', http_loop h (line ++ crlf ++ rest) ho = Some (true, h') /\ h_err h' = 2 /\ h_status h' = st /\ h_body h' = None /\ h_done h' = dn + zlen line + 1.
Proof.
  intros NC BL NE [H1 H2 H3 H4 H5 H6 H7 H8 H9 H10] (b & len & CASES & E).
  assert (LPOS : 0 < zlen line).
  { pose proof (zlen_nonneg line). destruct (Z.eq_dec (zlen line) 0) as [X|X]; [apply zlen_0_nil in X; easy|lia]. }
  assert (FED : http_loop h (line ++ crlf ++ rest) ho = after_line h b len (zlen line + 1) rest ho /\ zlen b = 128 /\ bytes b /\ len <> 0).
  { destruct CASES as [(L & -> & ->)|(L & -> & ->)].
    - split; [apply feed_line; try easy; rewrite H4; easy|]. destruct (line_buf line (h_buf h) BL H2 H1 L). split; [easy|]. split; [easy|lia].
    - split; [apply feed_long_line; easy|]. split; [rewrite zlen_app, zlen_take; change (zlen [0; 10]) with 2; lia|].
      split; [apply bytes_app; split; [apply bytes_take; easy|constructor; [unfold is_u8; lia|constructor; [unfold is_u8; lia|constructor]]]|lia]. }
  destruct FED as (FED & ZB & BB & LN). rewrite FED. clear CASES FED.
  unfold after_line, http_line. cbn [h_phase h_buf hset_line hset_done]. rewrite H4. change (1 =? 0) with false. cbn iota.
  rewrite E. cbn [bind].
  destruct ok; cbn [negb].
  - replace (len =? 0) with false by (symmetry; apply Z.eqb_neq; easy). cbn [negb]. eexists. split; [reflexivity|].
    destruct v; constructor; cbn; try easy; rewrite zlen_app; change (zlen crlf) with 2; lia.
  - eexists. split; [reflexivity|]. destruct v; cbn; (split; [easy|]); (split; [easy|]); (split; [easy|]); lia.
Qed.

Lemma names_length_take line : 128 <= zlen line -> names_length (take 126 line) <-> names_length line.
Proof.
  intros L. split.
  - intros (n & r & E & S). exists n, (r ++ drop 126 line). rewrite app_assoc, <- E, take_drop. easy.
  - intros (n & r & E & S). pose proof (same_text_length _ _ S) as X.
    assert (N : zlen n = 14) by (unfold zlen; rewrite X; easy).
    exists n, (take 112 r). split; [|easy]. rewrite E, take_app_ge by lia. rewrite N. easy.
Qed.

Lemma headers_fed hs v v' : headers hs v v' -> Forall bytes hs -> forall h st dn rest ho, hst h st 1 v dn ->
  exists h', http_loop h (lines hs ++ rest) ho = http_loop h' rest ho /\ hst h' st 1 v' (dn + zlen (lines hs)).
Proof.
  induction 1 as [v|l hs v v' NC NE N127 NN HS IH|l hs v w v' NC L HL HS IH]; intros BS h st dn rest ho ST.
  - exists h. change (zlen (lines [])) with 0. rewrite Z.add_0_r. easy.
  - inv BS. unfold lines. cbn [map concat]. fold (lines hs). rewrite <- !app_assoc.
    assert (X : exists b len, (zlen l <= 126 /\ b = l ++ 0 :: 10 :: drop (zlen l + 2) (h_buf h) /\ len = zlen l \/
                  128 <= zlen l /\ b = take 126 l ++ [0; 10] /\ len = 126) /\ parse_header b len = Some (true, None)).
    { destruct (Z.leb_spec (zlen l) 126) as [LE|GT].
      - do 2 eexists. split; [left; split; [easy|split; reflexivity]|].
        destruct (line_buf l (h_buf h) H1 (hs_bytes _ _ _ _ _ ST) (hs_buf _ _ _ _ _ ST) LE) as [LB BB].
        destruct (parse_header_ok l (10 :: drop (zlen l + 2) (h_buf h)) H1 LB LE) as [ok [o [E [A _]]]].
        { constructor; [unfold is_u8; lia|apply bytes_drop; apply (hs_bytes _ _ _ _ _ ST)]. }
        destruct (A NN) as [-> ->]. exact E.
      - do 2 eexists. split; [right; split; [lia|split; reflexivity]|].
        assert (ZT : zlen (take 126 l) = 126) by (rewrite zlen_take; lia).
        destruct (parse_header_ok (take 126 l) [10]) as [ok [o [E [A _]]]].
        + apply bytes_take. easy.
        + rewrite zlen_app, ZT. easy.
        + lia.
        + constructor; [unfold is_u8; lia|constructor].
        + rewrite ZT in E. destruct A as [-> ->]; [|exact E]. rewrite names_length_take by lia. easy. }
    destruct (header_fed h l true None st v dn (lines hs ++ rest) ho NC H1 NE ST X) as [h1 [E1 S1]]. cbn iota in S1.
    destruct (IH H2 h1 st _ rest ho S1) as [h2 [E2 S2]]. exists h2. rewrite E1, E2. split; [easy|].
    rewrite !zlen_app in *. rewrite <- Z.add_assoc in S2. rewrite Z.add_assoc. rewrite <- !Z.add_assoc in *. exact S2.
  - inv BS. unfold lines. cbn [map concat]. fold (lines hs). rewrite <- !app_assoc.
    assert (NE : l <> []).
    { destruct HL as (n & s1 & s2 & ds & tail & -> & S & _). intros X. destruct n; [inv S|easy]. }
    assert (NL : names_length l).
    { destruct HL as (n & s1 & s2 & ds & tail & -> & S & _). exists n. eauto. }
    assert (X : exists b len, (zlen l <= 126 /\ b = l ++ 0 :: 10 :: drop (zlen l + 2) (h_buf h) /\ len = zlen l \/
                  128 <= zlen l /\ b = take 126 l ++ [0; 10] /\ len = 126) /\ parse_header b len = Some (true, Some w)).
    { do 2 eexists. split; [left; split; [easy|split; reflexivity]|].
      destruct (line_buf l (h_buf h) H1 (hs_bytes _ _ _ _ _ ST) (hs_buf _ _ _ _ _ ST) L) as [LB BB].
      destruct (parse_header_ok l (10 :: drop (zlen l + 2) (h_buf h)) H1 LB L) as [ok [o [E [_ A]]]].
      { constructor; [unfold is_u8; lia|apply bytes_drop; apply (hs_bytes _ _ _ _ _ ST)]. }
      destruct (A NL) as [_ A2]. destruct (proj2 (A2 w) HL) as [-> ->]. exact E. }
    destruct (header_fed h l true (Some w) st v dn (lines hs ++ rest) ho NC H1 NE ST X) as [h1 [E1 S1]]. cbn iota in S1.
    destruct (IH H2 h1 st _ rest ho S1) as [h2 [E2 S2]]. exists h2. rewrite E1, E2. split; [easy|].
    rewrite !zlen_app in *. rewrite <- !Z.add_assoc in *. exact S2.
Qed.

Lemma header_bad h l st cl dn rest ho : no_crlf l -> bytes l -> zlen l <= 126 -> names_length l -> (forall w, ~ length_line l w) -> hst h st 1 cl dn ->
  exists h', http_loop h (l ++ crlf ++ rest) ho = Some (true, h') /\ h_err h' = 2 /\ h_status h' = st /\ h_body h' = None /\ h_done h' = dn + zlen l + 1.
Proof.
  intros NC BL L NL NN ST.
  destruct (line_buf l (h_buf h) BL (hs_bytes _ _ _ _ _ ST) (hs_buf _ _ _ _ _ ST) L) as [LB BB].
  destruct (parse_header_ok l (10 :: drop (zlen l + 2) (h_buf h)) BL LB L) as [ok [o [E [_ A]]]].
  { constructor; [unfold is_u8; lia|apply bytes_drop; apply (hs_bytes _ _ _ _ _ ST)]. }
  destruct (A NL) as [NV A2].
  destruct ok; [exfalso; destruct o as [w|]; [apply (NN w); apply A2; easy|apply NV; easy]|].
  apply (header_fed h l false o st cl dn rest ho); try easy.
  - destruct NL as (n & r & -> & S). destruct n; [inv S|easy].
  - do 2 eexists. split; [left; split; [easy|split; reflexivity]|exact E].
Qed.

Lemma blank_fed h st cl dn rest ho : hst h st 1 cl dn ->
  if cl =? 0 then exists h', http_loop h (crlf ++ rest) ho = Some (true, h') /\ hst h' st 1 0 (dn + 1)
  else exists h', http_loop h (crlf ++ rest) ho = http_loop h' rest ho /\ hst h' st 2 cl (dn + 2).
Proof.
  intros ST. pose proof ST as [H1 H2 H3 H4 H5 H6 H7 H8 H9 H10].
  pose proof (feed_line h [] rest ho) as F. cbn [app] in F.
  rewrite F; try easy; [|rewrite H4; easy]. change (zlen (@nil Z)) with 0. change (0 + 2) with 2. change (0 + 1) with 1.
  destruct (line_buf [] (h_buf h)) as [LB BB]; try easy; [constructor|]. change (zlen (@nil Z)) with 0 in LB, BB. change (0 + 2) with 2 in LB, BB. cbn [app] in LB, BB.
  unfold after_line, http_line. cbn [h_phase h_buf hset_line hset_done]. rewrite H4. change (1 =? 0) with false. cbn iota.
  unfold parse_header. change (0 <? 14) with true. cbn [bind negb]. change (0 =? 0) with true. cbn [negb h_clen hset_line hset_done]. rewrite H6.
  destruct (Z.eqb_spec cl 0) as [C|C].
  - eexists. split; [reflexivity|]. constructor; cbn; try easy; lia.
  - eexists. split; [reflexivity|]. constructor; cbn; try easy; lia.
Qed.

(** The body *)
Lemma body_fed b : b <> [] -> forall h got rest, bytes b -> zlen (h_buf h) = 128 -> h_phase h = 2 -> h_recv h = zlen got ->
  h_llen h = Z.min 127 (zlen got) -> take (h_llen h) (h_buf h) = take 127 got -> zlen got + zlen b = h_clen h -> h_clen h < 2147483648 ->
  exists h', http_loop h (b ++ rest) false = Some (true, h') /\ h_err h' = h_err h /\ h_status h' = h_status h /\ h_clen h' = h_clen h /\
    h_body h' = Some (take 127 (got ++ b)) /\ h_done h' = h_done h + zlen b.
Proof.
  induction b as [|c b IH]; [easy|]. intros _ h got rest B HB P R L T C CM.
  rewrite zlen_cons in C. pose proof (zlen_nonneg b) as BN. pose proof (zlen_nonneg got) as GN.
  cbn [app http_loop]. unfold http_byte. rewrite P. change (2 =? 2) with true. cbn iota.
  replace (2147483647 <=? h_recv h) with false by (symmetry; apply Z.leb_gt; lia).
  cbn [h_phase h_llen h_recv h_buf hset_recv h_clen].
  (* store the byte if there is room *)
  assert (STORE : exists bf n, (if h_llen h <? 127 then
        do b0 <- put (h_buf h) (h_llen h) c; Some (hset_line (hset_recv h (h_recv h + 1)) (h_llen h + 1) b0)
        else Some (hset_recv h (h_recv h + 1))) = Some (hset_line (hset_recv h (h_recv h + 1)) n bf) /\
      zlen bf = 128 /\ n = Z.min 127 (zlen got + 1) /\ take n bf = take 127 (got ++ [c])).
  { destruct (Z.ltb_spec (h_llen h) 127) as [LT|GE].
    - rewrite put_ok by lia. cbn [bind]. do 2 eexists. split; [reflexivity|].
      assert (ZT : zlen (take (h_llen h) (h_buf h)) = h_llen h) by (rewrite zlen_take; lia).
      split; [rewrite zlen_app, zlen_cons, ZT, zlen_drop; lia|]. split; [lia|].
      rewrite take_app_ge by lia. rewrite ZT. replace (h_llen h + 1 - h_llen h) with 1 by lia. change (take 1 (c :: drop (h_llen h + 1) (h_buf h))) with [c].
      rewrite T. rewrite (take_all 127 got) by lia. rewrite take_all; [easy|]. rewrite zlen_app. change (zlen [c]) with 1. lia.
    - exists (h_buf h), (h_llen h). split; [destruct h; easy|]. split; [easy|]. split; [lia|].
      rewrite T. symmetry. apply take_app_le. lia. }
  destruct STORE as [bf [n [E [ZB [EN TN]]]]]. rewrite E. cbn [bind].
  cbn [h_phase h_llen h_recv h_buf hset_recv hset_line h_clen].
  destruct (Z.eqb_spec (h_recv h + 1) (h_clen h)) as [D|D]; cbn [negb].
  - assert (b = []) by (apply zlen_0_nil; lia). subst b.
    rewrite put_ok by lia. cbn [bind]. eexists. split; [reflexivity|]. cbn.
    split; [easy|]. split; [easy|]. split; [easy|]. split; [|reflexivity]. f_equal.
    rewrite take_app_exact by (rewrite zlen_take; lia). exact TN.
  - destruct b as [|c2 b]; [exfalso; change (zlen (@nil Z)) with 0 in *; lia|].
    pose proof (Forall_inv_tail B) as B'. destruct (IH ltac:(easy) (hset_done (hset_line (hset_recv h (h_recv h + 1)) n bf) (h_done (hset_line (hset_recv h (h_recv h + 1)) n bf) + 1)) (got ++ [c]) rest) as [h' [E1 [E2 [E3 [E4 [E5 E6]]]]]];
      cbn [h_phase h_llen h_recv h_buf hset_recv hset_line h_clen hset_done h_done]; rewrite ?zlen_app; change (zlen [c]) with 1; try easy; try lia.
    exists h'. split; [exact E1|]. split; [exact E2|]. split; [exact E3|]. split; [exact E4|]. split.
    + rewrite E5. rewrite <- app_assoc. easy.
    + rewrite E6. cbn. rewrite (zlen_cons c). lia.
Qed.

Lemma dec_value_bound ds : digits ds -> dec_fits (dec_value ds) -> 0 <= dec_value ds < 2147483648.
Proof.
  intros D F. unfold dec_fits in F. pose proof (dfold_ge ds 0 D ltac:(lia)) as G. unfold dfold in G. fold (dec_value ds) in G.
  pose proof (Z.mod_pos_bound (dec_value ds) 10 ltac:(lia)). pose proof (Z.div_mod (dec_value ds) 10 ltac:(lia)).
  pose proof (Z.div_pos (dec_value ds) 10 ltac:(lia) ltac:(lia)). lia.
Qed.
Lemma headers_bound hs v v' : headers hs v v' -> 0 <= v < 2147483648 -> 0 <= v' < 2147483648.
Proof.
  induction 1 as [v|l hs v v' NC NE N127 NN HS IH|l hs v w v' NC L HL HS IH]; intros B; [easy|auto|].
  apply IH. destruct HL as (n & s1 & s2 & ds & tail & E & S & S1 & S2 & DN & D & T & W & F). subst w. apply dec_value_bound; easy.
Qed.

Lemma hst_init : hst (hset_done h_init 0) 0 0 0 0.
Proof. constructor; try easy. apply bytes_fill. unfold is_u8. lia. Qed.
Lemma lines_bytes hs : bytes (lines hs) -> Forall bytes hs.
Proof.
  induction hs as [|l hs IH]; [constructor|]. unfold lines. cbn [map concat]. fold (lines hs). intros B.
  apply bytes_app in B. destruct B as [B1 B2]. apply bytes_app in B1. constructor; [easy|auto].
Qed.

Lemma head_fed hd code clen rest ho : bytes hd -> response_head hd code clen ->
  0 <= clen < 2147483648 /\
  if clen =? 0 then exists h', parse_http h_init (hd ++ rest) ho = Some (true, h') /\ hst h' code 1 0 (zlen hd - 1)
  else exists h', parse_http h_init (hd ++ rest) ho = http_loop h' rest ho /\ hst h' code 2 clen (zlen hd).
Proof.
  intros B (sl & hs & -> & NS & LS & SL & HS). split; [apply (headers_bound _ _ _ HS); lia|].
  apply bytes_app in B. destruct B as [BS B]. apply bytes_app in B. destruct B as [_ B]. apply bytes_app in B. destruct B as [BH _].
  unfold parse_http. rewrite <- !app_assoc.
  destruct (status_fed _ sl code 0 (lines hs ++ crlf ++ rest) ho 0 0 BS NS LS SL hst_init) as [h1 [E1 S1]].
  destruct (headers_fed hs 0 clen HS (lines_bytes _ BH) h1 code _ (crlf ++ rest) ho S1) as [h2 [E2 S2]].
  pose proof (blank_fed h2 code clen _ rest ho S2) as X. rewrite E1, E2.
  assert (LEN : zlen (sl ++ crlf ++ lines hs ++ crlf) = 0 + zlen (sl ++ crlf) + zlen (lines hs) + 2)
    by (rewrite !zlen_app; change (zlen crlf) with 2; lia).
  destruct (clen =? 0).
  - destruct X as [h3 [E3 S3]]. exists h3. split; [exact E3|]. rewrite LEN. replace (0 + zlen (sl ++ crlf) + zlen (lines hs) + 2 - 1) with (0 + zlen (sl ++ crlf) + zlen (lines hs) + 1) by lia. exact S3.
  - destruct X as [h3 [E3 S3]]. exists h3. split; [exact E3|]. rewrite LEN. exact S3.
Qed.

Lemma response_ok hd code clen body extra : bytes hd -> bytes body -> response_head hd code clen -> zlen body = clen ->
  exists h, parse_http h_init (hd ++ body ++ extra) false = Some (true, h) /\
    h_err h = 0 /\ h_status h = code /\ h_clen h = clen /\
    h_body h = (if clen =? 0 then None else Some (take 127 body)) /\
    h_done h = zlen (hd ++ body) - (if clen =? 0 then 1 else 0).
Proof.
  intros BH BB HD CL. destruct (head_fed hd code clen (body ++ extra) false BH HD) as [CB X].
  destruct (Z.eqb_spec clen 0) as [C|C].
  - destruct X as [h [E [H1 H2 H3 H4 H5 H6 H7 H8 H9 H10]]]. exists h. split; [exact E|].
    split; [easy|]. split; [easy|]. split; [congruence|]. split; [easy|]. rewrite zlen_app. lia.
  - destruct X as [h1 [E [H1 H2 H3 H4 H5 H6 H7 H8 H9 H10]]].
    destruct (body_fed body ltac:(intros ->; change (zlen (@nil Z)) with 0 in CL; lia) h1 [] extra) as [h [E1 [E2 [E3 [E4 [E5 E6]]]]]]; try easy; try lia.
    + rewrite H3. easy.
    + change (zlen (@nil Z)) with 0. lia.
    + exists h. rewrite E, E1. split; [easy|]. cbn [app] in E5. split; [congruence|]. split; [congruence|]. split; [congruence|]. split; [easy|].
      rewrite E6, H7, zlen_app. lia.
Qed.

Lemma header_only_ok hd code clen more : bytes hd -> response_head hd code clen -> more <> [] ->
  exists h, parse_http h_init (hd ++ more) true = Some (true, h) /\
    h_err h = 0 /\ h_status h = code /\ h_clen h = clen /\ h_body h = None /\
    h_done h = zlen hd - (if clen =? 0 then 1 else 0).
Proof.
  intros BH HD M. destruct (head_fed hd code clen more true BH HD) as [CB X].
  destruct (Z.eqb_spec clen 0) as [C|C].
  - destruct X as [h [E [H1 H2 H3 H4 H5 H6 H7 H8 H9 H10]]]. exists h. split; [exact E|].
    split; [easy|]. split; [easy|]. split; [congruence|]. easy.
  - destruct X as [h1 [E [H1 H2 H3 H4 H5 H6 H7 H8 H9 H10]]]. destruct more as [|c r]; [easy|].
    rewrite E. cbn [http_loop]. unfold http_byte. rewrite H4. change (2 =? 2) with true. cbn [bind].
    exists h1. split; [easy|]. split; [easy|]. split; [easy|]. split; [easy|]. split; [easy|]. rewrite H7. lia.
Qed.

