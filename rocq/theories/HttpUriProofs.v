(** The URI parser. *)
From Coq Require Import String.
From Verif Require Import Base HttpUtils HttpUtilsSpec HttpUtilsProofs.

Lemma split_first (c : Z) l : ~ In c l \/ exists x y, l = x ++ c :: y /\ ~ In c x.
Proof.
  induction l as [|d l IH]; [left; easy|]. destruct (Z.eq_dec d c) as [E|E].
  - right. exists [], l. subst. easy.
  - destruct IH as [N|[x [y [-> N]]]].
    + left. intros [X|X]; easy.
    + right. exists (d :: x), y. split; [easy|]. intros [X|X]; easy.
Qed.
Lemma split_last (c : Z) l : ~ In c l \/ exists x y, l = x ++ c :: y /\ ~ In c y.
Proof.
  induction l as [|d l IH]; [left; easy|]. destruct IH as [N|[x [y [-> N]]]].
  - destruct (Z.eq_dec d c) as [E|E].
    + right. exists [], l. subst. easy.
    + left. intros [X|X]; easy.
  - right. exists (d :: x), y. easy.
Qed.

Lemma find_first_none w z c : ~ In c w -> find_first (w ++ z) (length w) c = Some None.
Proof.
  induction w as [|d w IH]; intros N; [easy|]. cbn [app length find_first].
  destruct (Z.eqb_spec d c) as [E|E]; [exfalso; apply N; left; easy|].
  rewrite IH by (intros X; apply N; right; easy). easy.
Qed.
Lemma find_first_at x y z c : ~ In c x -> find_first ((x ++ c :: y) ++ z) (length (x ++ c :: y)) c = Some (Some (zlen x)).
Proof.
  induction x as [|d x IH]; intros N; cbn [app length find_first].
  - rewrite Z.eqb_refl. easy.
  - destruct (Z.eqb_spec d c) as [E|E]; [exfalso; apply N; left; easy|].
    rewrite IH by (intros X; apply N; right; easy). cbn [bind]. rewrite zlen_cons. easy.
Qed.
Lemma get_nat (l : list Z) n x r : (exists p, l = p ++ x :: r /\ length p = n) -> get l (Z.of_nat n) = Some x.
Proof. intros [p [-> <-]]. apply get_app_pre. easy. Qed.
Lemma find_last_none w z c : ~ In c w -> find_last (w ++ z) (length w) c = Some None.
Proof.
  revert z. induction w as [|d w IH] using rev_ind; intros z N; [easy|].
  rewrite app_length, Nat.add_comm. cbn [length Nat.add find_last].
  rewrite (get_nat _ _ d z) by (exists w; rewrite <- app_assoc; easy). cbn [bind].
  destruct (Z.eqb_spec d c) as [E|E]; [exfalso; apply N; apply in_or_app; right; left; easy|].
  rewrite <- app_assoc. apply IH. intros X. apply N. apply in_or_app. left. easy.
Qed.
Lemma find_last_at x y z c : ~ In c y -> find_last ((x ++ c :: y) ++ z) (length (x ++ c :: y)) c = Some (Some (zlen x)).
Proof.
  revert z. induction y as [|d y IH] using rev_ind; intros z N.
  - rewrite app_length, Nat.add_comm. cbn [length Nat.add find_last].
    rewrite (get_nat _ _ c z) by (exists x; rewrite <- app_assoc; easy). cbn [bind]. rewrite Z.eqb_refl. easy.
  - replace (x ++ c :: y ++ [d]) with ((x ++ c :: y) ++ [d]) by (rewrite <- app_assoc; easy).
    rewrite app_length, Nat.add_comm. cbn [length Nat.add find_last].
    rewrite (get_nat _ _ d z) by (exists (x ++ c :: y); rewrite <- !app_assoc; easy). cbn [bind].
    destruct (Z.eqb_spec d c) as [E|E]; [exfalso; apply N; apply in_or_app; right; left; easy|].
    replace (((x ++ c :: y) ++ [d]) ++ z) with ((x ++ c :: y) ++ d :: z) by (rewrite <- (app_assoc _ [d] z); reflexivity).
    apply IH. intros X. apply N. apply in_or_app. left. easy.
Qed.

Lemma firstn_app_len (a b : list Z) : firstn (length a) (a ++ b) = a.
Proof. rewrite firstn_app, firstn_all, Nat.sub_diag. cbn. apply app_nil_r. Qed.
Lemma zlen_nat (l : list Z) : Z.to_nat (zlen l) = length l.
Proof. unfold zlen. apply Nat2Z.id. Qed.

(** ** Host and port *)
Definition hp (uri : list Z) (auth hlen scheme port : Z) (path : option (Z * Z)) : option (option uri_info) :=
  do c <- get uri auth;
  do o <- (if c =? 91 then find_last (drop auth uri) (Z.to_nat hlen) 93 else Some (Some 0));
  match o with
  | None => Some None
  | Some search =>
      do o <- find_last (drop auth uri) (Z.to_nat hlen) 58;
      match o with
      | Some off =>
          if search <=? off then
            do r <- str_to_dec (drop (auth + (off + 1)) uri) (hlen - (off + 1));
            match r with
            | None => Some None
            | Some (n, v) =>
                if n <=? 0 then Some None
                else if off =? 0 then Some None
                else Some (Some (mk_uri scheme auth off v path))
            end
          else if hlen =? 0 then Some None else Some (Some (mk_uri scheme auth hlen port path))
      | None => if hlen =? 0 then Some None else Some (Some (mk_uri scheme auth hlen port path))
      end
  end.

Lemma app_last_unique (c : Z) x y x' y' : x ++ c :: y = x' ++ c :: y' -> ~ In c y -> ~ In c y' -> x = x' /\ y = y'.
Proof.
  revert x'. induction x as [|d x IH]; intros x' E N N'; destruct x' as [|d' x']; cbn [app] in E.
  - injection E as E2. easy.
  - injection E as E1 E2. exfalso. apply N. rewrite E2. apply in_or_app. right. left. easy.
  - injection E as E1 E2. exfalso. apply N'. rewrite <- E2. apply in_or_app. right. left. easy.
  - injection E as E1 E2. destruct (IH x' E2 N N') as [-> ->]. subst. easy.
Qed.

Lemma hp_ok p a z scheme d path : a <> [] -> zlen (p ++ a ++ z) < 2 ^ 31 ->
  exists o, hp (p ++ a ++ z) (zlen p) (zlen a) scheme d path = Some o /\
    forall i, o = Some i <->
      exists host, host <> [] /\ host_port a host d (u_port i) /\
        i = mk_uri scheme (zlen p) (zlen host) (u_port i) path.
Proof.
  change (2 ^ 31) with 2147483648. intros NE SZ. unfold hp.
  assert (DR : drop (zlen p) (p ++ a ++ z) = a ++ z) by (apply drop_app_exact; easy). rewrite DR, zlen_nat.
  destruct a as [|c a']; [easy|]. clear NE. set (a := c :: a') in *.
  assert (G : get (p ++ a ++ z) (zlen p) = Some c) by (apply get_app_pre; easy). rewrite G. cbn [bind]. clear G.
  assert (AL : 0 < zlen a) by (unfold a; rewrite zlen_cons; pose proof (zlen_nonneg a'); lia).
  assert (BR : bracketed a <-> c = 91).
  { split; [intros [r E]; inv E; easy|intros ->; exists a'; easy]. }
  (* the default port *)
  assert (HD : forall (Q : Prop), (Q <-> ((bracketed a -> exists x y, a = x ++ 93 :: y /\ ~ In 58 y) /\ (~ bracketed a -> ~ In 58 a))) -> Q ->
     (forall x y, a = x ++ 58 :: y -> ~ In 58 y -> bracketed a /\ In 93 y) ->
     forall i, Some (mk_uri scheme (zlen p) (zlen a) d path) = Some i <->
       exists host, host <> [] /\ host_port a host d (u_port i) /\ i = mk_uri scheme (zlen p) (zlen host) (u_port i) path).
  { intros Q QE HQ NP i. split.
    - intros E. inv E. exists a. split; [easy|]. cbn. split; [|easy]. left. tauto.
    - intros [host [HN [[(E1 & E2 & _)|(p' & ds & E1 & N1 & B1 & _)] E]]].
      + rewrite E, E2, <- E1. easy.
      + exfalso. destruct (NP _ _ E1 N1) as [X1 X2]. destruct (B1 X1). easy. }
  (* an explicit port *)
  assert (HP : forall x y, a = x ++ 58 :: y -> ~ In 58 y -> (bracketed a -> In 93 x /\ ~ In 93 y) ->
     exists o, (do r <- str_to_dec (drop (zlen p + (zlen x + 1)) (p ++ a ++ z)) (zlen a - (zlen x + 1));
       match r with
       | None => Some None
       | Some (n, v) => if n <=? 0 then Some None else if zlen x =? 0 then Some None
                        else Some (Some (mk_uri scheme (zlen p) (zlen x) v path))
       end) = Some o /\
     forall i, o = Some i <->
       exists host, host <> [] /\ host_port a host d (u_port i) /\ i = mk_uri scheme (zlen p) (zlen host) (u_port i) path).
  { intros x y E N B. pose proof (zlen_nonneg x) as XN. pose proof (zlen_nonneg y) as YN. pose proof (zlen_nonneg p) as PN.
    pose proof (zlen_nonneg z) as ZN.
    assert (DY : drop (zlen p + (zlen x + 1)) (p ++ a ++ z) = y ++ z).
    { rewrite drop_app_ge by lia. replace (zlen p + (zlen x + 1) - zlen p) with (zlen x + 1) by lia.
      rewrite E, <- app_assoc. rewrite drop_app_ge by lia. replace (zlen x + 1 - zlen x) with 1 by lia. reflexivity. }
    rewrite DY. assert (LA : zlen a = zlen x + 1 + zlen y) by (rewrite E, zlen_app, zlen_cons; lia).
    replace (zlen a - (zlen x + 1)) with (zlen y) by lia.
    rewrite !zlen_app in SZ.
    destruct (str_to_dec_ok (y ++ z) (zlen y)) as [o [E1 E2]]; [rewrite zlen_app; lia|rewrite zlen_app; change (2 ^ 31) with 2147483648; lia|].
    rewrite take_app_exact in E2 by easy. rewrite E1. cbn [bind].
    assert (UQ : forall host port, host_port a host d port -> host = x /\ exists ds, decimal y ds /\ ds <> [] /\ port = dec_value ds /\ dec_fits port).
    { intros host port [(X1 & X2 & X3 & X4)|(p' & ds & X1 & N1 & B1 & D1 & D2 & D3 & D4)].
      - exfalso. assert (I : In 58 a) by (rewrite E; apply in_or_app; right; left; easy).
        destruct (Z.eq_dec c 91) as [C|C]; [|apply X4; [rewrite BR; easy|easy]].
        apply BR in C. destruct (X3 C) as (x1 & y1 & F & NI). destruct (B C) as [I1 I2].
        rewrite E in F.
        (* the closing bracket is before the colon *)
        assert (K : In 58 y1).
        { clear - F I2. revert x1 F. induction x as [|e x IH]; intros x1 F; destruct x1 as [|e1 x1]; cbn [app] in F.
          - inv F.
          - injection F as _ F. exfalso. apply I2. rewrite F. apply in_or_app. right. left. easy.
          - injection F as _ F. rewrite <- F. apply in_or_app. right. left. easy.
          - injection F as _ F. eauto. }
        easy.
      - rewrite E in X1. destruct (app_last_unique 58 x y host p' X1 N N1) as [-> ->]. split; [easy|]. exists ds. easy. }
    destruct o as [[k v]|].
    - destruct (proj1 (E2 k v) eq_refl) as [ds [D [-> [-> F]]]].
      destruct (Z.leb_spec (zlen ds) 0) as [Z1|Z1].
      { exists None. split; [easy|]. intros i. split; [easy|]. intros [host [HN [HH _]]]. exfalso.
        destruct (UQ _ _ HH) as [_ [ds' [D' [NE' _]]]]. apply decimal_split in D, D'. destruct D as [-> _], D' as [-> _].
        apply NE'. apply zlen_0_nil. pose proof (zlen_nonneg (ddigits y)). lia. }
      destruct (Z.eqb_spec (zlen x) 0) as [Z2|Z2].
      { exists None. split; [easy|]. intros i. split; [easy|]. intros [host [HN [HH _]]]. exfalso.
        destruct (UQ _ _ HH) as [-> _]. apply HN. apply zlen_0_nil. easy. }
      eexists. split; [reflexivity|]. intros i. split.
      + intros EI. inv EI. exists x. split; [intros ->; easy|]. cbn. split; [|easy]. right. exists y, ds.
        split; [easy|]. split; [easy|]. split; [easy|]. split; [easy|]. split; [|easy].
        intros ->. easy.
      + intros [host [HN [HH EI]]]. destruct (UQ _ _ HH) as [-> [ds' [D' [NE' [V' _]]]]].
        apply decimal_split in D, D'. destruct D as [-> _], D' as [-> _]. rewrite EI, V'. easy.
    - exists None. split; [easy|]. intros i. split; [easy|]. intros [host [HN [HH EI]]]. exfalso.
      destruct (UQ _ _ HH) as [-> [ds' [D' [NE' [V' F']]]]].
      rewrite V' in F'. pose proof (proj2 (E2 (zlen ds') (dec_value ds')) (ex_intro _ ds' (conj D' (conj eq_refl (conj eq_refl F'))))) as X. discriminate X. }
  destruct (Z.eqb_spec c 91) as [C|C].
  - pose proof (proj2 BR C) as HB.
    destruct (split_last 93 a) as [N93|[x9 [y9 [E9 N9]]]].
    + rewrite find_last_none by easy. cbn [bind]. exists None. split; [easy|]. intros i. split; [easy|].
      intros [host [HN [[(E1 & E2 & E3 & _)|(p' & ds & E1 & N1 & B1 & _)] E]]]; exfalso; apply N93.
      * destruct (E3 HB) as (x & y & -> & _). apply in_or_app. right. left. easy.
      * rewrite E1. apply in_or_app. left. apply B1. easy.
    + assert (F9 : find_last (a ++ z) (length a) 93 = Some (Some (zlen x9))) by (rewrite E9; apply find_last_at; easy).
      rewrite F9. cbn [bind].
      destruct (split_last 58 a) as [N58|[x [y [E N]]]].
      * rewrite find_last_none by easy. cbn [bind]. replace (zlen a =? 0) with false by (symmetry; apply Z.eqb_neq; lia).
        eexists. split; [reflexivity|]. apply (HD _ ltac:(reflexivity)).
        -- split; [|easy]. intros _. exists x9, y9. split; [easy|]. intros I. apply N58. rewrite E9. apply in_or_app. right. right. easy.
        -- intros x y EE NN. exfalso. apply N58. rewrite EE. apply in_or_app. right. left. easy.
      * assert (F5 : find_last (a ++ z) (length a) 58 = Some (Some (zlen x))) by (rewrite E; apply find_last_at; easy).
        rewrite F5. cbn [bind].
        destruct (Z.leb_spec (zlen x9) (zlen x)) as [LE|LE].
        -- apply (HP x y E N). intros _.
           assert (LT : zlen x9 < zlen x).
           { destruct (Z.eq_dec (zlen x9) (zlen x)) as [EQ|]; [|lia]. exfalso.
             pose proof (get_app_pre x 58 y (zlen x) eq_refl) as G1. pose proof (get_app_pre x9 93 y9 (zlen x9) eq_refl) as G2.
             rewrite <- E in G1. rewrite <- E9, EQ in G2. congruence. }
           split.
           ++ assert (TK : take (zlen x) a = x) by (rewrite E; apply take_app_exact; easy).
              rewrite <- TK, E9, take_app_ge by lia. apply in_or_app. right.
              replace (zlen x - zlen x9) with (1 + (zlen x - zlen x9 - 1)) by lia. rewrite take_plus by lia. left. easy.
           ++ intros I. apply N9. assert (DK : drop (zlen x + 1) a = y).
              { rewrite E, drop_app_ge by lia. replace (zlen x + 1 - zlen x) with 1 by lia. easy. }
              rewrite <- DK, E9, drop_app_ge in I by lia.
              replace (zlen x + 1 - zlen x9) with ((zlen x - zlen x9) + 1) in I by lia.
              rewrite <- drop_drop in I by lia. change (drop 1 (93 :: y9)) with y9 in I. unfold drop in I.
              rewrite <- (firstn_skipn (Z.to_nat (zlen x - zlen x9)) y9). apply in_or_app. right. exact I.
        -- replace (zlen a =? 0) with false by (symmetry; apply Z.eqb_neq; lia).
           eexists. split; [reflexivity|]. apply (HD _ ltac:(reflexivity)).
           ++ split; [|easy]. intros _. exists x9, y9. split; [easy|]. intros I. apply N.
              assert (DK : drop (zlen x9 + 1) a = y9).
              { rewrite E9, drop_app_ge by lia. replace (zlen x9 + 1 - zlen x9) with 1 by lia. easy. }
              rewrite <- DK, E, drop_app_ge in I by lia.
              replace (zlen x9 + 1 - zlen x) with ((zlen x9 - zlen x) + 1) in I by lia.
              pose proof (zlen_nonneg x). rewrite <- drop_drop in I by lia. change (drop 1 (58 :: y)) with y in I. unfold drop in I.
              rewrite <- (firstn_skipn (Z.to_nat (zlen x9 - zlen x)) y). apply in_or_app. right. exact I.
           ++ intros x' y' EE NN. rewrite E in EE. destruct (app_last_unique 58 x y x' y' EE N NN) as [<- <-]. split; [easy|].
              assert (DK : drop (zlen x + 1) a = y).
              { rewrite E, drop_app_ge by lia. replace (zlen x + 1 - zlen x) with 1 by lia. easy. }
              rewrite <- DK, E9, drop_app_le by lia. apply in_or_app. right. left. easy.
  - assert (HB : ~ bracketed a) by (rewrite BR; easy). cbn [bind].
    destruct (split_last 58 a) as [N58|[x [y [E N]]]].
    + rewrite find_last_none by easy. cbn [bind]. replace (zlen a =? 0) with false by (symmetry; apply Z.eqb_neq; lia).
      eexists. split; [reflexivity|]. apply (HD _ ltac:(reflexivity)).
      * split; [easy|]. intros _. easy.
      * intros x y EE NN. exfalso. apply N58. rewrite EE. apply in_or_app. right. left. easy.
    + assert (F5 : find_last (a ++ z) (length a) 58 = Some (Some (zlen x))) by (rewrite E; apply find_last_at; easy).
      rewrite F5. cbn [bind]. replace (0 <=? zlen x) with true by (symmetry; apply Z.leb_le; apply zlen_nonneg).
      apply (HP x y E N). easy.
Qed.

(** ** Scheme *)
Lemma same_text_length l x : same_text l x -> length l = length x.
Proof. induction 1; cbn; congruence. Qed.
Lemma lower_https : lower_text (str "https://").
Proof. unfold lower_text. cbn. repeat (apply Forall_cons; [lia|]). constructor. Qed.
Lemma lower_http : lower_text (str "http://").
Proof. unfold lower_text. cbn. repeat (apply Forall_cons; [lia|]). constructor. Qed.

Lemma startswith_ok m uri : bytes uri -> lower_text m ->
  exists b, startswith m uri (zlen uri) = Some b /\ (b = true <-> exists s r, uri = s ++ r /\ same_text s m).
Proof.
  intros B T. unfold startswith. destruct (Z.ltb_spec (zlen uri) (zlen m)) as [L|L].
  - exists false. split; [easy|]. split; [easy|]. intros [s [r [-> S]]]. exfalso.
    apply same_text_length in S. rewrite zlen_app in L. pose proof (zlen_nonneg r). unfold zlen in *. lia.
  - destruct (strcasecmp_ok uri m B T L) as [b [E1 E2]]. exists b. split; [easy|]. rewrite E2. split.
    + intros S. exists (take (zlen m) uri), (drop (zlen m) uri). split; [symmetry; apply take_drop|easy].
    + intros [s [r [-> S]]]. rewrite take_app_exact; [easy|]. apply same_text_length in S. unfold zlen. lia.
Qed.

Lemma http_not_https s r s' r' : s ++ r = s' ++ r' -> same_text s (str "http://") -> same_text s' (str "https://") -> False.
Proof.
  intros E H1 H2. change (str "http://") with [104; 116; 116; 112; 58; 47; 47] in H1.
  change (str "https://") with [104; 116; 116; 112; 115; 58; 47; 47] in H2.
  do 5 (inversion H1 as [|? ? ? ? ? H1']; subst; clear H1; rename H1' into H1).
  do 5 (inversion H2 as [|? ? ? ? ? H2']; subst; clear H2; rename H2' into H2).
  cbn [app] in E. inv E. unfold same_char in *. lia.
Qed.

Lemma uri_scheme_at s r scheme d : bytes (s ++ r) -> scheme_text s scheme d ->
  uri_scheme (s ++ r) (zlen (s ++ r)) = Some (zlen s, scheme, d).
Proof.
  intros B S. unfold uri_scheme.
  destruct (startswith_ok _ _ B lower_https) as [b [E1 E2]]. rewrite E1. cbn [bind].
  destruct (startswith_ok _ _ B lower_http) as [b' [E1' E2']].
  destruct S as [[S [-> ->]]|[S [-> ->]]].
  - destruct b.
    { exfalso. destruct (proj1 E2 eq_refl) as [s' [r' [E S']]]. eapply http_not_https; eauto. }
    rewrite E1'. cbn [bind]. replace b' with true by (symmetry; apply E2'; eauto).
    apply same_text_length in S. unfold zlen. rewrite S. easy.
  - replace b with true by (symmetry; apply E2; eauto). apply same_text_length in S. unfold zlen. rewrite S. easy.
Qed.
Lemma uri_scheme_none uri : bytes uri -> (forall s r scheme d, uri = s ++ r -> ~ scheme_text s scheme d) ->
  uri_scheme uri (zlen uri) = Some (0, 0, 0).
Proof.
  intros B N. unfold uri_scheme.
  destruct (startswith_ok _ _ B lower_https) as [b [E1 E2]]. rewrite E1. cbn [bind].
  destruct (startswith_ok _ _ B lower_http) as [b' [E1' E2']].
  destruct b.
  { exfalso. destruct (proj1 E2 eq_refl) as [s [r [E S]]]. apply (N s r 2 443 E). right. easy. }
  rewrite E1'. cbn [bind]. destruct b'; [|easy].
  exfalso. destruct (proj1 E2' eq_refl) as [s [r [E S]]]. apply (N s r 1 80 E). left. easy.
Qed.
Lemma scheme_dec uri : bytes uri ->
  (exists s r scheme d, uri = s ++ r /\ scheme_text s scheme d) \/
  (forall s r scheme d, uri = s ++ r -> ~ scheme_text s scheme d).
Proof.
  intros B. destruct (startswith_ok _ _ B lower_https) as [b [_ E2]].
  destruct (startswith_ok _ _ B lower_http) as [b' [_ E2']].
  destruct b; [|destruct b'].
  - left. destruct (proj1 E2 eq_refl) as [s [r [E S]]]. exists s, r, 2, 443. split; [easy|right; easy].
  - left. destruct (proj1 E2' eq_refl) as [s [r [E S]]]. exists s, r, 1, 80. split; [easy|left; easy].
  - right. intros s r scheme d E [[S _]|[S _]].
    + assert (X : false = true) by (apply E2'; eauto). easy.
    + assert (X : false = true) by (apply E2; eauto). easy.
Qed.
Lemma scheme_len s scheme d : scheme_text s scheme d -> 0 < zlen s.
Proof. intros [[S _]|[S _]]; apply same_text_length in S; unfold zlen; rewrite S; cbn; lia. Qed.

(** ** The parts *)
Record parts (s u a z : list Z) (scheme d : Z) : Prop := {
  pt_scheme : scheme_text s scheme d;
  pt_path : z = [] \/ exists r, z = 47 :: r;
  pt_slash : ~ In 47 (u ++ a);
  pt_user : user_part u;
  pt_at : u = [] -> ~ In 64 a }.
Definition path_of (s u a z : list Z) : option (Z * Z) :=
  match z with [] => None | _ => Some (zlen (s ++ u ++ a), zlen z) end.

Lemma parts_exist s r scheme d : scheme_text s scheme d -> exists u a z, r = u ++ a ++ z /\ parts s u a z scheme d.
Proof.
  intros S.
  assert (P : exists w z, r = w ++ z /\ ~ In 47 w /\ (z = [] \/ exists r, z = 47 :: r)).
  { destruct (split_first 47 r) as [N|[x [y [-> N]]]].
    - exists r, []. rewrite app_nil_r. split; [easy|]. split; [easy|left; easy].
    - exists x, (47 :: y). split; [easy|]. split; [easy|right; eauto]. }
  destruct P as [w [z [-> [N HZ]]]].
  destruct (split_first 64 w) as [N64|[x [y [-> N64]]]].
  - exists [], w, z. split; [easy|]. constructor; try easy. left. easy.
  - exists (x ++ [64]), y, z. split; [rewrite <- !app_assoc; easy|]. constructor; try easy.
    + rewrite <- app_assoc. easy.
    + right. exists x. easy.
    + intros E. destruct x; easy.
Qed.

Lemma parse_uri_parts s u a z scheme d : bytes (s ++ u ++ a ++ z) -> parts s u a z scheme d ->
  parse_uri (s ++ u ++ a ++ z) (zlen (s ++ u ++ a ++ z)) =
  if (zlen a =? 0) && negb (zlen u =? 0) then Some None
  else hp (s ++ u ++ a ++ z) (zlen (s ++ u)) (zlen a) scheme d (path_of s u a z).
Proof.
  intros B [PS PP PL PU PA]. unfold parse_uri. rewrite (uri_scheme_at s _ scheme d B PS). cbn [bind].
  pose proof (scheme_len _ _ _ PS) as SL. replace (zlen s =? 0) with false by (symmetry; apply Z.eqb_neq; lia).
  rewrite (drop_app_exact (zlen s) s (u ++ a ++ z) eq_refl).
  replace (zlen (s ++ u ++ a ++ z) - zlen s) with (zlen (u ++ a ++ z)) by (rewrite (zlen_app s); lia).
  rewrite zlen_nat.
  assert (PATH : exists o, find_first (u ++ a ++ z) (length (u ++ a ++ z)) 47 = Some o /\
     match o with
     | Some off => (Some (zlen s + off, zlen (u ++ a ++ z) - off), off)
     | None => (None, zlen (u ++ a ++ z))
     end = (path_of s u a z, zlen (u ++ a))).
  { destruct PP as [->|[r ->]].
    - rewrite app_nil_r. exists None. split; [|easy].
      rewrite <- (app_nil_r (u ++ a)) at 1. rewrite find_first_none by easy. easy.
    - exists (Some (zlen (u ++ a))). split.
      + rewrite app_assoc. pose proof (find_first_at (u ++ a) r [] 47 PL) as X. rewrite app_nil_r in X. exact X.
      + unfold path_of. rewrite !zlen_app. f_equal. f_equal. f_equal; lia. }
  destruct PATH as [o [E1 E2]]. rewrite E1. cbn [bind]. rewrite E2. clear E1 E2 o.
  rewrite zlen_nat.
  destruct PU as [->|[x [-> NX]]].
  - cbn [app]. rewrite find_first_none by (apply PA; easy). cbn [bind]. change (zlen (@nil Z)) with 0.
    rewrite andb_false_r, app_nil_r. reflexivity.
  - assert (F : find_first (((x ++ [64]) ++ a ++ z)) (length ((x ++ [64]) ++ a)) 64 = Some (Some (zlen x))).
    { rewrite app_assoc. rewrite <- (app_assoc x [64] a). apply find_first_at. easy. }
    rewrite F. cbn [bind]. clear F.
    assert (U1 : zlen (x ++ [64]) = zlen x + 1) by (rewrite zlen_app; easy).
    pose proof (zlen_nonneg x) as XN.
    rewrite (zlen_app (x ++ [64]) a), U1.
    destruct (Z.eqb_spec (zlen a) 0) as [A0|A0].
    + rewrite A0. rewrite Z.add_0_r, Z.eqb_refl.
      replace (zlen x + 1 =? 0) with false by (symmetry; apply Z.eqb_neq; lia). easy.
    + replace (zlen x + 1 + zlen a =? zlen x + 1) with false by (symmetry; apply Z.eqb_neq; lia).
      cbn [andb]. rewrite (zlen_app s), U1.
      replace (zlen x + 1 + zlen a - (zlen x + 1)) with (zlen a) by lia. reflexivity.
Qed.

Lemma uri_text_parts uri i : uri_text uri i <->
  exists s u a z host d, uri = s ++ u ++ a ++ z /\ parts s u a z (u_scheme i) d /\ host <> [] /\
    host_port a host d (u_port i) /\
    i = mk_uri (u_scheme i) (zlen (s ++ u)) (zlen host) (u_port i) (path_of s u a z).
Proof.
  split.
  - intros (s & u & a & host & path & d & E & S & P & NS & U & UA & HN & H1 & H2 & HP).
    exists s, u, a, path, host, d. split; [easy|]. split.
    + constructor; try easy. destruct P as [[-> _]|[r [-> _]]]; [left; easy|right; eauto].
    + split; [easy|]. split; [easy|]. destruct i as [sc h hl po pa]. cbn in *. subst h hl. f_equal.
      destruct P as [[-> ->]|[r [-> ->]]]; easy.
  - intros (s & u & a & z & host & d & E & [PS PP PL PU PA] & HN & HP & EI).
    exists s, u, a, host, z, d. split; [easy|]. split; [easy|]. destruct i as [sc h hl po pa]. cbn in *.
    injection EI as -> -> ->.
    split.
    + destruct PP as [->|[r ->]]; [left; easy|right; exists r; easy].
    + split; [easy|]. split; [easy|]. split; [easy|]. split; [easy|]. split; [easy|]. split; easy.
Qed.

Lemma parse_uri_ok uri : bytes uri -> zlen uri < 2 ^ 31 -> ~ bare_scheme uri ->
  exists o, parse_uri uri (zlen uri) = Some o /\ forall i, o = Some i <-> uri_text uri i.
Proof.
  intros B L NB. destruct (scheme_dec uri B) as [[s [r [scheme [d [-> S]]]]]|N].
  2:{ unfold parse_uri. rewrite uri_scheme_none by easy. cbn. exists None. split; [easy|]. intros i. split; [easy|].
      intros H. apply uri_text_parts in H. destruct H as (s & u & a & z & host & d & E & [PS _ _ _ _] & _).
      exfalso. eapply N; eauto. }
  destruct (parts_exist s r scheme d S) as [u [a [z [-> P]]]].
  (* every reading of the URI gives the same result *)
  assert (DET : forall i, uri_text (s ++ u ++ a ++ z) i -> parse_uri (s ++ u ++ a ++ z) (zlen (s ++ u ++ a ++ z)) = Some (Some i)).
  { intros i H. apply uri_text_parts in H.
    destruct H as (s' & u' & a' & z' & host & d' & E & P' & HN & HP & EI).
    rewrite E in B, L |- *. rewrite (parse_uri_parts _ _ _ _ _ _ B P').
    assert (AN : a' <> []).
    { intros ->. destruct HP as [(X & _)|(p & ds & X & _)]; [subst; easy|destruct host; easy]. }
    replace (zlen a' =? 0) with false
      by (symmetry; apply Z.eqb_neq; intros X; apply AN; apply zlen_0_nil; easy).
    cbn [andb]. replace (s' ++ u' ++ a' ++ z') with ((s' ++ u') ++ a' ++ z') in * by (rewrite <- app_assoc; easy).
    destruct (hp_ok (s' ++ u') a' z' (u_scheme i) d' (path_of s' u' a' z') AN L) as [o [E1 E2]].
    rewrite E1. f_equal. apply E2. exists host. easy. }
  rewrite (parse_uri_parts _ _ _ _ _ _ B P).
  destruct (Z.eqb_spec (zlen a) 0) as [A0|A0].
  - apply zlen_0_nil in A0. subst a. cbn [andb].
    destruct (Z.eqb_spec (zlen u) 0) as [U0|U0]; cbn [negb].
    + apply zlen_0_nil in U0. subst u. cbn [app] in *.
      assert (ZN : exists r, z = 47 :: r).
      { destruct (pt_path _ _ _ _ _ _ P) as [->|X]; [|easy]. exfalso. apply NB. rewrite app_nil_r.
        destruct S as [[S _]|[S _]]; [left|right]; easy. }
      destruct ZN as [r ->].
      assert (HPN : hp (s ++ 47 :: r) (zlen (s ++ [])) (zlen (@nil Z)) scheme d (path_of s [] [] (47 :: r)) = Some None).
      { unfold hp. rewrite app_nil_r, (get_app_pre s 47 r (zlen s) eq_refl). reflexivity. }
      rewrite HPN. exists None. split; [easy|]. intros i. split; [easy|]. intros H. apply DET in H.
      pose proof (parse_uri_parts s [] [] (47 :: r) _ _ B P) as X. cbn [app] in X. rewrite X in H. clear X.
      change ((zlen (@nil Z) =? 0) && negb (zlen (@nil Z) =? 0)) with false in H. cbn iota in H.
      rewrite HPN in H. discriminate H.
    + exists None. split; [easy|]. intros i. split; [easy|]. intros H. apply DET in H.
      rewrite (parse_uri_parts _ _ _ _ _ _ B P) in H. change (zlen (@nil Z)) with 0 in H. change (0 =? 0) with true in H.
      replace (zlen u =? 0) with false in H by (symmetry; apply Z.eqb_neq; easy). discriminate H.
  - cbn [andb].
    assert (AN : a <> []) by (intros ->; easy).
    assert (ASS : (s ++ u) ++ a ++ z = s ++ u ++ a ++ z) by (rewrite <- app_assoc; easy).
    rewrite <- ASS in L.
    destruct (hp_ok (s ++ u) a z scheme d (path_of s u a z) AN L) as [o [E1 E2]].
    rewrite ASS in E1. rewrite E1. exists o. split; [easy|]. intros i. split.
    + intros H. apply E2 in H. destruct H as [host [HN [HP EI]]]. apply uri_text_parts.
      exists s, u, a, z, host, d.
      assert (SC : u_scheme i = scheme) by (rewrite EI; easy). rewrite SC. easy.
    + intros H. apply DET in H. rewrite (parse_uri_parts _ _ _ _ _ _ B P) in H.
      replace (zlen a =? 0) with false in H by (symmetry; apply Z.eqb_neq; easy). cbn [andb] in H.
      rewrite E1 in H. injection H as H. easy.
Qed.

Lemma parse_uri_bare uri : bytes uri -> bare_scheme uri -> parse_uri uri (zlen uri) = None.
Proof.
  intros B S.
  assert (P : exists scheme d, parts uri [] [] [] scheme d).
  { destruct S as [S|S]; [exists 1, 80|exists 2, 443]; (constructor; try easy; [|left; easy|left; easy]); [left|right]; easy. }
  destruct P as [scheme [d P]].
  pose proof (parse_uri_parts uri [] [] [] scheme d) as X. cbn [app] in X. rewrite app_nil_r in X.
  rewrite (X B P). change (zlen (@nil Z)) with 0. cbn [negb andb]. change (0 =? 0) with true. cbn [negb andb]. unfold hp, get.
  destruct (nth_error uri (Z.to_nat (zlen uri))) eqn:E.
  - exfalso. assert (H : (Z.to_nat (zlen uri) < length uri)%nat) by (apply nth_error_Some; congruence). unfold zlen in H. lia.
  - destruct (zlen uri <? 0); easy.
Qed.
