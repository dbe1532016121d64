(** Numbers, percent-encoding and URIs. *)
From Coq Require Import String.
From Verif Require Import Base HttpUtils HttpUtilsSpec.

Ltac cif := match goal with
  | |- context[if ?a <? ?b then _ else _] => destruct (Z.ltb_spec a b)
  | |- context[if ?a <=? ?b then _ else _] => destruct (Z.leb_spec a b)
  | |- context[if ?a =? ?b then _ else _] => destruct (Z.eqb_spec a b)
  end.

(** ** Numbers *)
Lemma is_number_iff c : is_number c = true <-> 48 <= c <= 57.
Proof. unfold is_number. rewrite andb_true_iff, !Z.leb_le. tauto. Qed.

(** The longest prefix of digits *)
Fixpoint ddigits (l : list Z) : list Z :=
  match l with [] => [] | c :: r => if is_number c then c :: ddigits r else [] end.
Fixpoint dtail (l : list Z) : list Z :=
  match l with [] => [] | c :: r => if is_number c then dtail r else c :: r end.
Lemma dsplit l : l = ddigits l ++ dtail l.
Proof. induction l as [|c r IH]; cbn; [easy|]. destruct (is_number c); cbn; [f_equal|]; easy. Qed.
Lemma ddigits_digits l : digits (ddigits l).
Proof.
  induction l as [|c r IH]; cbn; [constructor|]. destruct (is_number c) eqn:E; [|constructor].
  constructor; [apply is_number_iff; easy|easy].
Qed.
Lemma dtail_head l c r : dtail l = c :: r -> is_number c = false.
Proof.
  induction l as [|x l IH]; cbn; [easy|]. destruct (is_number x) eqn:E; [easy|]. intros H. inv H. easy.
Qed.
Lemma dsplit_unique ds t : digits ds -> (forall c r, t = c :: r -> is_number c = false) ->
  ddigits (ds ++ t) = ds /\ dtail (ds ++ t) = t.
Proof.
  intros D T. induction D as [|c ds Hc D [IH1 IH2]]; cbn.
  - destruct t as [|c r]; cbn; [easy|]. rewrite (T c r eq_refl). easy.
  - destruct (is_number c) eqn:E.
    + rewrite IH1, IH2. easy.
    + exfalso. apply is_number_iff in Hc. congruence.
Qed.

Definition dfold (l : list Z) (r : Z) : Z := fold_left (fun a c => a * 10 + (c - 48)) l r.
Lemma dfold_ge ds r : digits ds -> 0 <= r -> r <= dfold ds r.
Proof.
  intros D. revert r. induction D as [|c ds Hc D IH]; intros r R; cbn [dfold fold_left]; [lia|].
  specialize (IH (r * 10 + (c - 48)) ltac:(lia)). unfold dfold in IH. lia.
Qed.
Lemma dfold_first c ds r : digits (c :: ds) -> 0 <= r -> dec_fits (dfold (c :: ds) r) -> r + (c - 48) <= 214748364.
Proof.
  intros D R F. inv D. unfold dec_fits in F.
  destruct ds as [|d ds].
  - cbn in F. lia.
  - assert (X : r * 10 + (c - 48) <= dfold (c :: d :: ds) r / 10).
    { cbn [dfold fold_left]. fold (dfold ds ((r * 10 + (c - 48)) * 10 + (d - 48))).
      inv H2. pose proof (dfold_ge ds ((r * 10 + (c - 48)) * 10 + (d - 48)) H4 ltac:(lia)) as G. unfold dfold in *.
      apply Z.div_le_lower_bound; lia. }
    pose proof (Z.mod_pos_bound (dfold (c :: d :: ds) r) 10). lia.
Qed.

(** What the loop computes from the digits at the front of the [n] characters. *)
Lemma dec_loop_some l n idx r : 0 <= r ->
  let w := firstn n l in
  (n <= length l)%nat \/ dtail w <> [] ->
  exists o, dec_loop l n idx r = Some o /\
    (o <> None <-> (ddigits w = [] \/ dec_fits (dfold (ddigits w) r)) /\
                   (dtail w = [] \/ exists t, dtail w = 32 :: t)) /\
    (forall k v, o = Some (k, v) -> k = s32 (idx + zlen (ddigits w)) /\ v = dfold (ddigits w) r).
Proof.
  revert n idx r. induction l as [|c l IH]; intros n idx r R w H; subst w.
  - destruct n as [|n]; [|exfalso; cbn in H; destruct H; [lia|easy]].
    cbn. exists (Some (s32 idx, r)). split; [easy|]. split; [split; [intros _; split; left; easy|easy]|].
    intros k v E. inv E. change (zlen (@nil Z)) with 0. rewrite Z.add_0_r. easy.
  - destruct n as [|n].
    { cbn. exists (Some (s32 idx, r)). split; [easy|]. split; [split; [intros _; split; left; easy|easy]|].
      intros k v E. inv E. change (zlen (@nil Z)) with 0. rewrite Z.add_0_r. easy. }
    cbn [dec_loop firstn ddigits dtail] in *.
    destruct (c =? 32) eqn:E32.
    { apply Z.eqb_eq in E32. subst c. change (is_number 32) with false. cbn [dfold fold_left].
      exists (Some (s32 idx, r)). split; [easy|]. split.
      - split; [|easy]. intros _. split; [left; easy|right; eauto].
      - intros k v E. inv E. change (zlen (@nil Z)) with 0. rewrite Z.add_0_r. easy. }
    destruct (is_number c) eqn:EN; cbn [negb].
    2:{ exists None. split; [easy|]. split; [|easy]. split; [easy|]. intros [_ [X|[t X]]]; [discriminate X|].
        injection X as Y _. subst c. discriminate E32. }
    apply is_number_iff in EN.
    cif.
    { exists None. split; [easy|]. split; [|easy]. split; [easy|].
      intros [[X|X] _]; [easy|]. exfalso.
      pose proof (dfold_first c (ddigits (firstn n l)) r (Forall_cons c EN (ddigits_digits _)) R X). lia. }
    cif; [lia|].
    specialize (IH n (idx + 1) (r * 10 + (c - 48)) ltac:(lia)). cbn [length] in H.
    destruct IH as [o [E1 [E2 E3]]]; [destruct H; [left; lia|right; easy]|].
    exists o. rewrite E1. split; [easy|].
    assert (FE : forall x, dfold (c :: x) r = dfold x (r * 10 + (c - 48))) by easy.
    rewrite FE. split.
    + rewrite E2. split; intros [A B]; (split; [|exact B]).
      * right. destruct A as [A|A]; [|exact A]. rewrite A. cbn [dfold fold_left]. unfold dec_fits.
        replace (r * 10 + (c - 48)) with ((c - 48) + r * 10) by lia. rewrite Z.div_add, Z.mod_add by lia.
        pose proof (Z.div_small (c - 48) 10 ltac:(lia)). pose proof (Z.mod_small (c - 48) 10 ltac:(lia)). lia.
      * destruct A as [A|A]; [easy|right; exact A].
    + intros k v E. destruct (E3 k v E) as [A B]. rewrite zlen_cons, Z.add_assoc. easy.
Qed.

Lemma s32_in x : -2147483648 <= x < 2147483648 -> s32 x = x.
Proof. intros. unfold s32. change (2 ^ 31) with 2147483648. change (2 ^ 32) with 4294967296. rewrite Z.mod_small; lia. Qed.

Lemma no_digit_tail t : t = [] \/ (exists x, t = 32 :: x) -> forall c r, t = c :: r -> is_number c = false.
Proof. intros [E|[x E]] c r H; subst; [easy|]. inv H. easy. Qed.

(** [decimal] characterizes the split into digits and the rest. *)
Lemma decimal_split l ds : decimal l ds <-> ds = ddigits l /\ (dtail l = [] \/ exists t, dtail l = 32 :: t).
Proof.
  split.
  - intros [D [tail [E T]]]. subst l. destruct (dsplit_unique ds tail D (no_digit_tail tail T)) as [E1 E2].
    rewrite E1, E2. easy.
  - intros [E T]. subst ds. split; [apply ddigits_digits|]. exists (dtail l). split; [apply dsplit|easy].
Qed.
Lemma dec_fits_0 : dec_fits 0. Proof. unfold dec_fits. cbn. lia. Qed.

Lemma str_to_dec_ok l n : 0 <= n <= zlen l -> zlen l < 2 ^ 31 ->
  exists o, str_to_dec l n = Some o /\
    forall k v, o = Some (k, v) <->
      exists ds, decimal (take n l) ds /\ k = zlen ds /\ v = dec_value ds /\ dec_fits v.
Proof.
  change (2 ^ 31) with 2147483648. intros N L. unfold str_to_dec.
  destruct (dec_loop_some l (Z.to_nat n) 0 0 ltac:(lia) ltac:(left; unfold zlen in *; lia)) as [o [E [E1 E2]]].
  fold (take n l) in *. exists o. split; [exact E|].
  assert (DL : zlen (ddigits (take n l)) <= n).
  { pose proof (f_equal zlen (dsplit (take n l))) as X. rewrite zlen_app, zlen_take in X.
    pose proof (zlen_nonneg (dtail (take n l))). lia. }
  pose proof (zlen_nonneg (ddigits (take n l))) as NN.
  intros k v. split.
  - intros H. destruct (proj1 E1 ltac:(congruence)) as [A B]. destruct (E2 k v H) as [-> ->].
    exists (ddigits (take n l)). split; [apply decimal_split; easy|].
    rewrite s32_in by lia. split; [lia|]. split; [easy|].
    destruct A as [A|A]; [rewrite A; exact dec_fits_0|exact A].
  - intros [ds [D [-> [-> F]]]]. apply decimal_split in D. destruct D as [-> T].
    destruct o as [[k' v']|].
    + destruct (E2 k' v' eq_refl) as [-> ->]. rewrite s32_in by lia. rewrite Z.add_0_l. easy.
    + exfalso. apply (proj2 E1); [|easy]. split; [right; exact F|exact T].
Qed.

(** ** Characters *)
Lemma lower_same c x : is_u8 c -> (x = 45 \/ x = 47 \/ x = 58 \/ 97 <= x <= 122) ->
  (lower c = x <-> same_char c x).
Proof.
  intros C X. unfold same_char.
  assert (H : forall c, 0 <= c < 256 ->
     (lower c =? if (65 <=? c) && (c <=? 90) then c + 32 else c) = true).
  { intros d D. apply (zrange_all (fun c => lower c =? if (65 <=? c) && (c <=? 90) then c + 32 else c) 256);
      [vm_compute; reflexivity|cbn; lia]. }
  specialize (H c C). apply Z.eqb_eq in H. rewrite H.
  destruct ((65 <=? c) && (c <=? 90)) eqn:E.
  - apply andb_true_iff in E. rewrite !Z.leb_le in E. lia.
  - apply andb_false_iff in E. rewrite !Z.leb_gt in E. lia.
Qed.

Definition lower_text (x : list Z) : Prop := Forall (fun x => x = 45 \/ x = 47 \/ x = 58 \/ 97 <= x <= 122) x.
Lemma strcasecmp_ok l x : bytes l -> lower_text x -> zlen x <= zlen l ->
  exists b, strcasecmp l x = Some b /\ (b = true <-> same_text (take (zlen x) l) x).
Proof.
  intros B T. revert l B. induction T as [|y x Y T IH]; intros l B L; cbn [strcasecmp].
  - exists true. split; [easy|]. split; [|easy]. intros _. change (zlen (@nil Z)) with 0; rewrite take_0. constructor.
  - destruct l as [|c l]; [exfalso; rewrite zlen_cons in L; pose proof (zlen_nonneg x); change (zlen (@nil Z)) with 0 in L; lia|].
    inv B. rewrite !zlen_cons in L. destruct (IH l H2 ltac:(lia)) as [b [E1 E2]].
    assert (TK : take (zlen (y :: x)) (c :: l) = c :: take (zlen x) l).
    { rewrite zlen_cons, take_plus by (pose proof (zlen_nonneg x); lia). reflexivity. }
    rewrite TK. destruct (Z.eqb_spec (lower c) y) as [E|E].
    + exists b. split; [exact E1|]. rewrite E2. split; intros X.
      * constructor; [apply lower_same; easy|easy].
      * inv X. easy.
    + exists false. split; [easy|]. split; [easy|]. intros X. inv X. exfalso. apply E. apply lower_same; easy.
Qed.

Lemma count_spaces_ok l n : (n <= length l)%nat ->
  exists sp r, firstn n l = sp ++ r /\ spaces sp /\ (forall t, r <> 32 :: t) /\ count_spaces l n = Some (zlen sp).
Proof.
  revert l. induction n as [|n IH]; intros l L; cbn [count_spaces firstn].
  - exists [], []. split; [easy|]. split; [constructor|]. easy.
  - destruct l as [|c l]; [cbn in L; lia|]. cbn [length] in L. cbn [firstn].
    destruct (Z.eqb_spec c 32) as [E|E].
    + destruct (IH l ltac:(lia)) as [sp [r [E1 [S1 [R1 E2]]]]]. exists (c :: sp), r. rewrite E1, E2.
      split; [easy|]. split; [constructor; easy|]. split; [easy|]. cbn [bind]. rewrite zlen_cons. easy.
    + exists [], (c :: firstn n l). split; [easy|]. split; [constructor|]. split; [|easy].
      intros t X. inv X. easy.
Qed.
Lemma count_spaces_at l i n sp r : 0 <= i -> i <= n -> take (n - i) (drop i l) = sp ++ r -> n <= zlen l ->
  spaces sp -> (forall t, r <> 32 :: t) -> count_spaces (drop i l) (Z.to_nat (n - i)) = Some (zlen sp).
Proof.
  intros I N E L S R.
  destruct (count_spaces_ok (drop i l) (Z.to_nat (n - i))) as [sp' [r' [E1 [S1 [R1 E2]]]]].
  { pose proof (zlen_drop i l). unfold zlen in *. lia. }
  rewrite E2. f_equal. f_equal. fold (take (n - i) (drop i l)) in E1. rewrite E in E1. clear - E1 S S1 R R1.
  revert sp' S1 E1. induction S as [|c sp C S IH]; intros sp' S1 E1.
  - destruct sp' as [|d sp']; [easy|]. inv S1. exfalso. apply (R (sp' ++ r')). exact E1.
  - destruct sp' as [|d sp']; [exfalso; subst c; apply (R1 (sp ++ r)); easy|].
    cbn [app] in E1. injection E1 as X E1. inv S1. f_equal. eauto.
Qed.

(** ** Percent-encoding *)
Lemma unreserved_plain c : is_u8 c -> unreserved c = plain c.
Proof.
  intros C. apply eqb_prop. apply (zrange_all (fun c => Bool.eqb (unreserved c) (plain c)) 256);
    [vm_compute; reflexivity|cbn; exact C].
Qed.
Lemma hex_digit_value v : 0 <= v < 16 -> hex_value (hex_digit v) = Some v.
Proof.
  intros V.
  assert (H : (match hex_value (hex_digit v) with Some w => w =? v | None => false end) = true)
    by (apply (zrange_all (fun v => match hex_value (hex_digit v) with Some w => w =? v | None => false end) 16);
        [vm_compute; reflexivity|cbn; exact V]).
  destruct (hex_value (hex_digit v)); [|easy]. apply Z.eqb_eq in H. subst. easy.
Qed.
Lemma hex_digit_plain v : 0 <= v < 16 -> plain (hex_digit v) = true.
Proof. intros V. apply (zrange_all (fun v => plain (hex_digit v)) 16); [vm_compute; reflexivity|cbn; exact V]. Qed.

(** The encoded text *)
Fixpoint pct_encode (l : list Z) : list Z :=
  match l with
  | [] => []
  | c :: r => (if plain c then [c] else [37; hex_digit (c / 16); hex_digit (c mod 16)]) ++ pct_encode r
  end.
Lemma pct_encode_len l : zlen (pct_encode l) = encoded_len l.
Proof.
  induction l as [|c l IH]; cbn [pct_encode encoded_len fold_right]; [easy|].
  rewrite zlen_app, IH. fold (encoded_len l). destruct (plain c); reflexivity.
Qed.
Lemma encoded_len_nn l : 0 <= encoded_len l.
Proof. rewrite <- pct_encode_len. apply zlen_nonneg. Qed.
Lemma pct_roundtrip l : bytes l -> pct_decode (pct_encode l) = Some l.
Proof.
  induction 1 as [|c l C B IH]; [easy|]. cbn [pct_encode]. destruct (plain c) eqn:E; cbn [app pct_decode].
  - destruct (Z.eqb_spec c 37) as [X|_]; [subst; discriminate E|]. rewrite E, IH. easy.
  - change (37 =? 37) with true. cbn iota. unfold is_u8 in C.
    rewrite !hex_digit_value by (split; try apply Z.div_pos; try apply Z.div_lt_upper_bound; try (apply Z.mod_pos_bound); lia).
    rewrite IH. f_equal. f_equal. pose proof (Z.div_mod c 16). lia.
Qed.
Lemma pct_encode_chars l : bytes l -> Forall (fun c => plain c = true \/ c = 37) (pct_encode l).
Proof.
  induction 1 as [|c l C B IH]; cbn [pct_encode]; [constructor|]. apply Forall_app. split; [|exact IH].
  destruct (plain c) eqn:E; [repeat constructor; easy|]. unfold is_u8 in C.
  pose proof (Z.mod_pos_bound c 16 ltac:(lia)) as M.
  pose proof (Z.div_pos c 16 ltac:(lia) ltac:(lia)) as D1. pose proof (Z.div_lt_upper_bound c 16 16 ltac:(lia) ltac:(lia)) as D2.
  constructor; [right; easy|]. constructor; [left; apply hex_digit_plain; lia|].
  constructor; [left; apply hex_digit_plain; lia|constructor].
Qed.
Lemma pct_encode_id l : bytes l -> (pct_encode l = l <-> needs_escape l = false).
Proof.
  intros B. assert (L : zlen l <= zlen (pct_encode l)).
  { clear B. induction l as [|c l IH]; [easy|]. cbn [pct_encode]. rewrite zlen_cons, zlen_app.
    destruct (plain c); unfold zlen in *; cbn [length]; lia. }
  revert L. induction B as [|c l C B IH]; intros L; [easy|].
  assert (LL : zlen l <= zlen (pct_encode l)).
  { clear. induction l as [|c l IH]; [easy|]. cbn [pct_encode]. rewrite zlen_cons, zlen_app.
    destruct (plain c); unfold zlen in *; cbn [length]; lia. }
  cbn [pct_encode needs_escape existsb]. fold (needs_escape l). rewrite unreserved_plain by easy.
  destruct (plain c) eqn:E; cbn [app negb orb].
  - rewrite <- IH by exact LL. split; [intros X; inv X; congruence|intros X; rewrite X; easy].
  - split; [|easy]. intros X. exfalso. apply (f_equal zlen) in X. rewrite !zlen_cons in X. lia.
Qed.

Lemma urlencode_loop_ok inb : bytes inb -> forall a s, s <> [] ->
  exists rv out', urlencode_loop inb (a ++ s) (zlen a) (zlen s) = Some (rv, out') /\ zlen out' = zlen (a ++ s) /\
    (rv = 0 /\ encoded_len inb + 1 <= zlen s /\ out' = a ++ pct_encode inb ++ 0 :: drop (encoded_len inb + 1) s \/
     rv = -1 /\ zlen s < encoded_len inb + 1).
Proof.
  induction 1 as [|c inb C B IH]; intros a s NE; cbn [urlencode_loop].
  - destruct s as [|x s]; [easy|]. rewrite (put_app_pre a x s (zlen a) 0 eq_refl). cbn [bind].
    do 2 eexists. split; [reflexivity|]. split; [rewrite !zlen_app, !zlen_cons; easy|]. left. split; [easy|].
    split; [cbn; rewrite zlen_cons; pose proof (zlen_nonneg s); lia|]. easy.
  - pose proof (encoded_len_nn inb) as NN. cbn [encoded_len fold_right pct_encode]. fold (encoded_len inb).
    rewrite unreserved_plain by easy.
    cif.
    { do 2 eexists. split; [reflexivity|]. split; [easy|]. right. split; [easy|]. destruct (plain c); lia. }
    destruct (plain c) eqn:E.
    + destruct s as [|x s]; [easy|]. rewrite (put_app_pre a x s (zlen a) c eq_refl). cbn [bind].
      rewrite zlen_cons in *.
      destruct s as [|y s]; [exfalso; change (zlen (@nil Z)) with 0 in *; lia|].
      specialize (IH (a ++ [c]) (y :: s) ltac:(easy)). rewrite <- app_assoc in IH. cbn [app] in IH.
      rewrite zlen_app in IH. change (zlen [c]) with 1 in IH.
      replace (1 + zlen (y :: s) - 1) with (zlen (y :: s)) by lia.
      destruct IH as [rv [out' [E1 [E2 E3]]]]. exists rv, out'. split; [exact E1|].
      split; [rewrite E2, !zlen_app, !zlen_cons; lia|].
      destruct E3 as [[-> [A ->]]|[-> A]]; [left|right]; (split; [easy|]); [split; [lia|]|lia].
      rewrite <- app_assoc. cbn [app]. do 4 f_equal.
      rewrite (drop_app_ge _ [x] (y :: s)) by (change (zlen [x]) with 1; lia). f_equal. change (zlen [x]) with 1. lia.
    + cif.
      { do 2 eexists. split; [reflexivity|]. split; [easy|]. right. split; [easy|lia]. }
      set (h1 := hex_digit (c / 16)). set (h2 := hex_digit (c mod 16)).
      assert (SP : splice (a ++ s) (zlen a) [37; h1; h2; 0] = Some ((a ++ [37; h1; h2]) ++ 0 :: drop 4 s)).
      { rewrite (splice_app_pre a s (zlen a) [37; h1; h2; 0] eq_refl) by (change (zlen [37; h1; h2; 0]) with 4; lia).
        change (zlen [37; h1; h2; 0]) with 4. rewrite <- app_assoc. easy. }
      rewrite SP. cbn [bind].
      specialize (IH (a ++ [37; h1; h2]) (0 :: drop 4 s) ltac:(easy)).
      rewrite zlen_app in IH. change (zlen [37; h1; h2]) with 3 in IH.
      assert (ZL : zlen (0 :: drop 4 s) = zlen s - 3) by (rewrite zlen_cons, zlen_drop; lia).
      rewrite ZL in IH.
      destruct IH as [rv [out' [E1 [E2 E3]]]]. exists rv, out'. split; [exact E1|].
      split; [rewrite E2, !zlen_app, ZL; change (zlen [37; h1; h2]) with 3; lia|].
      destruct E3 as [[-> [A ->]]|[-> A]]; [left|right]; (split; [easy|]); [split; [lia|]|lia].
      rewrite <- app_assoc. cbn [app]. do 6 f_equal.
      change (0 :: drop 4 s) with ([0] ++ drop 4 s). rewrite drop_app_ge by (change (zlen [0]) with 1; lia).
      rewrite drop_drop by (change (zlen [0]) with 1; lia). f_equal. change (zlen [0]) with 1. lia.
Qed.

Lemma urlencode_ok inb out : bytes inb ->
  exists rv out', urlencode inb out = Some (rv, out') /\ zlen out' = zlen out /\
    (rv = 0 <-> inb <> [] /\ encoded_len inb + 1 <= zlen out) /\ (rv = 0 \/ rv = -1) /\
    (rv = 0 -> exists e, out' = e ++ 0 :: drop (zlen e + 1) out /\ zlen e = encoded_len inb /\
       pct_decode e = Some inb /\ Forall (fun c => plain c = true \/ c = 37) e /\
       (needs_escape inb = false <-> e = inb)).
Proof.
  intros B. unfold urlencode. pose proof (encoded_len_nn inb) as NN. pose proof (zlen_nonneg inb) as N1.
  pose proof (zlen_nonneg out) as N2.
  destruct ((zlen inb =? 0) || (zlen out =? 0)) eqn:EZ.
  - do 2 eexists. split; [reflexivity|]. split; [easy|]. split; [split; [easy|]|split; [right; easy|easy]].
    intros [A C]. exfalso. apply orb_true_iff in EZ. destruct EZ as [EZ|EZ]; apply Z.eqb_eq in EZ.
    + apply A. apply zlen_0_nil. easy.
    + lia.
  - apply orb_false_iff in EZ. destruct EZ as [A C]. apply Z.eqb_neq in A, C.
    assert (NE : out <> []) by (intros ->; easy).
    destruct (urlencode_loop_ok inb B [] out NE) as [rv [out' [E1 [E2 E3]]]]. cbn [app] in *.
    change (zlen (@nil Z)) with 0 in E1. exists rv, out'. split; [exact E1|]. split; [exact E2|].
    assert (NI : inb <> []) by (intros ->; easy).
    destruct E3 as [[-> [F ->]]|[-> F]].
    + split; [easy|]. split; [left; easy|]. intros _. exists (pct_encode inb). rewrite pct_encode_len.
      split; [easy|]. split; [easy|]. split; [apply pct_roundtrip; easy|].
      split; [apply pct_encode_chars; easy|]. symmetry. apply pct_encode_id. easy.
    + split; [split; [easy|lia]|]. split; [right; easy|easy].
Qed.
