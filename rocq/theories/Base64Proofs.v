From Verif Require Import Base Base64 Base64Spec.
Ltac Zify.zify_post_hook ::= Z.div_mod_to_equations.

(** Character for a 6-bit value, as a total function used only inside proofs. *)
Definition ch (v : Z) : Z :=
  if v <? 26 then v + 65 else if v <? 52 then v + 71 else if v <? 62 then v - 4
  else if v =? 62 then 43 else 47.

Lemma ch_val v : 0 <= v < 64 -> b64_val (ch v) = Some v.
Proof.
  intros H.
  assert (E : (match b64_val (ch v) with Some w => w =? v | None => false end) = true).
  { revert v H. apply (zrange_all (fun v => match b64_val (ch v) with Some w => w =? v | None => false end) 64).
    vm_compute. reflexivity. }
  destruct (b64_val (ch v)); [|discriminate]. f_equal. lia.
Qed.
Lemma ch_byte v : 0 <= v < 64 -> is_u8 (ch v).
Proof. unfold ch, is_u8; intros. repeat match goal with |- context[if ?b then _ else _] => destruct b eqn:? end; lia. Qed.
Lemma pad_val : b64_val 61 = None.
Proof. reflexivity. Qed.

Lemma b64_char_ch w off : 0 <= off -> b64_char w off = Some (ch (w / 2 ^ (off * 6) mod 64)).
Proof.
  intros Ho. unfold b64_char. rewrite shiftr_div by lia. change 63 with (Z.ones 6).
  rewrite Z.land_ones by lia. change (2 ^ 6) with 64.
  set (v := w / 2 ^ (off * 6) mod 64).
  assert (Hv : 0 <= v < 64) by (apply Z.mod_pos_bound; lia). clearbody v.
  assert (E : (match get b64_table v with Some c => c =? ch v | None => false end) = true).
  { revert v Hv. apply (zrange_all (fun v => match get b64_table v with Some c => c =? ch v | None => false end) 64).
    vm_compute. reflexivity. }
  destruct (get b64_table v); [|discriminate]. f_equal. lia.
Qed.

(** Pure encoding of one to three bytes and of a whole message. *)
Definition quad3 (a b c : Z) : list Z :=
  [ch (a / 4); ch ((a mod 4) * 16 + b / 16); ch ((b mod 16) * 4 + c / 64); ch (c mod 64)].
Definition quad2 (a b : Z) : list Z :=
  [ch (a / 4); ch ((a mod 4) * 16 + b / 16); ch ((b mod 16) * 4); 61].
Definition quad1 (a : Z) : list Z :=
  [ch (a / 4); ch ((a mod 4) * 16); 61; 61].
Fixpoint b64 (l : list Z) : list Z :=
  match l with
  | [] => []
  | [a] => quad1 a
  | [a; b] => quad2 a b
  | a :: b :: c :: r => quad3 a b c ++ b64 r
  end.

Lemma list3_ind (P : list Z -> Prop) :
  P [] -> (forall a, P [a]) -> (forall a b, P [a; b]) ->
  (forall a b c r, P r -> P (a :: b :: c :: r)) -> forall l, P l.
Proof.
  intros H0 H1 H2 H3. fix IH 1. intros [|a [|b [|c r]]]; [assumption|apply H1|apply H2|apply H3, IH].
Qed.

Lemma b64_len l : zlen (b64 l) = b64_enc_len (zlen l).
Proof.
  induction l using list3_ind; try reflexivity.
  cbn [b64]. rewrite zlen_app, IHl, !zlen_cons. unfold b64_enc_len, quad3.
  rewrite !zlen_cons, zlen_nil. pose proof (zlen_nonneg l). lia.
Qed.

Lemma b64_roundtrip l : bytes l -> b64_decode (b64 l) = Some l.
Proof.
  unfold bytes. induction l using list3_ind; intros Hb; [reflexivity| | |];
    repeat match goal with H : Forall _ (_ :: _) |- _ => inversion H; subst; clear H end;
    unfold is_u8 in *.
  - cbn [b64 quad1 b64_decode]. rewrite !ch_val by lia. rewrite pad_val.
    replace ((a mod 4 * 16) mod 16 =? 0) with true by lia. change (61 =? 61) with true. cbn [andb].
    f_equal. f_equal. lia.
  - cbn [b64 quad2 b64_decode]. rewrite !ch_val by lia. rewrite pad_val.
    replace ((b mod 16 * 4) mod 4 =? 0) with true by lia. change (61 =? 61) with true. cbn [andb].
    f_equal. f_equal; [lia|]. f_equal. lia.
  - cbn [b64 quad3 app b64_decode]. rewrite !ch_val by lia. rewrite IHl by assumption.
    f_equal. f_equal; [lia|]. f_equal; [lia|]. f_equal; lia.
Qed.

Lemma b64_bytes l : bytes l -> bytes (b64 l).
Proof.
  unfold bytes. induction l using list3_ind; intros Hb; [constructor| | |];
    repeat match goal with H : Forall _ (_ :: _) |- _ => inversion H; subst; clear H end;
    unfold is_u8 in *.
  - repeat constructor; try (apply ch_byte); lia.
  - repeat constructor; try (apply ch_byte); lia.
  - cbn [b64 quad3 app]. repeat constructor; try (apply ch_byte; lia); auto.
Qed.

(** Arithmetic of the packed word. *)
Lemma triple_ch a b c : is_u8 a -> is_u8 b -> is_u8 c ->
  let t := Z.shiftl a 16 + Z.shiftl b 8 + c in
  t / 2 ^ (3 * 6) mod 64 = a / 4 /\ t / 2 ^ (2 * 6) mod 64 = (a mod 4) * 16 + b / 16 /\
  t / 2 ^ (1 * 6) mod 64 = (b mod 16) * 4 + c / 64 /\ t / 2 ^ (0 * 6) mod 64 = c mod 64.
Proof.
  unfold is_u8; intros Ha Hb Hc. rewrite !Z.shiftl_mul_pow2 by lia.
  change (2^16) with 65536. change (2^8) with 256. change (2 ^ (3*6)) with 262144.
  change (2 ^ (2*6)) with 4096. change (2 ^ (1*6)) with 64. change (2^(0*6)) with 1.
  repeat split; lia.
Qed.

Lemma nth_split4 (l : list Z) : 4 <= zlen l -> exists a b c d r, l = a :: b :: c :: d :: r.
Proof.
  destruct l as [|a [|b [|c [|d r]]]]; rewrite ?zlen_cons, ?zlen_nil; try lia. intros; now exists a, b, c, d, r.
Qed.

Lemma put4_fwd pre x0 x1 x2 x3 tl i c0 c1 c2 c3 : zlen pre = i ->
  (do o <- put (pre ++ x0 :: x1 :: x2 :: x3 :: tl) i c0;
   do o <- put o (i + 1) c1; do o <- put o (i + 2) c2; put o (i + 3) c3)
  = Some (pre ++ c0 :: c1 :: c2 :: c3 :: tl).
Proof.
  intros Hi. rewrite put_app_pre by assumption. cbn [bind].
  replace (pre ++ c0 :: x1 :: x2 :: x3 :: tl) with ((pre ++ [c0]) ++ x1 :: x2 :: x3 :: tl) by (now rewrite <- app_assoc).
  rewrite put_app_pre by (rewrite zlen_app, zlen_cons, zlen_nil; lia). cbn [bind].
  replace ((pre ++ [c0]) ++ c1 :: x2 :: x3 :: tl) with ((pre ++ [c0; c1]) ++ x2 :: x3 :: tl) by (now rewrite <- !app_assoc).
  rewrite put_app_pre by (rewrite zlen_app, !zlen_cons, zlen_nil; lia). cbn [bind].
  replace ((pre ++ [c0; c1]) ++ c2 :: x3 :: tl) with ((pre ++ [c0; c1; c2]) ++ x3 :: tl) by (now rewrite <- !app_assoc).
  rewrite put_app_pre by (rewrite zlen_app, !zlen_cons, zlen_nil; lia).
  now rewrite <- app_assoc.
Qed.

Lemma put4_bwd pre x0 x1 x2 x3 tl i c0 c1 c2 c3 : zlen pre = i - 3 ->
  (do o <- put (pre ++ x0 :: x1 :: x2 :: x3 :: tl) i c3;
   do o <- put o (i - 1) c2; do o <- put o (i - 2) c1; put o (i - 3) c0)
  = Some (pre ++ c0 :: c1 :: c2 :: c3 :: tl).
Proof.
  intros Hi.
  replace (pre ++ x0 :: x1 :: x2 :: x3 :: tl) with ((pre ++ [x0; x1; x2]) ++ x3 :: tl) by (now rewrite <- app_assoc).
  rewrite put_app_pre by (rewrite zlen_app, !zlen_cons, zlen_nil; lia). cbn [bind].
  replace ((pre ++ [x0; x1; x2]) ++ c3 :: tl) with ((pre ++ [x0; x1]) ++ x2 :: c3 :: tl) by (now rewrite <- !app_assoc).
  rewrite put_app_pre by (rewrite zlen_app, !zlen_cons, zlen_nil; lia). cbn [bind].
  replace ((pre ++ [x0; x1]) ++ c2 :: c3 :: tl) with ((pre ++ [x0]) ++ x1 :: c2 :: c3 :: tl) by (now rewrite <- !app_assoc).
  rewrite put_app_pre by (rewrite zlen_app, !zlen_cons, zlen_nil; lia). cbn [bind].
  replace ((pre ++ [x0]) ++ c1 :: c2 :: c3 :: tl) with (pre ++ x0 :: c1 :: c2 :: c3 :: tl) by (now rewrite <- !app_assoc).
  now rewrite put_app_pre by lia.
Qed.

(** One loop body, forward. *)
Lemma get_pre_1 (p : list Z) x y s i : zlen p = i -> get (p ++ x :: y :: s) (i + 1) = Some y.
Proof.
  intros. replace (p ++ x :: y :: s) with ((p ++ [x]) ++ y :: s) by (now rewrite <- app_assoc).
  apply get_app_pre. rewrite zlen_app, zlen_cons, zlen_nil. lia.
Qed.
Lemma get_pre_2 (p : list Z) x y z s i : zlen p = i -> get (p ++ x :: y :: z :: s) (i + 2) = Some z.
Proof.
  intros. replace (p ++ x :: y :: z :: s) with ((p ++ [x; y]) ++ z :: s) by (now rewrite <- app_assoc).
  apply get_app_pre. rewrite zlen_app, !zlen_cons, zlen_nil. lia.
Qed.

Lemma put4_fwd_k pre x0 x1 x2 x3 tl i c0 c1 c2 c3 {B} (k : list Z -> option B) : zlen pre = i ->
  (do o <- put (pre ++ x0 :: x1 :: x2 :: x3 :: tl) i c0;
   do o <- put o (i + 1) c1; do o <- put o (i + 2) c2; do o <- put o (i + 3) c3; k o)
  = k (pre ++ c0 :: c1 :: c2 :: c3 :: tl).
Proof.
  intros Hi. pose proof (put4_fwd pre x0 x1 x2 x3 tl i c0 c1 c2 c3 Hi) as H.
  destruct (put _ i c0); [|discriminate]; cbn [bind] in *.
  destruct (put _ (i+1) c1); [|discriminate]; cbn [bind] in *.
  destruct (put _ (i+2) c2); [|discriminate]; cbn [bind] in *.
  rewrite H. reflexivity.
Qed.
Lemma put4_bwd_k pre x0 x1 x2 x3 tl i c0 c1 c2 c3 {B} (k : list Z -> option B) : zlen pre = i - 3 ->
  (do o <- put (pre ++ x0 :: x1 :: x2 :: x3 :: tl) i c3;
   do o <- put o (i - 1) c2; do o <- put o (i - 2) c1; do o <- put o (i - 3) c0; k o)
  = k (pre ++ c0 :: c1 :: c2 :: c3 :: tl).
Proof.
  intros Hi. pose proof (put4_bwd pre x0 x1 x2 x3 tl i c0 c1 c2 c3 Hi) as H.
  destruct (put _ i c3); [|discriminate]; cbn [bind] in *.
  destruct (put _ (i-1) c2); [|discriminate]; cbn [bind] in *.
  destruct (put _ (i-2) c1); [|discriminate]; cbn [bind] in *.
  rewrite H. reflexivity.
Qed.

Lemma b64_fwd_correct rest : forall fuel pre opre otail,
  bytes rest -> (length rest < fuel)%nat ->
  zlen (b64 rest) <= zlen otail -> zlen opre + zlen (b64 rest) <= INT_MAX ->
  b64_fwd fuel (pre ++ rest) (zlen (pre ++ rest)) (zlen pre) (zlen opre) (opre ++ otail)
  = Some (opre ++ b64 rest ++ drop (zlen (b64 rest)) otail).
Proof.
  induction rest using list3_ind; intros fuel pre opre otail Hb Hf Hl Hi;
    (destruct fuel as [|f]; [cbn in Hf; lia|]); cbn [b64_fwd]; rewrite zlen_app.
  - rewrite zlen_nil. replace (zlen pre <? zlen pre + 0) with false by lia. reflexivity.
  - unfold bytes in Hb; repeat match goal with H : Forall _ (_ :: _) |- _ => inversion H; subst; clear H end.
    rewrite zlen_cons, zlen_nil. replace (zlen pre <? zlen pre + (1 + 0)) with true by lia.
    rewrite get_app_pre by reflexivity. cbn [bind].
    replace (zlen pre + 1 <? zlen pre + (1 + 0)) with false by lia.
    replace (zlen pre + 2 <? zlen pre + (1 + 0)) with false by lia. cbn [bind].
    cbn [b64] in *. unfold quad1 in *. rewrite !zlen_cons, zlen_nil in Hl, Hi.
    replace (INT_MAX <? zlen opre + 4) with false by lia.
    rewrite !b64_char_ch by lia. cbn [bind].
    destruct (triple_ch a 0 0) as (E3 & E2 & E1 & E0); [assumption|unfold is_u8; lia..|].
    rewrite E3, E2.
    destruct (nth_split4 otail) as (x0 & x1 & x2 & x3 & tl & ->); [lia|].
    rewrite put4_fwd_k by reflexivity.
    destruct f as [|f]; [cbn in Hf; lia|]. cbn [b64_fwd].
    replace (zlen pre + 3 <? zlen pre + (1 + 0)) with false by lia.
    replace (0 / 16) with 0 by reflexivity. rewrite Z.add_0_r. reflexivity.
  - unfold bytes in Hb; repeat match goal with H : Forall _ (_ :: _) |- _ => inversion H; subst; clear H end.
    rewrite !zlen_cons, zlen_nil. replace (zlen pre <? zlen pre + (1 + (1 + 0))) with true by lia.
    rewrite get_app_pre by reflexivity. cbn [bind].
    replace (zlen pre + 1 <? zlen pre + (1 + (1 + 0))) with true by lia.
    replace (zlen pre + 2 <? zlen pre + (1 + (1 + 0))) with false by lia.
    rewrite get_pre_1 by reflexivity. cbn [bind].
    cbn [b64] in *. unfold quad2 in *. rewrite !zlen_cons, zlen_nil in Hl, Hi.
    replace (INT_MAX <? zlen opre + 4) with false by lia.
    rewrite !b64_char_ch by lia. cbn [bind].
    destruct (triple_ch a b 0) as (E3 & E2 & E1 & E0); [assumption..|unfold is_u8; lia|].
    rewrite E3, E2, E1.
    destruct (nth_split4 otail) as (x0 & x1 & x2 & x3 & tl & ->); [lia|].
    rewrite put4_fwd_k by reflexivity.
    destruct f as [|f]; [cbn in Hf; lia|]. cbn [b64_fwd].
    replace (zlen pre + 3 <? zlen pre + (1 + (1 + 0))) with false by lia.
    replace (0 / 64) with 0 by reflexivity. rewrite Z.add_0_r. reflexivity.
  - unfold bytes in Hb; repeat match goal with H : Forall _ (_ :: _) |- _ => inversion H; subst; clear H end.
    rewrite !zlen_cons. pose proof (zlen_nonneg rest) as Hrl.
    replace (zlen pre <? zlen pre + (1 + (1 + (1 + zlen rest)))) with true by lia.
    rewrite get_app_pre by reflexivity. cbn [bind].
    replace (zlen pre + 1 <? zlen pre + (1 + (1 + (1 + zlen rest)))) with true by lia.
    replace (zlen pre + 2 <? zlen pre + (1 + (1 + (1 + zlen rest)))) with true by lia.
    rewrite get_pre_1 by reflexivity. rewrite get_pre_2 by reflexivity. cbn [bind].
    cbn [b64] in *. unfold quad3 in *. cbn [app] in *. rewrite !zlen_cons in Hl, Hi.
    pose proof (zlen_nonneg (b64 rest)) as Hbl.
    replace (INT_MAX <? zlen opre + 4) with false by lia.
    rewrite !b64_char_ch by lia. cbn [bind].
    destruct (triple_ch a b c) as (E3 & E2 & E1 & E0); [assumption..|].
    rewrite E3, E2, E1, E0.
    destruct (nth_split4 otail) as (x0 & x1 & x2 & x3 & tl & ->); [lia|].
    rewrite put4_fwd_k by reflexivity.
    set (q0 := ch (a/4)). set (q1 := ch (a mod 4 * 16 + b / 16)).
    set (q2 := ch (b mod 16 * 4 + c/64)). set (q3 := ch (c mod 64)).
    specialize (IHrest f (pre ++ [a; b; c]) (opre ++ [q0; q1; q2; q3]) tl).
    rewrite !zlen_app, !zlen_cons, zlen_nil in IHrest. rewrite !zlen_cons in Hl.
    rewrite <- !app_assoc in IHrest. cbn [app] in IHrest.
    replace (zlen pre + (1 + (1 + (1 + 0))) + zlen rest) with (zlen pre + (1 + (1 + (1 + zlen rest)))) in IHrest by lia.
    replace (zlen pre + (1 + (1 + (1 + 0)))) with (zlen pre + 3) in IHrest by lia.
    replace (zlen opre + (1 + (1 + (1 + (1 + 0))))) with (zlen opre + 4) in IHrest by lia.
    rewrite IHrest; [|assumption|cbn in Hf; lia|lia|lia].
    f_equal. f_equal. f_equal. f_equal. f_equal. f_equal. f_equal.
    replace (q0 :: q1 :: q2 :: q3 :: b64 rest) with ([q0; q1; q2; q3] ++ b64 rest) by reflexivity.
    rewrite zlen_app. change (x0 :: x1 :: x2 :: x3 :: tl) with ([x0; x1; x2; x3] ++ tl).
    replace (zlen [q0;q1;q2;q3]) with 4 by reflexivity.
    rewrite drop_app_ge by (replace (zlen [x0;x1;x2;x3]) with 4 by reflexivity; lia).
    f_equal. replace (zlen [x0;x1;x2;x3]) with 4 by reflexivity. lia.
Qed.

Lemma base64_encode_is_b64 data out : bytes data -> b64_enc_len (zlen data) <= zlen out ->
  b64_enc_len (zlen data) <= INT_MAX ->
  base64_encode data out = Some (b64 data ++ drop (zlen (b64 data)) out).
Proof.
  intros Hb Ho Hi. unfold base64_encode.
  apply (b64_fwd_correct data (S (length data)) [] [] out); [assumption|lia|now rewrite b64_len|].
  rewrite b64_len, zlen_nil. lia.
Qed.

Lemma base64_encode_correct data out : bytes data ->
  b64_enc_len (zlen data) <= zlen out -> b64_enc_len (zlen data) <= INT_MAX ->
  exists enc, base64_encode data out = Some (enc ++ drop (zlen enc) out) /\
    zlen enc = 4 * ((zlen data + 2) / 3) /\ bytes enc /\ b64_decode enc = Some data.
Proof.
  intros Hb Ho Hi. exists (b64 data). split; [now apply base64_encode_is_b64|].
  split; [apply b64_len|]. split; [now apply b64_bytes|now apply b64_roundtrip].
Qed.

(** In place. *)
Lemma b64_split k l : 0 <= k -> 3 * k <= zlen l -> b64 l = b64 (take (3 * k) l) ++ b64 (drop (3 * k) l).
Proof.
  intros Hk. replace k with (Z.of_nat (Z.to_nat k)) by lia. generalize (Z.to_nat k) as n. clear k Hk.
  intros n; revert l; induction n; intros l Hl; [reflexivity|].
  destruct l as [|a [|b [|c r]]]; rewrite ?zlen_cons, ?zlen_nil in Hl; try lia.
  replace (3 * Z.of_nat (S n)) with (3 + 3 * Z.of_nat n) by lia.
  change (a :: b :: c :: r) with ([a;b;c] ++ r).
  rewrite (take_app_ge _ [a;b;c] r) by (replace (zlen [a;b;c]) with 3 by reflexivity; lia).
  rewrite (drop_app_ge _ [a;b;c] r) by (replace (zlen [a;b;c]) with 3 by reflexivity; lia).
  replace (3 + 3 * Z.of_nat n - zlen [a;b;c]) with (3 * Z.of_nat n) by (replace (zlen [a;b;c]) with 3 by reflexivity; lia).
  cbn [app b64]. rewrite (IHn r) by lia. now rewrite app_assoc.
Qed.


(** The three bytes of group [k] (with the loop's zero defaults) and its four characters. *)
Lemma get_take {A} (l : list A) n i : i < n -> get (take n l) i = get l i.
Proof.
  intros. destruct (Z.lt_ge_cases i 0); [unfold get; now ifz|].
  destruct (Z.lt_ge_cases i (zlen l)).
  - rewrite <- (take_drop n l) at 2. rewrite get_app1; [reflexivity|zl].
  - unfold get. ifz. assert (HN : forall m, (length m <= length l)%nat -> nth_error m (Z.to_nat i) = @None A).
    { intros; apply nth_error_None. unfold zlen in *; lia. }
    rewrite !HN; [reflexivity|lia|]. unfold take. rewrite firstn_length. lia.
Qed.

Lemma get_agree {A} (a b : list A) n i : take n a = take n b -> i < n -> get a i = get b i.
Proof. intros E H. rewrite <- (get_take a n), <- (get_take b n) by lia. now rewrite E. Qed.

Lemma bytes_get l i x : bytes l -> get l i = Some x -> is_u8 x.
Proof. intros H E. apply get_in in E. unfold bytes in H. rewrite Forall_forall in H. auto. Qed.

(** Loop invariant: with [m] groups left, the first [min (3m) n] source bytes are untouched
    and everything from output index [4m] on is final. *)
Lemma b64_bwd_correct m : forall fuel buf data,
  bytes data -> (m < fuel)%nat ->
  (m = O \/ 3 * Z.of_nat m - 2 <= zlen data) ->
  4 * Z.of_nat m <= zlen buf ->
  take (Z.min (3 * Z.of_nat m) (zlen data)) buf = take (3 * Z.of_nat m) data ->
  b64_bwd fuel buf (zlen data) (3 * Z.of_nat m - 3) (4 * Z.of_nat m - 1)
  = Some (b64 (take (3 * Z.of_nat m) data) ++ drop (4 * Z.of_nat m) buf).
Proof.
  induction m as [|m IH]; intros fuel buf data Hb Hf Hm Hl Hpre;
    (destruct fuel as [|f]; [lia|]); cbn [b64_bwd].
  - ifz. reflexivity.
  - destruct Hm as [|Hm]; [lia|]. set (k := Z.of_nat m) in *.
    replace (Z.of_nat (S m)) with (k + 1) in * by lia.
    replace (3 * (k + 1) - 3) with (3 * k) by lia. replace (4 * (k + 1) - 1) with (4 * k + 3) by lia.
    assert (Hpre' : take (Z.min (3 * (k + 1)) (zlen data)) buf = take (Z.min (3 * (k + 1)) (zlen data)) data).
    { rewrite Hpre. destruct (Z.le_gt_cases (3 * (k+1)) (zlen data)); [f_equal; lia|].
      rewrite !take_all by lia. reflexivity. }
    assert (G : forall i, 3 * k <= i < 3 * k + 3 -> i < zlen data -> get buf i = get data i).
    { intros. eapply get_agree; [exact Hpre'|lia]. }
    ifz. rewrite (G (3*k)) by lia.
    destruct (get_some data (3 * k)) as [a Ha]; [lia|]. rewrite Ha. cbn [bind].
    pose proof (bytes_get _ _ _ Hb Ha) as Hba.
    (* the four cells being overwritten *)
    assert (Hsplit : exists x0 x1 x2 x3, buf = take (4*k) buf ++ x0 :: x1 :: x2 :: x3 :: drop (4 * (k + 1)) buf).
    { destruct (nth_split4 (drop (4*k) buf)) as (x0 & x1 & x2 & x3 & r & E); [zl|].
      exists x0, x1, x2, x3. rewrite <- (take_drop (4*k) buf) at 1. f_equal. rewrite E.
      do 4 f_equal. replace (4 * (k+1)) with (4 + 4 * k) by lia. rewrite <- drop_drop by lia. now rewrite E. }
    destruct Hsplit as (x0 & x1 & x2 & x3 & Hsplit).
    assert (Hq : forall c0 c1 c2 c3,
      let buf' := take (4*k) buf ++ c0 :: c1 :: c2 :: c3 :: drop (4 * (k + 1)) buf in
      b64_bwd f buf' (zlen data) (3 * k - 3) (4 * k - 1)
      = Some (b64 (take (3 * k) data) ++ c0 :: c1 :: c2 :: c3 :: drop (4 * (k+1)) buf)).
    { intros. rewrite (IH f buf' data).
      - f_equal. f_equal. unfold buf'. rewrite drop_app_exact by zl. reflexivity.
      - assumption.
      - lia.
      - fold k. lia.
      - unfold buf'. zl.
      - fold k. unfold buf'. rewrite take_app_le by zl. rewrite take_take.
        replace (Z.min (Z.min (3 * k) (zlen data)) (4 * k)) with (3 * k) by lia.
        assert (T : take (3*k) (take (Z.min (3 * (k + 1)) (zlen data)) buf) = take (3*k) (take (Z.min (3 * (k + 1)) (zlen data)) data)) by now rewrite Hpre'.
        rewrite !take_take in T. replace (Z.min (3 * k) (Z.min (3 * (k + 1)) (zlen data))) with (3*k) in T by lia.
        exact T. }
    assert (Hd : b64 (take (3 * (k + 1)) data) = b64 (take (3*k) data) ++ b64 (take 3 (drop (3*k) data))).
    { rewrite (b64_split k) by zl. rewrite take_take. f_equal; [do 2 f_equal; lia|].
      f_equal. rewrite take_drop_comm by lia. do 2 f_equal. lia. }
    rewrite (drop_get_cons _ _ _ Ha) in Hd.
    destruct (3 * k + 1 <? zlen data) eqn:E1.
    + rewrite (G (3*k+1)) by lia.
      destruct (get_some data (3 * k + 1)) as [b Hbb]; [lia|]. rewrite Hbb. cbn [bind].
      pose proof (bytes_get _ _ _ Hb Hbb) as Hb2.
      rewrite (drop_get_cons _ _ _ Hbb) in Hd.
      destruct (3 * k + 2 <? zlen data) eqn:E2.
      * rewrite (G (3*k+2)) by lia.
        destruct (get_some data (3 * k + 2)) as [c Hcc]; [lia|]. rewrite Hcc. cbn [bind].
        pose proof (bytes_get _ _ _ Hb Hcc) as Hb3.
        replace (3 * k + 1 + 1) with (3 * k + 2) in Hd by lia. rewrite (drop_get_cons _ _ _ Hcc) in Hd.
        rewrite !b64_char_ch by lia. cbn [bind].
        destruct (triple_ch a b c) as (T3 & T2 & T1 & T0); [assumption..|].
        rewrite T3, T2, T1, T0.
        rewrite Hsplit at 1. rewrite put4_bwd_k by zl.
        replace (4 * k + 3 - 4) with (4 * k - 1) by lia. rewrite Hq. rewrite Hd.
        change (take 3 (a :: b :: c :: drop (3 * k + 2 + 1) data)) with [a; b; c].
        cbn [b64]. rewrite app_nil_r. unfold quad3. now rewrite <- app_assoc.
      * rewrite (drop_all (3*k+1+1)) in Hd by lia. cbn [bind].
        rewrite !b64_char_ch by lia. cbn [bind].
        destruct (triple_ch a b 0) as (T3 & T2 & T1 & T0); [assumption..|unfold is_u8; lia|].
        rewrite T3, T2, T1.
        rewrite Hsplit at 1. rewrite put4_bwd_k by zl.
        replace (4 * k + 3 - 4) with (4 * k - 1) by lia. rewrite Hq. rewrite Hd.
        change (take 3 [a; b]) with [a; b].
        cbn [b64]. unfold quad2. replace (0 / 64) with 0 by reflexivity. rewrite Z.add_0_r. now rewrite <- app_assoc.
    + rewrite (drop_all (3*k+1)) in Hd by lia. replace (3 * k + 2 <? zlen data) with false by lia. cbn [bind].
      rewrite !b64_char_ch by lia. cbn [bind].
      destruct (triple_ch a 0 0) as (T3 & T2 & T1 & T0); [assumption..|unfold is_u8; lia|unfold is_u8; lia|].
      rewrite T3, T2.
      rewrite Hsplit at 1. rewrite put4_bwd_k by zl.
      replace (4 * k + 3 - 4) with (4 * k - 1) by lia. rewrite Hq. rewrite Hd.
      change (take 3 [a]) with [a].
      cbn [b64]. unfold quad1. replace (0 / 16) with 0 by reflexivity. rewrite Z.add_0_r. now rewrite <- app_assoc.
Qed.

Lemma base64_inplace_is_b64 buf n : bytes buf -> 0 <= n -> b64_enc_len n <= zlen buf ->
  b64_enc_len n <= INT_MAX ->
  base64_encode_inplace buf n = Some (b64 (take n buf) ++ drop (b64_enc_len n) buf).
Proof.
  intros Hb Hn Hl Hi. unfold base64_encode_inplace.
  set (m := Z.to_nat ((n + 2) / 3)).
  assert (Hm : b64_enc_len n = 4 * Z.of_nat m) by (unfold b64_enc_len, m; lia).
  assert (Hnl : n <= zlen buf) by (unfold b64_enc_len in *; lia).
  replace (s32 (b64_enc_len n) - 1) with (4 * Z.of_nat m - 1)
    by (unfold s32, INT_MAX in *; change (2^31) with 2147483648; change (2^32) with 4294967296; lia).
  replace (s32 (u32 (if n mod 3 =? 0 then n - 3 else n - n mod 3))) with (3 * Z.of_nat m - 3).
  2:{ unfold s32, u32, INT_MAX, b64_enc_len in *. change (2^31) with 2147483648. change (2^32) with 4294967296.
      destruct (n mod 3 =? 0) eqn:E; lia. }
  replace n with (zlen (take n buf)) at 2 by zl.
  rewrite b64_bwd_correct.
  - rewrite Hm. rewrite take_take. do 4 f_equal. lia.
  - now apply bytes_take.
  - unfold m; lia.
  - autorewrite with zlen. lia.
  - lia.
  - autorewrite with zlen. rewrite take_take. f_equal. unfold m. lia.
Qed.

Lemma base64_inplace_correct buf out n : bytes buf -> 0 <= n ->
  b64_enc_len n <= zlen buf -> b64_enc_len n <= zlen out -> b64_enc_len n <= INT_MAX ->
  exists enc, base64_encode (take n buf) out = Some (enc ++ drop (zlen enc) out) /\
    zlen enc = b64_enc_len n /\
    base64_encode_inplace buf n = Some (enc ++ drop (zlen enc) buf).
Proof.
  intros Hb Hn Hl Ho Hi.
  assert (E : zlen (take n buf) = n) by (unfold b64_enc_len in *; zl).
  exists (b64 (take n buf)). split; [|split].
  - apply base64_encode_is_b64; [now apply bytes_take|now rewrite E|now rewrite E].
  - now rewrite b64_len, E.
  - rewrite b64_len, E. now apply base64_inplace_is_b64.
Qed.
