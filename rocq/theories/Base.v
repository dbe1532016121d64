(** Shared vocabulary: machine integers as [Z] with explicit wrap, byte buffers as
    [list Z] with checked accesses.  This file models no function of the SDK by itself;
    it fixes how C's integer types and memory are represented (simplification: [size_t]
    is 32 bits wide, as on the MCUs the SDK targets). *)
From Coq Require Export ZArith List Lia Bool.
From Coq Require Export ZifyBool ZifyNat.
Export ListNotations.
#[global] Open Scope Z_scope.

#[global] Arguments Z.mul : simpl never.
#[global] Arguments Z.add : simpl never.
#[global] Arguments Z.sub : simpl never.
#[global] Arguments Z.opp : simpl never.
#[global] Arguments Z.div : simpl never.
#[global] Arguments Z.modulo : simpl never.
#[global] Arguments Z.pow : simpl never.
#[global] Arguments Z.land : simpl never.
#[global] Arguments Z.lor : simpl never.
#[global] Arguments Z.lxor : simpl never.
#[global] Arguments Z.shiftl : simpl never.
#[global] Arguments Z.shiftr : simpl never.
#[global] Arguments Z.testbit : simpl never.
#[global] Arguments Z.of_nat : simpl never.
#[global] Arguments Z.to_nat : simpl never.
#[global] Arguments Z.min : simpl never.
#[global] Arguments Z.max : simpl never.
#[global] Arguments Z.ltb : simpl never.
#[global] Arguments Z.leb : simpl never.
#[global] Arguments Z.eqb : simpl never.
#[global] Arguments Z.even : simpl never.
#[global] Arguments Z.odd : simpl never.

(** ** Machine integers (C11 6.2.5/9 and 6.3.1.3: unsigned arithmetic is modulo 2^n;
    conversion to a signed type wraps on the compilers the SDK supports). *)
Definition u8 (x : Z) : Z := x mod 2^8.
Definition u16 (x : Z) : Z := x mod 2^16.
Definition u32 (x : Z) : Z := x mod 2^32.
Definition u64 (x : Z) : Z := x mod 2^64.
Definition s32 (x : Z) : Z := (x + 2^31) mod 2^32 - 2^31.

Definition is_u8 (x : Z) : Prop := 0 <= x < 256.
Definition is_u16 (x : Z) : Prop := 0 <= x < 65536.
Definition is_u32 (x : Z) : Prop := 0 <= x < 4294967296.
Definition is_u64 (x : Z) : Prop := 0 <= x < 18446744073709551616.
Definition is_s32 (x : Z) : Prop := -2147483648 <= x < 2147483648.
Definition is_s64 (x : Z) : Prop := -9223372036854775808 <= x < 9223372036854775808.

Definition bytes (l : list Z) : Prop := Forall is_u8 l.

(** ** Buffers *)
Definition zlen {A} (l : list A) : Z := Z.of_nat (length l).
Definition take {A} (n : Z) (l : list A) : list A := firstn (Z.to_nat n) l.
Definition drop {A} (n : Z) (l : list A) : list A := skipn (Z.to_nat n) l.

(** Checked read of one element. *)
Definition get {A} (l : list A) (i : Z) : option A :=
  if i <? 0 then None else nth_error l (Z.to_nat i).

(** Checked read of [n] bytes at [off] ([memcpy] source). *)
Definition read_at (l : list Z) (off n : Z) : option (list Z) :=
  if (0 <=? off) && (0 <=? n) && (off + n <=? zlen l)
  then Some (take n (drop off l)) else None.

(** Checked write of [data] at [off] ([memcpy]/[memset] destination). *)
Definition splice (l : list Z) (off : Z) (data : list Z) : option (list Z) :=
  if (0 <=? off) && (off + zlen data <=? zlen l)
  then Some (take off l ++ data ++ drop (off + zlen data) l) else None.

(** Checked write of one byte. *)
Definition put (l : list Z) (i v : Z) : option (list Z) := splice l i [v].

Definition bind {A B} (x : option A) (f : A -> option B) : option B :=
  match x with Some a => f a | None => None end.
Notation "'do' x <- a ; b" := (bind a (fun x => b))
  (at level 200, x pattern, a at level 100, b at level 200).

(** [n] copies of a byte ([memset]). *)
Definition fill (n b : Z) : list Z := repeat b (Z.to_nat n).

(** ** Basic lemmas *)
Lemma zlen_nonneg {A} (l : list A) : 0 <= zlen l.
Proof. unfold zlen; lia. Qed.
Lemma zlen_nil {A} : zlen (@nil A) = 0.
Proof. reflexivity. Qed.
Lemma zlen_cons {A} (x : A) l : zlen (x :: l) = 1 + zlen l.
Proof. unfold zlen; cbn [length]; lia. Qed.
Lemma zlen_app {A} (a b : list A) : zlen (a ++ b) = zlen a + zlen b.
Proof. unfold zlen; rewrite app_length; lia. Qed.
Lemma zlen_fill n b : 0 <= n -> zlen (fill n b) = n.
Proof. intros; unfold zlen, fill; rewrite repeat_length; lia. Qed.
Lemma zlen_rev {A} (l : list A) : zlen (rev l) = zlen l.
Proof. unfold zlen; now rewrite rev_length. Qed.
Lemma zlen_map {A B} (f : A -> B) l : zlen (map f l) = zlen l.
Proof. unfold zlen; now rewrite map_length. Qed.
Lemma zlen_0_nil {A} (l : list A) : zlen l = 0 -> l = [].
Proof. destruct l; [reflexivity|rewrite zlen_cons; pose proof (zlen_nonneg l); lia]. Qed.

Lemma zlen_take {A} n (l : list A) : zlen (take n l) = Z.min (Z.max 0 n) (zlen l).
Proof. unfold zlen, take; rewrite firstn_length; lia. Qed.
Lemma zlen_drop {A} n (l : list A) : zlen (drop n l) = zlen l - Z.min (Z.max 0 n) (zlen l).
Proof. unfold zlen, drop; rewrite skipn_length; lia. Qed.

Lemma take_drop {A} n (l : list A) : take n l ++ drop n l = l.
Proof. apply firstn_skipn. Qed.
Lemma take_0 {A} (l : list A) : take 0 l = [].
Proof. reflexivity. Qed.
Lemma drop_0 {A} (l : list A) : drop 0 l = l.
Proof. reflexivity. Qed.
Lemma take_neg {A} n (l : list A) : n <= 0 -> take n l = [].
Proof. intros; unfold take. replace (Z.to_nat n) with 0%nat by lia. reflexivity. Qed.
Lemma drop_neg {A} n (l : list A) : n <= 0 -> drop n l = l.
Proof. intros; unfold drop. replace (Z.to_nat n) with 0%nat by lia. reflexivity. Qed.
Lemma take_all {A} n (l : list A) : zlen l <= n -> take n l = l.
Proof. unfold zlen, take; intros; apply firstn_all2; lia. Qed.
Lemma drop_all {A} n (l : list A) : zlen l <= n -> drop n l = [].
Proof. unfold zlen, drop; intros; apply skipn_all2; lia. Qed.
Lemma take_nil {A} n : take n (@nil A) = [].
Proof. unfold take; apply firstn_nil. Qed.
Lemma drop_nil {A} n : drop n (@nil A) = [].
Proof. unfold drop; apply skipn_nil. Qed.
Lemma drop_drop {A} a b (l : list A) : 0 <= a -> 0 <= b -> drop a (drop b l) = drop (a + b) l.
Proof.
  intros; unfold drop. rewrite Z2Nat.inj_add by lia.
  generalize (Z.to_nat a); generalize (Z.to_nat b); clear.
  intros n m; revert l; induction n; intros l; cbn.
  - now rewrite Nat.add_0_r.
  - destruct l; [now rewrite !skipn_nil|].
    rewrite IHn. now replace (m + S n)%nat with (S (m + n)) by lia.
Qed.
Lemma take_take {A} a b (l : list A) : take a (take b l) = take (Z.min a b) l.
Proof. unfold take; rewrite firstn_firstn. f_equal. lia. Qed.
Lemma take_app_le {A} n (a b : list A) : n <= zlen a -> take n (a ++ b) = take n a.
Proof.
  unfold take, zlen; intros. rewrite firstn_app.
  replace (Z.to_nat n - length a)%nat with 0%nat by lia. cbn. now rewrite app_nil_r.
Qed.
Lemma take_app_ge {A} n (a b : list A) : zlen a <= n -> take n (a ++ b) = a ++ take (n - zlen a) b.
Proof.
  unfold take, zlen; intros. rewrite firstn_app. rewrite firstn_all2 by lia.
  f_equal. f_equal. lia.
Qed.
Lemma drop_app_le {A} n (a b : list A) : n <= zlen a -> drop n (a ++ b) = drop n a ++ b.
Proof.
  unfold drop, zlen; intros. rewrite skipn_app.
  now replace (Z.to_nat n - length a)%nat with 0%nat by lia.
Qed.
Lemma drop_app_ge {A} n (a b : list A) : zlen a <= n -> drop n (a ++ b) = drop (n - zlen a) b.
Proof.
  unfold drop, zlen; intros. rewrite skipn_app. rewrite skipn_all2 by lia.
  cbn. f_equal. lia.
Qed.
Lemma take_app_exact {A} n (a b : list A) : n = zlen a -> take n (a ++ b) = a.
Proof. intros ->. rewrite take_app_le by lia. apply take_all; lia. Qed.
Lemma drop_app_exact {A} n (a b : list A) : n = zlen a -> drop n (a ++ b) = b.
Proof. intros ->. rewrite drop_app_ge by lia. now rewrite Z.sub_diag. Qed.
Lemma take_drop_comm {A} a b (l : list A) : 0 <= a -> 0 <= b ->
  take a (drop b l) = drop b (take (a + b) l).
Proof.
  intros; unfold take, drop. rewrite Z2Nat.inj_add by lia.
  generalize (Z.to_nat a); generalize (Z.to_nat b); clear; intros n m.
  rewrite firstn_skipn_comm. f_equal. f_equal. lia.
Qed.
Lemma take_plus {A} a b (l : list A) : 0 <= a -> 0 <= b ->
  take (a + b) l = take a l ++ take b (drop a l).
Proof.
  intros. rewrite <- (take_drop a l) at 1.
  destruct (Z.le_gt_cases a (zlen l)).
  - rewrite take_app_ge by (rewrite zlen_take; lia). f_equal. f_equal.
    rewrite zlen_take; lia.
  - rewrite (drop_all a) by lia. rewrite take_nil, !app_nil_r.
    rewrite (take_all a l) by lia. apply take_all; lia.
Qed.

Lemma get_some {A} (l : list A) i : 0 <= i < zlen l -> exists x, get l i = Some x.
Proof.
  intros; unfold get. replace (i <? 0) with false by lia.
  destruct (nth_error l (Z.to_nat i)) eqn:E; eauto.
  apply nth_error_None in E. unfold zlen in *; lia.
Qed.
Lemma get_range {A} (l : list A) i x : get l i = Some x -> 0 <= i < zlen l.
Proof.
  unfold get. destruct (i <? 0) eqn:E; [discriminate|].
  intros H. assert (nth_error l (Z.to_nat i) <> None) by congruence.
  apply nth_error_Some in H0. unfold zlen; lia.
Qed.
Lemma get_in {A} (l : list A) i x : get l i = Some x -> In x l.
Proof.
  unfold get. destruct (i <? 0); [discriminate|]. apply nth_error_In.
Qed.
Lemma get_drop {A} (l : list A) a i : 0 <= a -> 0 <= i -> get (drop a l) i = get l (a + i).
Proof.
  intros; unfold get, drop.
  replace (i <? 0) with false by lia. replace (a + i <? 0) with false by lia.
  rewrite Z2Nat.inj_add by lia.
  generalize (Z.to_nat a); generalize (Z.to_nat i); clear; intros n m.
  revert l; induction m; intros; cbn; [reflexivity|].
  destruct l; [now destruct n|]. apply IHm.
Qed.
Lemma get_cons_0 {A} (x : A) l : get (x :: l) 0 = Some x.
Proof. reflexivity. Qed.
Lemma drop_get_cons {A} (l : list A) i x :
  get l i = Some x -> drop i l = x :: drop (i + 1) l.
Proof.
  intros H. pose proof (get_range _ _ _ H).
  rewrite <- (Z.add_comm 1 i), <- (drop_drop 1 i) by lia.
  replace i with (i + 0) in H by lia. rewrite <- get_drop in H by lia.
  destruct (drop i l); [discriminate|]. cbn in H. now inversion H.
Qed.
Lemma get_app1 {A} (a b : list A) i : i < zlen a -> get (a ++ b) i = get a i.
Proof.
  unfold get, zlen; intros. destruct (i <? 0) eqn:E; [reflexivity|].
  apply nth_error_app1; lia.
Qed.
Lemma get_app2 {A} (a b : list A) i : zlen a <= i -> get (a ++ b) i = get b (i - zlen a).
Proof.
  unfold get, zlen; intros.
  replace (i <? 0) with false by lia. replace (i - Z.of_nat (length a) <? 0) with false by lia.
  rewrite nth_error_app2 by lia. f_equal. lia.
Qed.

Lemma bytes_app a b : bytes (a ++ b) <-> bytes a /\ bytes b.
Proof. apply Forall_app. Qed.
Lemma bytes_take n l : bytes l -> bytes (take n l).
Proof. unfold bytes; intros H. rewrite <- (take_drop n l) in H. now apply Forall_app in H. Qed.
Lemma bytes_drop n l : bytes l -> bytes (drop n l).
Proof. unfold bytes; intros H. rewrite <- (take_drop n l) in H. now apply Forall_app in H. Qed.
Lemma bytes_fill n b : is_u8 b -> bytes (fill n b).
Proof. unfold bytes, fill; intros. apply Forall_forall. intros x Hx. apply repeat_spec in Hx. now subst. Qed.

Lemma splice_some l off d : 0 <= off -> off + zlen d <= zlen l ->
  splice l off d = Some (take off l ++ d ++ drop (off + zlen d) l).
Proof. intros; unfold splice. replace (0 <=? off) with true by lia.
  now replace (off + zlen d <=? zlen l) with true by lia. Qed.
Lemma splice_zlen l off d l' : splice l off d = Some l' -> zlen l' = zlen l.
Proof.
  unfold splice. destruct (0 <=? off) eqn:E1; [|discriminate].
  destruct (off + zlen d <=? zlen l) eqn:E2; [|discriminate]. cbn.
  injection 1 as <-. rewrite !zlen_app, zlen_take, zlen_drop.
  pose proof (zlen_nonneg d); lia.
Qed.
Lemma splice_inv l off d l' : splice l off d = Some l' ->
  0 <= off /\ off + zlen d <= zlen l /\ l' = take off l ++ d ++ drop (off + zlen d) l.
Proof.
  unfold splice. destruct (0 <=? off) eqn:E1; [|discriminate].
  destruct (off + zlen d <=? zlen l) eqn:E2; [|discriminate]. cbn.
  injection 1 as <-. repeat split; lia.
Qed.
Lemma read_at_some l off n : 0 <= off -> 0 <= n -> off + n <= zlen l ->
  read_at l off n = Some (take n (drop off l)).
Proof. intros; unfold read_at. replace (0 <=? off) with true by lia.
  replace (0 <=? n) with true by lia. now replace (off + n <=? zlen l) with true by lia. Qed.
Lemma read_at_inv l off n d : read_at l off n = Some d ->
  0 <= off /\ 0 <= n /\ off + n <= zlen l /\ d = take n (drop off l) /\ zlen d = n.
Proof.
  unfold read_at. destruct (0 <=? off) eqn:E1; [|discriminate].
  destruct (0 <=? n) eqn:E3; [|discriminate].
  destruct (off + n <=? zlen l) eqn:E2; [|discriminate]. cbn.
  injection 1 as <-. rewrite zlen_take, zlen_drop. repeat split; lia.
Qed.

Lemma u32_id x : is_u32 x -> u32 x = x.
Proof. intros; unfold u32; apply Z.mod_small. exact H. Qed.
Lemma u32_range x : is_u32 (u32 x).
Proof. apply Z.mod_pos_bound; lia. Qed.
Lemma u8_id x : is_u8 x -> u8 x = x.
Proof. intros; unfold u8; apply Z.mod_small. exact H. Qed.
Lemma u8_range x : is_u8 (u8 x).
Proof. apply Z.mod_pos_bound; lia. Qed.
Lemma u16_id x : is_u16 x -> u16 x = x.
Proof. intros; unfold u16; apply Z.mod_small. exact H. Qed.
Lemma u16_range x : is_u16 (u16 x).
Proof. apply Z.mod_pos_bound; lia. Qed.

Lemma bind_some {A B} (x : option A) (f : A -> option B) b :
  bind x f = Some b -> exists a, x = Some a /\ f a = Some b.
Proof. destruct x; cbn; [eauto|discriminate]. Qed.

(** A finite range of integers can be checked by computation (this is a proof by
    exhaustion over the whole range, not a sample). *)
Definition zrange (n : nat) : list Z := map Z.of_nat (seq 0 n).
Lemma zrange_all (P : Z -> bool) n :
  forallb P (zrange n) = true -> forall x, 0 <= x < Z.of_nat n -> P x = true.
Proof.
  unfold zrange; intros H x Hx. rewrite forallb_forall in H. apply H.
  apply in_map_iff. exists (Z.to_nat x). split; [lia|]. apply in_seq. lia.
Qed.

Lemma land_127 x : Z.land x 127 = x mod 128.
Proof. change 127 with (Z.ones 7). now rewrite Z.land_ones by lia. Qed.
Lemma land_255 x : Z.land x 255 = x mod 256.
Proof. change 255 with (Z.ones 8). now rewrite Z.land_ones by lia. Qed.
Lemma shiftr_div x n : 0 <= n -> Z.shiftr x n = x / 2 ^ n.
Proof. intros; now apply Z.shiftr_div_pow2. Qed.

(** C string/char literals as byte lists. *)
From Coq Require Ascii String.
Definition str (s : String.string) : list Z :=
  map (fun c => Z.of_nat (Ascii.nat_of_ascii c)) (String.list_ascii_of_string s).
Arguments str s%string_scope.

(** ** More splice lemmas *)
Lemma splice_app_pre p s off d : zlen p = off -> zlen d <= zlen s ->
  splice (p ++ s) off d = Some (p ++ d ++ drop (zlen d) s).
Proof.
  intros Hp Hd. pose proof (zlen_nonneg p). pose proof (zlen_nonneg d).
  rewrite splice_some by (rewrite ?zlen_app; lia).
  rewrite take_app_exact by lia. rewrite drop_app_ge by lia.
  do 4 f_equal. lia.
Qed.
Lemma put_app_pre p x s i v : zlen p = i -> put (p ++ x :: s) i v = Some (p ++ v :: s).
Proof.
  intros. unfold put. rewrite splice_app_pre; [reflexivity|assumption|].
  rewrite !zlen_cons, zlen_nil. pose proof (zlen_nonneg s). lia.
Qed.
Lemma get_app_pre (p : list Z) x s i : zlen p = i -> get (p ++ x :: s) i = Some x.
Proof.
  intros. rewrite get_app2 by lia. replace (i - zlen p) with 0 by lia. reflexivity.
Qed.

(** ** Proof automation *)
#[global] Hint Rewrite @zlen_app @zlen_cons @zlen_nil @zlen_take @zlen_drop @zlen_rev @zlen_map : zlen.
Ltac znn :=
  repeat match goal with
  | |- context[zlen ?l] =>
      lazymatch goal with H : 0 <= zlen l |- _ => fail | _ => pose proof (zlen_nonneg l) end
  | _ : context[zlen ?l] |- _ =>
      lazymatch goal with H : 0 <= zlen l |- _ => fail | _ => pose proof (zlen_nonneg l) end
  end.
(** Solve an arithmetic goal about list lengths. *)
Ltac zl := autorewrite with zlen in *; znn; lia.
(** Decide every [if] in the goal whose condition follows from the context. *)
Ltac ifz :=
  repeat match goal with
  | |- context[if ?b then _ else _] =>
      first [ replace b with true by zl | replace b with false by zl ]
  end.
Ltac ifz_in H :=
  repeat match type of H with
  | context[if ?b then _ else _] =>
      first [ replace b with true in H by zl | replace b with false in H by zl ]
  end.
Ltac inv H := inversion H; subst; clear H.
(** Break a [do] chain in a hypothesis. *)
Lemma bind_inv {A B} (x : option A) (f : A -> option B) b :
  bind x f = Some b -> exists a, x = Some a /\ f a = Some b.
Proof. destruct x; [eauto|discriminate]. Qed.
Ltac binv H :=
  let a := fresh "v" in let E := fresh "E" in
  apply bind_inv in H; destruct H as (a & E & H).

Lemma list_eq_get {A} (a b : list A) :
  zlen a = zlen b -> (forall i, 0 <= i < zlen a -> get a i = get b i) -> a = b.
Proof.
  revert b; induction a as [|x a IH]; intros [|y b] Hl Hg; [reflexivity|zl|zl|].
  f_equal.
  - specialize (Hg 0). cbn in Hg. assert (Some x = Some y) by (apply Hg; zl). congruence.
  - apply IH; [zl|]. intros i Hi. specialize (Hg (i + 1)).
    assert (E : forall (z : A) l, get (z :: l) (i + 1) = get l i).
    { intros. unfold get. ifz. replace (Z.to_nat (i + 1)) with (S (Z.to_nat i)) by lia. reflexivity. }
    rewrite <- (E x a), <- (E y b). apply Hg. zl.
Qed.

(** Exhaustive check of a 16-bit domain. *)
Lemma zrange2_all (p : Z -> bool) :
  forallb (fun h => forallb (fun l => p (256 * h + l)) (zrange 256)) (zrange 256) = true ->
  forall c, 0 <= c < 65536 -> p c = true.
Proof.
  intros H c Hc. rewrite (Z.div_mod c 256) by lia.
  pose proof (Z.mod_pos_bound c 256 ltac:(lia)).
  assert (Hq : 0 <= c / 256 < Z.of_nat 256).
  { split; [apply Z.div_pos; lia|]. apply Z.div_lt_upper_bound; lia. }
  pose proof (zrange_all (fun h => forallb (fun l => p (256 * h + l)) (zrange 256)) 256 H _ Hq) as H1.
  cbv beta in H1.
  exact (zrange_all (fun l => p (256 * (c / 256) + l)) 256 H1 _ H0).
Qed.
