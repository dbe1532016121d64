From Verif Require Import Base Conc ConcSpec LockConc CircularBufferProofs DeviceId DeviceIdSpec.

(** ** Digits *)
Lemma nib_ok upper v : 0 <= v < 16 -> nib upper v = digit (table upper) v.
Proof.
  intros H. assert (E : In v [0; 1; 2; 3; 4; 5; 6; 7; 8; 9; 10; 11; 12; 13; 14; 15]) by (cbn; lia).
  cbn [In] in E. destruct upper; repeat (destruct E as [<-|E]; [reflexivity|]); contradiction.
Qed.
Lemma hex2_ok upper v : is_u8 v -> hex2 upper v = in_hex (table upper) [v].
Proof.
  unfold is_u8. intros H. unfold hex2, in_hex. cbn [flat_map app]. rewrite Z.shiftr_div_pow2 by lia. change (2 ^ 4) with 16.
  change 15 with (Z.ones 4). rewrite (Z.land_ones v 4) by lia. change (2 ^ 4) with 16.
  rewrite !nib_ok; [reflexivity|apply Z.mod_pos_bound; lia|]. split; [apply Z.div_pos; lia|apply Z.div_lt_upper_bound; lia].
Qed.
Lemma hexes_ok upper id : bytes id -> flat_map (hex2 upper) id = in_hex (table upper) id.
Proof.
  induction 1 as [|v r H1 H2 IH]; [reflexivity|]. cbn [flat_map]. rewrite IH, hex2_ok by exact H1. reflexivity.
Qed.
Lemma zlen_hexes upper id : zlen (flat_map (hex2 upper) id) = 2 * zlen id.
Proof. induction id as [|v r IH]; [reflexivity|]. cbn [flat_map]. rewrite zlen_app, IH, zlen_cons. change (zlen (hex2 upper v)) with 2. lia. Qed.
Lemma digits_ok upper v : 0 <= v < 16 -> serial_char (digit (table upper) v).
Proof.
  intros H. rewrite <- nib_ok by exact H. unfold nib, serial_char. destruct (v <? 10) eqn:E, upper; lia.
Qed.
Lemma in_hex_chars upper id : bytes id -> Forall serial_char (in_hex (table upper) id).
Proof.
  induction 1 as [|v r H1 H2 IH]; cbn [in_hex flat_map app]; [constructor|]. unfold is_u8 in H1.
  constructor; [apply digits_ok; split; [apply Z.div_pos; lia|apply Z.div_lt_upper_bound; lia]|].
  constructor; [apply digits_ok; apply Z.mod_pos_bound; lia|exact IH].
Qed.
Lemma digit_inj upper a b : 0 <= a < 16 -> 0 <= b < 16 ->
  digit (table upper) a = digit (table upper) b -> a = b.
Proof. intros Ha Hb. rewrite <- !nib_ok by assumption. unfold nib. destruct (a <? 10) eqn:EA, (b <? 10) eqn:EB, upper; lia. Qed.
Lemma in_hex_inj upper a : forall b, bytes a -> bytes b ->
  in_hex (table upper) a = in_hex (table upper) b -> a = b.
Proof.
  induction a as [|x a IH]; intros [|y b] Ha Hb H; cbn [in_hex flat_map app] in H; try discriminate; [reflexivity|].
  inversion Ha as [|? ? Hx Ha']; subst. inversion Hb as [|? ? Hy Hb']; subst. injection H as H1 H2 H3. unfold is_u8 in *.
  apply digit_inj in H1; [|split; [apply Z.div_pos; lia|apply Z.div_lt_upper_bound; lia]|split; [apply Z.div_pos; lia|apply Z.div_lt_upper_bound; lia]].
  apply digit_inj in H2; [|apply Z.mod_pos_bound; lia|apply Z.mod_pos_bound; lia].
  f_equal; [|apply IH; assumption]. rewrite (Z.div_mod x 16), (Z.div_mod y 16) by lia. lia.
Qed.

(** ** Alone *)
Lemma solo_bind {S A B} (p : prog S A) (q : A -> prog S B) s :
  solo (pbind p q) s = match solo p s with Some (a, s') => solo (q a) s' | None => None end.
Proof.
  revert s. induction p as [a|k IH|k IH|X f k IH]; intros s; cbn [pbind solo]; auto. destruct (f s) as [(x & s')|]; auto.
Qed.
Lemma solo_stores l : forall i p m q b, zlen p = i -> zlen m = zlen l ->
  solo (p_stores i l) (mk_did (p ++ m ++ q) b) = Some (tt, mk_did (p ++ l ++ q) b).
Proof.
  induction l as [|x l IH]; intros i p m q b HP HM; cbn [p_stores].
  - destruct m as [|y m]; [reflexivity|rewrite zlen_cons in HM; pose proof (zlen_nonneg m); change (zlen (@nil Z)) with 0 in HM; lia].
  - destruct m as [|y m]; [rewrite zlen_cons in HM; pose proof (zlen_nonneg l); change (zlen (@nil Z)) with 0 in HM; lia|].
    rewrite !zlen_cons in HM. cbn [p_store pbind solo d_buf app]. rewrite put_app_pre by exact HP. cbn [bind].
    unfold set_buf. cbn [d_init]. change (p ++ x :: m ++ q) with (p ++ [x] ++ m ++ q). rewrite app_assoc.
    rewrite IH by (try rewrite zlen_app; try change (zlen [x]) with 1; lia). rewrite <- app_assoc. reflexivity.
Qed.
Lemma solo_string text : forall p q b fuel, Forall (fun c => c <> 0) text -> (length text < fuel)%nat ->
  solo (p_string fuel (zlen p)) (mk_did (p ++ text ++ 0 :: q) b) = Some (text, mk_did (p ++ text ++ 0 :: q) b).
Proof.
  induction text as [|c r IH]; intros p q b fuel HN HF; (destruct fuel as [|f]; [cbn in HF; lia|]); cbn [p_string pbind solo d_buf app].
  - rewrite get_app2 by lia. replace (zlen p - zlen p) with 0 by lia. reflexivity.
  - rewrite get_app2 by lia. replace (zlen p - zlen p) with 0 by lia. change (get (c :: r ++ 0 :: q) 0) with (Some c). cbn [bind].
    inversion HN as [|? ? H1 H2]; subst. replace (c =? 0) with false by lia. rewrite solo_bind.
    change (p ++ c :: r ++ 0 :: q) with (p ++ [c] ++ r ++ 0 :: q). rewrite (app_assoc p [c]).
    replace (zlen p + 1) with (zlen (p ++ [c])) by (rewrite zlen_app; reflexivity).
    cbn [length] in HF. rewrite IH by (try assumption; lia). reflexivity.
Qed.
(** [m] replaced by the text and a NUL at its end. *)
Lemma solo_snprintf text space p m q b : zlen text < space -> zlen m = zlen text + 1 ->
  solo (p_snprintf (zlen p) space text) (mk_did (p ++ m ++ q) b) = Some (tt, mk_did (p ++ (text ++ [0]) ++ q) b).
Proof.
  intros HS HM. pose proof (zlen_nonneg text). unfold p_snprintf. replace (space <=? 0) with false by lia.
  rewrite take_all by lia. apply solo_stores; [reflexivity|]. rewrite zlen_app. change (zlen [0]) with 1. lia.
Qed.
Lemma split_at (l : list Z) n : 0 <= n <= zlen l -> exists a c, l = a ++ c /\ zlen a = n.
Proof.
  intros H. exists (take n l), (drop n l). split; [symmetry; apply take_drop|]. rewrite zlen_take. lia.
Qed.
Lemma zlen_hex2 u v : zlen (hex2 u v) = 2. Proof. reflexivity. Qed.
(** Two digits and a NUL, again and again: what is behind the first three bytes and the pairs is kept. *)
Lemma solo_mac id : forall p m q b L, id <> [] -> zlen m = 2 * zlen id + 1 -> L = zlen p + zlen m + zlen q -> L < 4294967296 ->
  solo (p_mac L (zlen p) id) (mk_did (p ++ m ++ q) b) = Some (tt, mk_did (p ++ (flat_map (hex2 true) id ++ [0]) ++ q) b).
Proof.
  induction id as [|v r IH]; intros p m q b L NE HM HL H32; [congruence|]. rewrite zlen_cons in HM.
  pose proof (zlen_nonneg r). pose proof (zlen_nonneg p). pose proof (zlen_nonneg q). cbn [p_mac]. rewrite solo_bind.
  rewrite u32_id by (unfold is_u32; lia). destruct (split_at m 3) as (a & c & -> & HA); [lia|]. rewrite zlen_app in *.
  rewrite <- (app_assoc a c q). rewrite solo_snprintf by (rewrite zlen_hex2; lia).
  replace (2 <? L - zlen p) with true by lia. cbn [flat_map].
  destruct r as [|v2 r].
  - destruct c as [|]; [|rewrite zlen_cons in HM; change (zlen (@nil Z)) with 0 in HM; pose proof (zlen_nonneg c); lia].
    cbn [p_mac solo flat_map]. rewrite app_nil_r. reflexivity.
  - replace (zlen p + 2) with (zlen (p ++ hex2 true v)) by (rewrite zlen_app; reflexivity).
    replace (p ++ (hex2 true v ++ [0]) ++ c ++ q) with ((p ++ hex2 true v) ++ (0 :: c) ++ q) by (rewrite <- !app_assoc; reflexivity).
    rewrite IH.
    + rewrite <- !app_assoc. reflexivity.
    + discriminate.
    + rewrite zlen_cons. lia.
    + rewrite zlen_app, zlen_hex2, zlen_cons. lia.
    + exact H32.
Qed.
Lemma solo_zephyr id : forall i p m q b, id <> [] -> zlen p = 2 * i -> zlen m = 2 * zlen id + 1 ->
  solo (p_zephyr i id) (mk_did (p ++ m ++ q) b) = Some (tt, mk_did (p ++ (flat_map (hex2 false) id ++ [0]) ++ q) b).
Proof.
  induction id as [|v r IH]; intros i p m q b NE HP HM; [congruence|]. rewrite zlen_cons in HM.
  pose proof (zlen_nonneg r). cbn [p_zephyr]. rewrite solo_bind. replace (i * 2) with (zlen p) by lia.
  destruct (split_at m 3) as (a & c & -> & HA); [lia|]. rewrite zlen_app in *.
  rewrite <- (app_assoc a c q). rewrite solo_snprintf by (rewrite zlen_hex2; lia). cbn [flat_map].
  destruct r as [|v2 r].
  - destruct c as [|]; [|rewrite zlen_cons in HM; change (zlen (@nil Z)) with 0 in HM; pose proof (zlen_nonneg c); lia].
    cbn [p_zephyr solo flat_map]. rewrite app_nil_r. reflexivity.
  - replace (p ++ (hex2 false v ++ [0]) ++ c ++ q) with ((p ++ hex2 false v) ++ (0 :: c) ++ q) by (rewrite <- !app_assoc; reflexivity).
    rewrite IH.
    + rewrite <- !app_assoc. reflexivity.
    + discriminate.
    + rewrite zlen_app, zlen_hex2. lia.
    + rewrite zlen_cons. lia.
Qed.
Lemma mbed_stores id : forall i s, solo (p_mbed i id) s = solo (p_stores i (flat_map (hex2 true) id ++ [0])) s.
Proof.
  induction id as [|v r IH]; intros i s.
  { cbn [p_mbed flat_map app p_stores]. rewrite solo_bind. destruct (solo (p_store i 0) s) as [([] & s1)|]; reflexivity. }
  cbn [p_mbed flat_map]. unfold hex2. cbn [app p_stores].
  rewrite !solo_bind. destruct (solo (p_store i _) s) as [(? & s1)|]; [|reflexivity]. rewrite !solo_bind.
  destruct (solo (p_store (i + 1) _) s1) as [(? & s2)|]; [|reflexivity]. rewrite IH. replace (i + 1 + 1) with (i + 2) by lia. reflexivity.
Qed.

(** The state after the first call: the serial, and zeros. *)
Definition told (p : dport) (id : list Z) : did :=
  mk_did (serial_of p id ++ fill (d_cap p - zlen (serial_of p id)) 0) (match p with DNrf5 | DDialog => true | _ => false end).
Lemma fill_0 n : 0 < n -> fill n 0 = 0 :: fill (n - 1) 0.
Proof. intros H. unfold fill. replace (Z.to_nat n) with (S (Z.to_nat (n - 1))) by lia. reflexivity. Qed.
Lemma fill_plus a b : 0 <= a -> 0 <= b -> fill (a + b) 0 = fill a 0 ++ fill b 0.
Proof. intros Ha Hb. unfold fill. rewrite Z2Nat.inj_add by lia. apply repeat_app. Qed.

Lemma told_buf p id : id_ok p id ->
  exists t q, t = serial_of p id /\ Forall (fun c => c <> 0) t /\ zlen t = 2 * zlen id /\ q = fill (d_cap p - zlen t - 1) 0 /\
    d_buf (told p id) = t ++ 0 :: q /\ zlen t + 1 <= d_cap p.
Proof.
  intros (HB & HL). assert (C : exists u l, serial_of p id = in_hex (table u) l /\ bytes l /\ zlen l = zlen id).
  { destruct p; try (exists true, id; repeat split; auto; fail).
    - exists true, (rev id). repeat split; [apply Forall_rev; exact HB|]. unfold zlen. rewrite rev_length. reflexivity.
    - exists false, id. auto. }
  destruct C as (u & l & E & HBl & HZ). exists (serial_of p id), (fill (d_cap p - zlen (serial_of p id) - 1) 0).
  assert (LEN : zlen (serial_of p id) = 2 * zlen id) by (rewrite E, <- hexes_ok, zlen_hexes by exact HBl; lia).
  assert (CAP : zlen (serial_of p id) + 1 <= d_cap p) by (rewrite LEN; destruct p; cbn [d_cap]; lia).
  repeat split; auto.
  - rewrite E. eapply Forall_impl; [|apply in_hex_chars; exact HBl]. unfold serial_char. intros a. lia.
  - unfold told. cbn [d_buf]. rewrite fill_0 by lia. reflexivity.
Qed.
(** A buffer in which the serial is, or in which nothing is yet. *)
Definition was (p : dport) (id : list Z) (s : did) : Prop := s = d_boot p \/ s = told p id.
Lemma was_buf p id s : id_ok p id -> was p id s ->
  exists m, zlen m = 2 * zlen id + 1 /\ d_buf s = m ++ fill (d_cap p - 2 * zlen id - 1) 0.
Proof.
  intros OK [-> | ->].
  - destruct (told_buf p id OK) as (t & q & -> & _ & LT & _ & _ & CAP). exists (fill (2 * zlen id + 1) 0).
    pose proof (zlen_nonneg id). split; [rewrite zlen_fill; lia|]. unfold d_boot. cbn [d_buf]. rewrite <- fill_plus by lia. f_equal. lia.
  - destruct (told_buf p id OK) as (t & q & -> & _ & LT & -> & E & CAP). exists (serial_of p id ++ [0]).
    split; [rewrite zlen_app; change (zlen [0]) with 1; lia|]. rewrite E, LT, <- app_assoc. reflexivity.
Qed.
Lemma did_eta s : mk_did (d_buf s) (d_init s) = s. Proof. destruct s. reflexivity. Qed.
Lemma read_told p id b : id_ok p id ->
  solo (p_string (S (Z.to_nat (d_cap p))) 0) (mk_did (d_buf (told p id)) b) =
  Some (serial_of p id, mk_did (d_buf (told p id)) b).
Proof.
  intros OK. destruct (told_buf p id OK) as (t & q & -> & HN & LT & _ & E & CAP). rewrite E.
  apply (solo_string (serial_of p id) [] q b); [exact HN|]. unfold zlen in CAP. lia.
Qed.
Lemma in_hex_flat u id : bytes id -> flat_map (hex2 u) id = in_hex (table u) id.
Proof. apply hexes_ok. Qed.
Lemma told_app p id : id_ok p id -> d_buf (told p id) = (serial_of p id ++ [0]) ++ fill (d_cap p - 2 * zlen id - 1) 0.
Proof. intros OK. destruct (told_buf p id OK) as (t & q & -> & _ & LT & -> & E & _). rewrite E, LT, <- app_assoc. reflexivity. Qed.
Lemma ids_ne p id : id_ok p id -> id <> [].
Proof. intros (_ & H) ->. change (zlen (@nil Z)) with 0 in H. destruct p; lia. Qed.
Lemma mac_ok p id s : id_ok p id -> was p id s -> d_cap p = 32 -> serial_of p id = in_hex (table true) id ->
  solo (p_mac 32 0 id) s = Some (tt, mk_did (d_buf (told p id)) (d_init s)).
Proof.
  intros OK W HC HS. destruct (was_buf p id s OK W) as (m & LM & E). rewrite (told_app p id OK), HS.
  rewrite <- (did_eta s), E. cbn [d_init]. rewrite <- hexes_ok by apply OK. pose proof (zlen_nonneg id).
  destruct (told_buf p id OK) as (t & q & -> & _ & LT & _ & _ & CAP).
  apply (solo_mac id [] m (fill (d_cap p - 2 * zlen id - 1) 0) (d_init s) 32); [eapply ids_ne; exact OK|exact LM| |lia].
  change (zlen (@nil Z)) with 0. rewrite zlen_fill by lia. lia.
Qed.
Lemma first_of p id : id_ok p id -> exists c, get (d_buf (told p id)) 0 = Some c /\ c <> 0.
Proof.
  intros OK. destruct (told_buf p id OK) as (t & q & -> & HN & LT & _ & E & _). rewrite E.
  pose proof (ids_ne p id OK) as NE. destruct id as [|v r]; [congruence|]. rewrite zlen_cons in LT. pose proof (zlen_nonneg r).
  destruct (serial_of p (v :: r)) as [|c t]; [change (zlen (@nil Z)) with 0 in LT; lia|]. exists c.
  inversion HN; subst. split; [reflexivity|assumption].
Qed.
Lemma solo_get i s : solo (Act (fun s => do b <- get (d_buf s) i; Some (b, s)) Ret) s = do b <- get (d_buf s) i; Some (b, s).
Proof. cbn [solo]. destruct (get (d_buf s) i); reflexivity. Qed.
Lemma serial_once p soc id s o : id_ok p id -> was p id s -> dc_isr o = false ->
  solo (p_serial p soc (Some id) o) s = Some (serial_of p id, told p id).
Proof.
  intros OK W HI. destruct p; cbn [p_serial].
  - rewrite solo_bind, solo_get. destruct W as [-> | ->].
    + change (get (d_buf (d_boot DEsp)) 0) with (Some 0). cbn [bind]. change (0 =? 0) with true. rewrite HI, solo_bind.
      rewrite (mac_ok DEsp id) by (auto; left; reflexivity). exact (read_told DEsp id _ OK).
    + destruct (first_of DEsp id OK) as (c & E & NZ). rewrite E. cbn [bind]. replace (c =? 0) with false by lia. exact (read_told DEsp id _ OK).
  - rewrite solo_bind, (mac_ok DWiced id s) by auto. destruct W as [-> | ->]; exact (read_told DWiced id _ OK).
  - cbn [fetch pbind solo]. destruct W as [-> | ->]; cbn [d_init d_boot told].
    + rewrite solo_bind, (mac_ok DNrf5 id) by (auto; left; reflexivity). cbn [change pbind solo]. exact (read_told DNrf5 id _ OK).
    + exact (read_told DNrf5 id _ OK).
  - cbn [fetch pbind solo]. destruct W as [-> | ->]; cbn [d_init d_boot told].
    + rewrite solo_bind. destruct (was_buf DDialog id (d_boot DDialog) OK) as (m & LM & E); [left; reflexivity|].
      rewrite <- (did_eta (d_boot DDialog)), E. destruct OK as (HB & HL).
      assert (LR : zlen (rev id) = 6) by (unfold zlen in *; rewrite rev_length; exact HL).
      pose proof (solo_snprintf (flat_map (hex2 true) (rev id)) 13 [] m (fill (d_cap DDialog - 2 * zlen id - 1) 0) (d_init (d_boot DDialog))) as SP.
      change (zlen (@nil Z)) with 0 in SP. change ([] ++ m ++ fill (d_cap DDialog - 2 * zlen id - 1) 0) with (m ++ fill (d_cap DDialog - 2 * zlen id - 1) 0) in SP.
      rewrite SP by (rewrite zlen_hexes; lia). clear SP.
      cbn [change pbind solo]. rewrite hexes_ok by (apply Forall_rev; exact HB).
      change ([] ++ (in_hex (table true) (rev id) ++ [0]) ++ fill (d_cap DDialog - 2 * zlen id - 1) 0)
        with ((serial_of DDialog id ++ [0]) ++ fill (d_cap DDialog - 2 * zlen id - 1) 0).
      rewrite <- told_app by (split; assumption). exact (read_told DDialog id _ (conj HB HL)).
    + exact (read_told DDialog id _ OK).
  - rewrite solo_bind, mbed_stores. destruct (was_buf DMbed id s OK W) as (m & LM & E). rewrite <- (did_eta s), E.
    pose proof (solo_stores (flat_map (hex2 true) id ++ [0]) 0 [] m (fill (d_cap DMbed - 2 * zlen id - 1) 0) (d_init s)) as SP.
    change ([] ++ m ++ fill (d_cap DMbed - 2 * zlen id - 1) 0) with (m ++ fill (d_cap DMbed - 2 * zlen id - 1) 0) in SP.
    rewrite SP by (auto; rewrite zlen_app, zlen_hexes; change (zlen [0]) with 1; lia). clear SP.
    rewrite hexes_ok by apply OK. change (in_hex (table true) id) with (serial_of DMbed id). cbn [app].
    rewrite <- told_app by exact OK. destruct W as [-> | ->]; exact (read_told DMbed id _ OK).
  - pose proof (ids_ne DZephyr id OK) as NE. destruct id as [|v r] eqn:EI; [congruence|]. rewrite <- EI in *.
    rewrite solo_bind. destruct (was_buf DZephyr id s OK W) as (m & LM & E). rewrite <- (did_eta s), E.
    pose proof (solo_zephyr id 0 [] m (fill (d_cap DZephyr - 2 * zlen id - 1) 0) (d_init s)) as SP.
    change ([] ++ m ++ fill (d_cap DZephyr - 2 * zlen id - 1) 0) with (m ++ fill (d_cap DZephyr - 2 * zlen id - 1) 0) in SP.
    rewrite SP by auto. clear SP.
    rewrite hexes_ok by apply OK. change (in_hex (table false) id) with (serial_of DZephyr id). cbn [app].
    rewrite <- told_app by exact OK. destruct W as [-> | ->]; exact (read_told DZephyr id _ OK).
Qed.

(** ** Several calls *)
Lemma asked_told p soc id ops : forall s rs s', id_ok p id -> was p id s -> Forall (fun o => dc_isr o = false) ops ->
  asked (fun o => solo (p_serial p soc (Some id) o)) s ops rs s' ->
  rs = map (fun _ => serial_of p id) ops /\ was p id s'.
Proof.
  induction ops as [|o ops IH]; intros s rs s' OK W HO HA; inversion HA as [|? ? ? r s1 rs1 s2 H1 H2]; subst; [auto|].
  inversion HO as [|? ? Ho HO']; subst. cbn beta in H1. rewrite (serial_once p soc id s o OK W Ho) in H1. injection H1 as <- <-.
  destruct (IH _ _ _ OK (or_intror eq_refl) HO' H2) as (-> & W2). auto.
Qed.
Lemma asked_all p soc id ops : forall s, id_ok p id -> was p id s -> Forall (fun o => dc_isr o = false) ops ->
  exists rs s', asked (fun o => solo (p_serial p soc (Some id) o)) s ops rs s'.
Proof.
  induction ops as [|o ops IH]; intros s OK W HO; [exists [], s; constructor|]. inversion HO as [|? ? Ho HO']; subst.
  destruct (IH (told p id) OK (or_intror eq_refl) HO') as (rs & s' & HA). exists (serial_of p id :: rs), s'.
  econstructor; [|exact HA]. apply serial_once; assumption.
Qed.
Lemma serials_valid p id : id_ok p id -> serial_valid (serial_of p id).
Proof.
  intros OK. pose proof (ids_ne p id OK) as NE. destruct (told_buf p id OK) as (t & q & -> & _ & LT & _).
  split; [intros E; rewrite E in LT; change (zlen (@nil Z)) with 0 in LT; destruct id as [|v r]; [congruence|rewrite zlen_cons in LT; pose proof (zlen_nonneg r); lia]|].
  destruct OK as (HB & _). destruct p; cbn [serial_of]; apply in_hex_chars; try exact HB. apply Forall_rev. exact HB.
Qed.
Lemma serials_differ p a b : id_ok p a -> id_ok p b -> serial_of p a = serial_of p b -> a = b.
Proof.
  intros (Ha & _) (Hb & _) E. destruct p; cbn [serial_of] in E; try (eapply in_hex_inj; [| |exact E]; assumption).
  apply in_hex_inj in E; [|apply Forall_rev; assumption|apply Forall_rev; assumption].
  rewrite <- (rev_involutive a), <- (rev_involutive b), E. reflexivity.
Qed.

(** ** At once *)
Section Safe.
  Context {S Op R : Type} (I : S -> Prop) (ext : S -> S -> Prop).
  Hypothesis ext_refl : forall s, ext s s.
  Hypothesis ext_trans : forall a b c, ext a b -> ext b c -> ext a c.
  (** Whatever the others do to the state between two accesses, as long as it is kept as [I] and [ext] say. *)
  Fixpoint safe {A} (p : prog S A) (Q : A -> S -> Prop) (s : S) : Prop :=
    match p with
    | Ret a => Q a s
    | Lock _ | Unlock _ => False
    | Act f k => forall s1, ext s s1 -> I s1 -> exists x s2, f s1 = Some (x, s2) /\ I s2 /\ ext s1 s2 /\ safe (k x) Q s2
    end.
  Lemma safe_bind {A B} (p : prog S A) (q : A -> prog S B) Q s :
    safe p (fun a s' => safe (q a) Q s') s -> safe (pbind p q) Q s.
  Proof.
    revert s. induction p as [a|k IH|k IH|X f k IH]; intros s H; cbn [pbind safe] in *; auto. intros s1 E1 I1.
    destruct (H s1 E1 I1) as (x & s2 & F & I2 & E2 & HS). exists x, s2. auto.
  Qed.
  Lemma safe_mono {A} (p : prog S A) (Q Q' : A -> S -> Prop) s : (forall a s, Q a s -> Q' a s) -> safe p Q s -> safe p Q' s.
  Proof.
    intros HQ. revert s. induction p as [a|k IH|k IH|X f k IH]; intros s H; cbn [safe] in *; auto. intros s1 E1 I1.
    destruct (H s1 E1 I1) as (x & s2 & F & I2 & E2 & HS). exists x, s2. auto.
  Qed.
  Variable code : Op -> prog S R.
  Variable ok : Op -> Prop.
  Variable good : R -> Prop.
  Hypothesis codes : forall o s, ok o -> I s -> safe (code o) (fun r _ => good r) s.
  Definition held (m : mach S Op R) : Prop :=
    I (m_shared m) /\ (forall t o p, m_thread m t = Some (o, p) -> exists s, ext s (m_shared m) /\ safe p (fun r _ => good r) s) /\
    Forall good (results (m_hist m)).
  Lemma results_snoc h (e : event Op R) : results (h ++ [e]) = results h ++ results [e].
  Proof. unfold results. apply flat_map_app. Qed.
  Lemma held_step m i : held m -> match i with Start _ o => ok o | Step _ => True end ->
    exists m', mach_step code m i = Some m' /\ held m'.
  Proof.
    intros (HI & HT & HH) HO. destruct i as [t o|t]; cbn [mach_step].
    - destruct (m_thread m t) as [x|] eqn:ET; [exists m; repeat split; auto|]. eexists. split; [reflexivity|].
      repeat split; cbn [m_shared m_thread m_hist]; auto.
      + intros u o' p. unfold upd. destruct (Nat.eqb u t); [|apply HT]. intros E. injection E as <- <-.
        exists (m_shared m). split; [apply ext_refl|apply codes; auto].
      + rewrite results_snoc. cbn. rewrite app_nil_r. exact HH.
    - destruct (m_thread m t) as [(o & p)|] eqn:ET; [|exists m; repeat split; auto].
      destruct (HT _ _ _ ET) as (s & E & HS). destruct p as [r|k|k|X f k]; cbn [safe] in HS; try contradiction.
      + eexists. split; [reflexivity|]. repeat split; cbn [m_shared m_thread m_hist]; auto.
        * intros u o' p. unfold upd. destruct (Nat.eqb u t); [discriminate|apply HT].
        * rewrite results_snoc. apply Forall_app. split; [exact HH|]. cbn. constructor; [exact HS|constructor].
      + destruct (HS _ E HI) as (x & s2 & F & I2 & E2 & HS2). rewrite F. eexists. split; [reflexivity|].
        repeat split; cbn [m_shared m_thread m_hist]; auto. intros u o' p. unfold upd. destruct (Nat.eqb u t).
        * intros EQ. injection EQ as <- <-. exists s2. split; [apply ext_refl|exact HS2].
        * intros EQ. destruct (HT _ _ _ EQ) as (s' & E' & HS'). exists s'. split; [eapply ext_trans; [exact E'|exact E2]|exact HS'].
  Qed.
  Lemma held_run sched : forall m, held m -> Forall (fun i => match i with Start _ o => ok o | Step _ => True end) sched ->
    exists m', mach_run code m sched = Some m' /\ Forall good (results (m_hist m')).
  Proof.
    induction sched as [|i l IH]; intros m HM HO; cbn [mach_run]; [exists m; split; [reflexivity|apply HM]|].
    inversion HO as [|? ? Hi HO']; subst. destruct (held_step m i HM Hi) as (m1 & -> & HM1). cbn [bind]. apply IH; assumption.
  Qed.
  Lemma safe_run s sched : I s -> Forall (fun i => match i with Start _ o => ok o | Step _ => True end) sched ->
    exists m', mach_run code (start_mach s) sched = Some m' /\ Forall good (results (m_hist m')).
  Proof.
    intros HI HO. apply held_run; [|exact HO]. repeat split; cbn [m_shared m_thread m_hist start_mach]; auto; [discriminate|constructor].
  Qed.
End Safe.

(** Reading while nobody changes the buffer. *)
Lemma safe_string (I : did -> Prop) (ext : did -> did -> Prop) (R : forall s, ext s s) (T : forall a b c, ext a b -> ext b c -> ext a c) W r :
  forall pre q fuel s, W = pre ++ r ++ 0 :: q -> Forall (fun c => c <> 0) r -> (length r < fuel)%nat ->
  (forall s1, ext s s1 -> I s1 -> d_buf s1 = W) -> safe I ext (p_string fuel (zlen pre)) (fun a _ => a = r) s.
Proof.
  induction r as [|c r IH]; intros pre q fuel s HW HN HF HB; (destruct fuel as [|f]; [cbn in HF; lia|]);
    cbn [p_string pbind safe]; intros s1 E1 I1; rewrite (HB s1 E1 I1), HW; cbn [app].
  - rewrite get_app2 by lia. replace (zlen pre - zlen pre) with 0 by lia. exists 0, s1. repeat split; auto.
  - rewrite get_app2 by lia. replace (zlen pre - zlen pre) with 0 by lia. exists c, s1. repeat split; auto.
    inversion HN as [|? ? H1 H2]; subst. replace (c =? 0) with false by lia. apply safe_bind. cbn [length] in HF.
    eapply safe_mono; [|replace (zlen pre + 1) with (zlen (pre ++ [c])) by (rewrite zlen_app; reflexivity); apply (IH (pre ++ [c]) q f s1)].
    + intros a s2 ->. cbn [safe]. reflexivity.
    + rewrite <- app_assoc. reflexivity.
    + exact H2.
    + lia.
    + intros s3 E3 I3. apply HB; [eapply T; eassumption|exact I3].
Qed.
(** After one call to its end, ports that then only read. *)
Lemma calm p soc id : id_ok p id -> p = DEsp \/ p = DNrf5 -> always_whole p soc id (told p id).
Proof.
  intros OK HP sched HO. destruct (told_buf p id OK) as (t & q & ET & HN & LT & _ & EB & CAP).
  assert (RD : forall s, safe (fun s => s = told p id) (fun _ _ => True) (p_string (S (Z.to_nat (d_cap p))) 0) (fun a _ => a = serial_of p id) s).
  { intros s. subst t. apply (safe_string _ _ (fun _ => Logic.I) (fun _ _ _ _ _ => Logic.I) (d_buf (told p id)) (serial_of p id) [] q).
    - exact EB.
    - exact HN.
    - unfold zlen in CAP. lia.
    - intros s1 _ ->. reflexivity. }
  apply (safe_run (fun s => s = told p id) (fun _ _ => True) (fun _ => Logic.I) (fun _ _ _ _ _ => Logic.I) _ (fun o => dc_isr o = false)); [|reflexivity|exact HO].
  intros o s Ho ->. destruct HP as [->| ->]; cbn [p_serial fetch pbind safe]; intros s1 _ ->.
  - destruct (first_of DEsp id OK) as (c & E & NZ). rewrite E. exists c, (told DEsp id). repeat split; auto.
    replace (c =? 0) with false by lia. apply RD.
  - exists true, (told DNrf5 id). repeat split; auto; apply RD.
Qed.

(** Bytes of the serial, or zeros. *)
Definition partly (p : dport) (id : list Z) (s : did) : Prop :=
  zlen (d_buf s) = d_cap p /\ forall i v, get (d_buf s) i = Some v -> v = 0 \/ get (d_buf (told p id)) i = Some v.
Lemma partly_boot p id : partly p id (d_boot p).
Proof.
  split; [cbn [d_boot d_buf]; rewrite zlen_fill; destruct p; cbn; lia|]. intros i v E. left. cbn [d_boot d_buf] in E.
  unfold get in E. destruct (i <? 0); [discriminate|]. unfold fill in E.
  apply nth_error_In in E. apply repeat_spec in E. exact E.
Qed.
Lemma put_get l i v : 0 <= i < zlen l -> exists l', put l i v = Some l' /\ zlen l' = zlen l /\
  forall j, get l' j = if j =? i then Some v else get l j.
Proof.
  intros H. unfold put. destruct (splice l i [v]) as [l'|] eqn:E; [|rewrite splice_some in E; [discriminate|lia|change (zlen [v]) with 1; lia]].
  exists l'. split; [reflexivity|]. split; [eapply splice_zlen; exact E|]. intros j. rewrite (get_splice _ _ _ _ j E). change (zlen [v]) with 1.
  destruct (Z.eqb_spec j i) as [->|NE].
  - replace ((i <=? i) && (i <? i + 1)) with true by lia. replace (i - i) with 0 by lia. reflexivity.
  - replace ((i <=? j) && (j <? i + 1)) with false by lia. reflexivity.
Qed.
Definition fits (p : dport) (id : list Z) (i b : Z) : Prop :=
  0 <= i < d_cap p /\ (b = 0 \/ get (d_buf (told p id)) i = Some b).
Definition free (a b : did) : Prop := True.
Lemma safe_store p id i b s : fits p id i b -> safe (partly p id) free (p_store i b) (fun _ _ => True) s.
Proof.
  intros (HI & HB). cbn [p_store safe]. intros s1 _ (L & H). destruct (put_get (d_buf s1) i b) as (l & E & LL & G); [lia|].
  rewrite E. cbn [bind]. exists tt, (set_buf s1 l). repeat split; cbn [set_buf d_buf]; try lia.
  intros j v. rewrite G. destruct (Z.eqb_spec j i) as [->|_]; [|apply H]. intros X. injection X as ->. exact HB.
Qed.
Lemma safe_then {A B} I ext (p : prog did A) (q : A -> prog did B) Q s :
  safe I ext p (fun _ _ => True) s -> (forall a s, safe I ext (q a) Q s) -> safe I ext (pbind p q) Q s.
Proof. intros H1 H2. apply safe_bind. eapply safe_mono; [|exact H1]. intros a s' _. apply H2. Qed.
Lemma safe_stores p id l : forall i s, (forall j b, get l j = Some b -> fits p id (i + j) b) ->
  safe (partly p id) free (p_stores i l) (fun _ _ => True) s.
Proof.
  induction l as [|b l IH]; intros i s H; cbn [p_stores]; [exact Logic.I|]. apply safe_then.
  - apply safe_store. replace i with (i + 0) by lia. apply H. reflexivity.
  - intros [] s'. apply IH. intros j c E. assert (0 <= j) by (apply get_range in E; lia). replace (i + 1 + j) with (i + (j + 1)) by lia.
    apply H. change (b :: l) with ([b] ++ l). rewrite get_app2 by (change (zlen [b]) with 1; lia).
    change (zlen [b]) with 1. replace (j + 1 - 1) with j by lia. exact E.
Qed.
Lemma two_fit p id u pre v rest q : d_buf (told p id) = flat_map (hex2 u) pre ++ hex2 u v ++ rest ++ 0 :: q ->
  zlen (d_buf (told p id)) = d_cap p ->
  forall j b, get (hex2 u v ++ [0]) j = Some b -> fits p id (2 * zlen pre + j) b.
Proof.
  intros E L j b G. pose proof (get_range _ _ _ G) as HJ. rewrite zlen_app, zlen_hex2 in HJ. change (zlen [0]) with 1 in HJ.
  pose proof (zlen_nonneg pre). pose proof (zlen_nonneg rest). pose proof (zlen_nonneg q).
  assert (LW := L). rewrite E in LW. rewrite !zlen_app, zlen_hexes, zlen_hex2, zlen_cons in LW.
  split; [lia|]. destruct (Z.lt_ge_cases j 2).
  - right. rewrite E. rewrite get_app2 by (rewrite zlen_hexes; lia). rewrite zlen_hexes. replace (2 * zlen pre + j - 2 * zlen pre) with j by lia.
    rewrite get_app1 by (rewrite zlen_hex2; lia). rewrite get_app1 in G by (rewrite zlen_hex2; lia). exact G.
  - left. rewrite get_app2 in G by (rewrite zlen_hex2; lia). rewrite zlen_hex2 in G. replace (j - 2) with 0 in G by lia. injection G as <-. reflexivity.
Qed.
Lemma two_cut p id u pre v r space : d_buf (told p id) = (flat_map (hex2 u) (pre ++ v :: r) ++ [0]) ++ fill (d_cap p - 2 * zlen id - 1) 0 ->
  zlen (d_buf (told p id)) = d_cap p -> 2 < space -> forall s i, i = 2 * zlen pre ->
  safe (partly p id) free (p_snprintf i space (hex2 u v)) (fun _ _ => True) s.
Proof.
  intros E L HS s i ->. unfold p_snprintf. replace (space <=? 0) with false by lia. rewrite take_all by (rewrite zlen_hex2; lia).
  apply safe_stores. apply (two_fit p id u pre v (flat_map (hex2 u) r) (fill (d_cap p - 2 * zlen id - 1) 0)); [|exact L].
  rewrite E, flat_map_app. cbn [flat_map]. rewrite <- !app_assoc. reflexivity.
Qed.
Lemma safe_mac p id r : forall pre s, d_buf (told p id) = (flat_map (hex2 true) (pre ++ r) ++ [0]) ++ fill (d_cap p - 2 * zlen id - 1) 0 ->
  zlen (d_buf (told p id)) = d_cap p -> d_cap p = 32 -> 2 * zlen (pre ++ r) + 1 <= 32 ->
  safe (partly p id) free (p_mac 32 (2 * zlen pre) r) (fun _ _ => True) s.
Proof.
  induction r as [|v r IH]; intros pre s E L HC HL; cbn [p_mac]; [exact Logic.I|]. pose proof (zlen_nonneg pre). pose proof (zlen_nonneg r).
  rewrite zlen_app, zlen_cons in HL. rewrite u32_id by (unfold is_u32; lia). apply safe_then.
  - apply (two_cut p id true pre v r); auto. lia.
  - intros [] s'. replace (2 <? 32 - 2 * zlen pre) with true by lia.
    replace (2 * zlen pre + 2) with (2 * zlen (pre ++ [v])) by (rewrite zlen_app; change (zlen [v]) with 1; lia).
    apply IH; auto; rewrite <- (app_assoc pre [v] r); [exact E|]. rewrite zlen_app. cbn [app]. rewrite zlen_cons. lia.
Qed.
Lemma safe_zephyr id r : forall pre s, d_buf (told DZephyr id) = (flat_map (hex2 false) (pre ++ r) ++ [0]) ++ fill (d_cap DZephyr - 2 * zlen id - 1) 0 ->
  zlen (d_buf (told DZephyr id)) = 33 ->
  safe (partly DZephyr id) free (p_zephyr (zlen pre) r) (fun _ _ => True) s.
Proof.
  induction r as [|v r IH]; intros pre s E L; cbn [p_zephyr]; [exact Logic.I|]. apply safe_then.
  - apply (two_cut DZephyr id false pre v r); auto; lia.
  - intros [] s'. replace (zlen pre + 1) with (zlen (pre ++ [v])) by (rewrite zlen_app; reflexivity).
    apply IH; auto; rewrite <- (app_assoc pre [v] r). exact E.
Qed.

Lemma safe_partly p id t q : d_buf (told p id) = t ++ 0 :: q -> Forall (fun c => c <> 0) t -> zlen t + 1 <= d_cap p ->
  forall fuel i s, 0 <= i <= zlen t -> zlen t - i < Z.of_nat fuel ->
  safe (partly p id) free (p_string fuel i) (fun a _ => exists more, drop i t = a ++ more) s.
Proof.
  intros E HN HC. induction fuel as [|f IH]; intros i s HI HF; [lia|]. cbn [p_string pbind safe]. intros s1 _ (L & H).
  destruct (get (d_buf s1) i) as [b|] eqn:G; [|destruct (get_some (d_buf s1) i) as (x & X); [lia|congruence]].
  cbn [bind]. exists b, s1. repeat split; auto. destruct (Z.eqb_spec b 0) as [->|NZ].
  - cbn [safe]. exists (drop i t). reflexivity.
  - destruct (H _ _ G) as [X|X]; [congruence|]. rewrite E in X. assert (HT : i < zlen t).
    { destruct (Z.lt_ge_cases i (zlen t)); [assumption|]. rewrite get_app2 in X by lia. replace (i - zlen t) with 0 in X by lia.
      injection X as <-. congruence. }
    rewrite get_app1 in X by lia. apply safe_bind. eapply safe_mono; [|apply (IH (i + 1) s1); lia].
    intros a s2 (more & EM). cbn [safe]. exists more. rewrite (drop_get_cons t i b X), EM. reflexivity.
Qed.
Lemma told_len p id : id_ok p id -> zlen (d_buf (told p id)) = d_cap p.
Proof.
  intros OK. destruct (told_buf p id OK) as (t & q & _ & _ & _ & -> & -> & CAP). pose proof (zlen_nonneg t).
  rewrite zlen_app, zlen_cons, zlen_fill by lia. lia.
Qed.
Lemma safe_mbed id r : forall pre s, d_buf (told DMbed id) = (flat_map (hex2 true) (pre ++ r) ++ [0]) ++ fill (d_cap DMbed - 2 * zlen id - 1) 0 ->
  zlen (d_buf (told DMbed id)) = d_cap DMbed -> safe (partly DMbed id) free (p_mbed (2 * zlen pre) r) (fun _ _ => True) s.
Proof.
  induction r as [|v r IH]; intros pre s E L; pose proof (zlen_nonneg pre).
  - cbn [p_mbed]. apply safe_store. split; [|left; reflexivity]. rewrite <- L, E, !zlen_app, zlen_hexes, zlen_app.
    change (zlen (@nil Z)) with 0. change (zlen [0]) with 1. pose proof (zlen_nonneg (fill (d_cap DMbed - 2 * zlen id - 1) 0)). lia.
  - cbn [p_mbed].
    assert (FIT : forall j b, get (hex2 true v ++ [0]) j = Some b -> fits DMbed id (2 * zlen pre + j) b).
    { apply (two_fit DMbed id true pre v (flat_map (hex2 true) r) (fill (d_cap DMbed - 2 * zlen id - 1) 0)); [|exact L].
      rewrite E, flat_map_app. cbn [flat_map]. rewrite <- !app_assoc. reflexivity. }
    apply safe_then; [apply safe_store; replace (2 * zlen pre) with (2 * zlen pre + 0) by lia; apply FIT; reflexivity|].
    intros [] s1. apply safe_then; [apply safe_store; apply FIT; reflexivity|]. intros [] s2.
    replace (2 * zlen pre + 2) with (2 * zlen (pre ++ [v])) by (rewrite zlen_app; change (zlen [v]) with 1; lia).
    apply IH; auto. rewrite <- (app_assoc pre [v] r). exact E.
Qed.
Lemma beginnings p soc id s : id_ok p id -> was p id s -> always_beginning p soc id s.
Proof.
  intros OK W sched HO. destruct (told_buf p id OK) as (t & q & ET & HN & LT & _ & EB & CAP). pose proof (told_len p id OK) as TL.
  pose proof (told_app p id OK) as TA. pose proof (zlen_nonneg t).
  assert (RD : forall s, safe (partly p id) free (p_string (S (Z.to_nat (d_cap p))) 0) (fun r _ => exists more, serial_of p id = r ++ more) s).
  { intros s0. rewrite <- ET. change t with (drop 0 t) at 1. apply (safe_partly p id t q EB HN CAP); lia. }
  assert (MAC : forall s, d_cap p = 32 -> serial_of p id = in_hex (table true) id -> safe (partly p id) free (p_mac 32 0 id) (fun _ _ => True) s).
  { intros s0 HC HS. apply (safe_mac p id id []); auto; [|cbn [app]; lia]. rewrite TA, HS, <- hexes_ok by apply OK. reflexivity. }
  apply (safe_run (partly p id) free (fun _ => Logic.I) (fun _ _ _ _ _ => Logic.I) _ (fun o => dc_isr o = false)); [| |exact HO].
  - intros o s0 Ho I0. destruct p; cbn [p_serial].
    + cbn [pbind safe]. intros s1 _ I1. destruct (get_some (d_buf s1) 0) as (b & G); [destruct I1 as (-> & _); cbn; lia|]. rewrite G. cbn [bind].
      exists b, s1. repeat split; try apply I1. destruct (b =? 0); [|apply RD]. rewrite Ho. apply safe_then; [apply MAC; reflexivity|]. intros; apply RD.
    + apply safe_then; [apply MAC; reflexivity|]. intros; apply RD.
    + cbn [fetch pbind safe]. intros s1 _ I1. exists (d_init s1), s1. repeat split; try apply I1. destruct (d_init s1); [apply RD|].
      apply safe_then; [apply MAC; reflexivity|]. intros [] s2. cbn [change pbind safe]. intros s3 _ I3. exists tt, (set_init s3). repeat split; try apply I3. apply RD.
    + cbn [fetch pbind safe]. intros s1 _ I1. exists (d_init s1), s1. repeat split; try apply I1. destruct (d_init s1); [apply RD|].
      apply safe_then.
      * unfold p_snprintf. change (13 <=? 0) with false. cbv beta iota. destruct OK as (HB & HL).
        assert (LR : zlen (rev id) = 6) by (unfold zlen in *; rewrite rev_length; exact HL).
        rewrite take_all by (rewrite zlen_hexes; lia). apply safe_stores. intros j b G. rewrite hexes_ok in G by (apply Forall_rev; exact HB).
        pose proof (get_range _ _ _ G) as RJ. split; [rewrite zlen_app in RJ; change (zlen [0]) with 1 in RJ; cbn [serial_of] in ET; rewrite <- ET in RJ; cbn [d_cap]; lia|].
        right. rewrite TA. cbn [serial_of]. rewrite get_app1 by lia. exact G.
      * intros [] s2. cbn [change pbind safe]. intros s3 _ I3. exists tt, (set_init s3). repeat split; try apply I3. apply RD.
    + apply safe_then; [|intros; apply RD]. apply (safe_mbed id id []); [|exact TL]. rewrite TA. cbn [serial_of app]. rewrite <- hexes_ok by apply OK. reflexivity.
    + pose proof (ids_ne DZephyr id OK) as NE. destruct id as [|v r] eqn:EI; [congruence|]. rewrite <- EI in *.
      apply safe_then; [|intros; apply RD]. apply (safe_zephyr id id []); [|exact TL]. rewrite TA. cbn [serial_of app]. rewrite <- hexes_ok by apply OK. reflexivity.
  - destruct W as [-> | ->]; [apply partly_boot|]. split; [exact TL|]. auto.
Qed.
(** Mbed stores each byte's final value, and no other. *)
Definition stays (W : list Z) (a b : did) : Prop := forall i, get (d_buf a) i = get W i -> get (d_buf b) i = get W i.
Definition upto (W : list Z) (k : Z) (s : did) : Prop := forall j, 0 <= j < k -> get (d_buf s) j = get W j.
Section Final.
  Variable W : list Z.
  Definition sized (s : did) : Prop := zlen (d_buf s) = zlen W /\ (d_init s = true -> upto W (zlen W) s).
  Lemma stays_refl s : stays W s s. Proof. intros i H. exact H. Qed.
  Lemma stays_trans a b c : stays W a b -> stays W b c -> stays W a c. Proof. intros H1 H2 i H. auto. Qed.
  Lemma final_store i b s : get W i = Some b -> upto W i s ->
    safe sized (stays W) (p_store i b) (fun _ s' => upto W (i + 1) s') s.
  Proof.
    intros HW HU. pose proof (get_range _ _ _ HW) as HR. cbn [p_store safe]. intros s1 E1 (L1 & N1).
    destruct (put_get (d_buf s1) i b) as (l & E & LL & G); [lia|]. rewrite E. cbn [bind]. exists tt, (set_buf s1 l).
    repeat split; unfold stays, upto; cbn [set_buf d_buf d_init]; try lia.
    - intros HN j HJ. rewrite G. destruct (Z.eqb_spec j i) as [->|_]; [congruence|]. apply N1; assumption.
    - intros j. rewrite G. destruct (Z.eqb_spec j i) as [->|_]; congruence.
    - intros j HJ. rewrite G. destruct (Z.eqb_spec j i) as [->|NE]; [congruence|]. apply E1, HU. lia.
  Qed.
  Lemma final_mbed r : forall pre s, W = flat_map (hex2 true) (pre ++ r) ++ [0] -> upto W (2 * zlen pre) s ->
    safe sized (stays W) (p_mbed (2 * zlen pre) r) (fun _ s' => upto W (zlen W) s') s.
  Proof.
    induction r as [|v r IH]; intros pre s HW HU; pose proof (zlen_nonneg pre).
    - cbn [p_mbed]. rewrite app_nil_r in HW. replace (zlen W) with (2 * zlen pre + 1) by (rewrite HW, zlen_app, zlen_hexes; change (zlen [0]) with 1; lia).
      apply final_store; [|exact HU]. rewrite HW. apply get_app_pre. apply zlen_hexes.
    - cbn [p_mbed]. assert (E : W = flat_map (hex2 true) pre ++ hex2 true v ++ flat_map (hex2 true) r ++ [0]) by (rewrite HW, flat_map_app; cbn [flat_map]; rewrite <- !app_assoc; reflexivity).
      apply safe_bind. eapply safe_mono; [|apply final_store; [|exact HU]]; [|rewrite E; unfold hex2 at 2; cbn [app]; apply get_app_pre; apply zlen_hexes].
      intros [] s1 U1. apply safe_bind. eapply safe_mono; [|apply final_store; [|exact U1]].
      + intros [] s2 U2. replace (2 * zlen pre + 2) with (2 * zlen (pre ++ [v])) by (rewrite zlen_app; change (zlen [v]) with 1; lia).
        apply IH; [rewrite <- (app_assoc pre [v] r); exact HW|]. replace (2 * zlen (pre ++ [v])) with (2 * zlen pre + 1 + 1) by (rewrite zlen_app; change (zlen [v]) with 1; lia). exact U2.
      + rewrite E. rewrite get_app2 by (rewrite zlen_hexes; lia). rewrite zlen_hexes. replace (2 * zlen pre + 1 - 2 * zlen pre) with 1 by lia. reflexivity.
  Qed.
  Lemma final_stores l : forall pre s, W = pre ++ l -> upto W (zlen pre) s ->
    safe sized (stays W) (p_stores (zlen pre) l) (fun _ s' => upto W (zlen W) s') s.
  Proof.
    induction l as [|b l IH]; intros pre s HW HU; cbn [p_stores].
    - rewrite app_nil_r in HW. cbn [safe]. replace (zlen W) with (zlen pre) by (rewrite HW; reflexivity). exact HU.
    - apply safe_bind. eapply safe_mono; [|apply final_store; [rewrite HW; apply get_app_pre; reflexivity|exact HU]].
      intros [] s1 U1. assert (Z1 : zlen (pre ++ [b]) = zlen pre + 1) by (rewrite zlen_app; reflexivity).
      rewrite <- Z1. apply IH; [rewrite <- app_assoc; exact HW|]. rewrite Z1. exact U1.
  Qed.
End Final.
Lemma mbed_whole soc id s : id_ok DMbed id -> was DMbed id s -> always_whole DMbed soc id s.
Proof.
  intros OK W sched HO. destruct (told_buf DMbed id OK) as (t & q & ET & HN & LT & _ & EB & CAP). pose proof (told_len DMbed id OK) as TL.
  destruct (OK) as (HB & HL).
  assert (EW : d_buf (told DMbed id) = flat_map (hex2 true) id ++ [0]).
  { rewrite (told_app DMbed id OK). cbn [serial_of]. rewrite <- hexes_ok by exact HB. replace (d_cap DMbed - 2 * zlen id - 1) with 0 by (cbn; lia). apply app_nil_r. }
  apply (safe_run (sized (d_buf (told DMbed id))) (stays (d_buf (told DMbed id))) (stays_refl _) (stays_trans _) _ (fun o => dc_isr o = false)); [| |exact HO].
  - intros o s0 Ho I0. cbn [p_serial]. apply safe_bind. eapply safe_mono; [|apply (final_mbed (d_buf (told DMbed id)) id []); [exact EW|intros j HJ; change (zlen (@nil Z)) with 0 in HJ; lia]].
    intros [] s1 U1. apply (safe_string _ _ (stays_refl _) (stays_trans _) (d_buf (told DMbed id)) (serial_of DMbed id) [] q); rewrite <- ?ET; auto.
    + unfold zlen in CAP. cbn [d_cap] in *. lia.
    + intros s2 E2 (L2 & _). apply list_eq_get; [exact L2|]. intros i HI. apply E2, U1. lia.
  - destruct W as [-> | ->]; (split; [rewrite TL|]); try reflexivity; try exact TL; try (cbn [d_boot d_buf]; rewrite zlen_fill; cbn; lia); try discriminate; intros _ j _; reflexivity.
Qed.
(** Dialog too, and says only then that it is done. *)
Lemma dialog_whole soc id s : id_ok DDialog id -> was DDialog id s -> always_whole DDialog soc id s.
Proof.
  intros OK W sched HO. destruct (told_buf DDialog id OK) as (t & q & ET & HN & LT & _ & EB & CAP). pose proof (told_len DDialog id OK) as TL.
  destruct (OK) as (HB & HL). assert (LR : zlen (rev id) = 6) by (unfold zlen in *; rewrite rev_length; exact HL).
  assert (EW : d_buf (told DDialog id) = flat_map (hex2 true) (rev id) ++ [0]).
  { rewrite (told_app DDialog id OK). cbn [serial_of]. rewrite <- hexes_ok by (apply Forall_rev; exact HB). replace (d_cap DDialog - 2 * zlen id - 1) with 0 by (cbn; lia). apply app_nil_r. }
  set (V := d_buf (told DDialog id)) in *.
  assert (RD : forall s1, upto V (zlen V) s1 -> safe (sized V) (stays V) (p_string (S (Z.to_nat (d_cap DDialog))) 0) (fun r _ => r = serial_of DDialog id) s1).
  { intros s1 U1. apply (safe_string _ _ (stays_refl _) (stays_trans _) V (serial_of DDialog id) [] q); rewrite <- ?ET; auto.
    + unfold zlen in CAP. cbn [d_cap] in *. lia.
    + intros s2 E2 (L2 & _). apply list_eq_get; [exact L2|]. intros i HI. apply E2, U1. lia. }
  apply (safe_run (sized V) (stays V) (stays_refl _) (stays_trans _) _ (fun o => dc_isr o = false)); [| |exact HO].
  - intros o s0 Ho I0. cbn [p_serial fetch pbind safe]. intros s1 _ I1. exists (d_init s1), s1. split; [reflexivity|]. split; [exact I1|]. split; [apply stays_refl|].
    destruct (d_init s1) eqn:EI; [apply RD, I1; exact EI|]. apply safe_bind. unfold p_snprintf. change (13 <=? 0) with false. cbv beta iota.
    rewrite take_all by (rewrite zlen_hexes; lia). eapply safe_mono; [|apply (final_stores V _ []); [exact EW|intros j HJ; change (zlen (@nil Z)) with 0 in HJ; lia]].
    intros [] s2 U2. cbn [change pbind safe]. intros s3 E3 (L3 & N3). exists tt, (set_init s3).
    assert (U3 : upto V (zlen V) (set_init s3)) by (intros j HJ; apply (E3 j), U2; exact HJ).
    split; [reflexivity|]. split; [split; [exact L3|intros _; exact U3]|]. split; [intros i HI; exact HI|]. apply RD. exact U3.
  - destruct W as [-> | ->]; (split; [|try discriminate; intros _ j _; reflexivity]); [|reflexivity]. rewrite TL. cbn [d_boot d_buf]. rewrite zlen_fill; cbn; lia.
Qed.

(** ** Refuted: a task that reads while another writes. *)
Definition other_told (p : dport) (id : list Z) (m : option (mach did dcall (list Z))) : bool :=
  match m with Some m => existsb (fun r => negb (if list_eq_dec Z.eq_dec r (serial_of p id) then true else false)) (results (m_hist m)) | None => true end.
Lemma other_told_ok p soc id s sched : forallb (fun i => match i with Start _ o => negb (dc_isr o) | Step _ => true end) sched = true ->
  other_told p id (mach_run (p_serial p soc (Some id)) (start_mach s) sched) = true -> ~ always_whole p soc id s.
Proof.
  intros HS HO HW. destruct (HW sched) as (m & HM & HR).
  - apply Forall_forall. intros i IN. rewrite forallb_forall in HS. specialize (HS _ IN). destruct i; [|exact Logic.I]. destruct (dc_isr o); [discriminate|reflexivity].
  - rewrite HM in HO. cbn [other_told] in HO. apply existsb_exists in HO as (r & IN & NE). rewrite Forall_forall in HR. specialize (HR _ IN).
    destruct (list_eq_dec Z.eq_dec r (serial_of p id)); [discriminate|contradiction].
Qed.
