(** Proofs about the coredump storage ports. *)
From Verif Require Import Base Coredump CoredumpSpec CoredumpProofs CoredumpSaveProofs BufferedStorage BufferedStorageSpec BufferedStorageProofs StoragePorts StoragePortsSpec.
Local Open Scope Z_scope.

(** ** Lists *)
Lemma replaced_len w off d : 0 <= off -> off + zlen d <= zlen w -> zlen (replaced w off d) = zlen w.
Proof. intros. pose proof (zlen_nonneg d). unfold replaced. rewrite !zlen_app, zlen_take, zlen_drop. lia. Qed.
Lemma replaced_twice w off a b : 0 <= off -> off + zlen a + zlen b <= zlen w -> replaced (replaced w off a) (off + zlen a) b = replaced w off (a ++ b).
Proof.
  intros H1 H2. pose proof (zlen_nonneg a). pose proof (zlen_nonneg b). unfold replaced.
  assert (LT : zlen (take off w) = off) by (rewrite zlen_take; lia).
  rewrite !(app_assoc (take off w) a (drop (off + zlen a) w)). rewrite (take_app_exact (off + zlen a) (take off w ++ a)) by (rewrite zlen_app; lia).
  rewrite (drop_app_ge (off + zlen a + zlen b)) by (rewrite zlen_app; lia).
  rewrite drop_drop by (rewrite ?zlen_app; lia). rewrite <- !app_assoc. do 4 f_equal. rewrite !zlen_app. lia.
Qed.
Lemma replaced_later w off a k n : 0 <= off -> off + zlen a <= k -> k <= zlen w -> take n (drop k (replaced w off a)) = take n (drop k w).
Proof.
  intros H1 H2 H3. pose proof (zlen_nonneg a). unfold replaced. assert (LT : zlen (take off w) = off) by (rewrite zlen_take; lia).
  rewrite app_assoc, drop_app_ge by (rewrite zlen_app; lia). rewrite drop_drop by (rewrite ?zlen_app; lia). do 2 f_equal. rewrite zlen_app. lia.
Qed.
Lemma target_split w off a b e : 0 <= off -> 0 <= a -> 0 <= b -> take (a + b) (drop off w) = fill (a + b) e ->
  take a (drop off w) = fill a e /\ take b (drop (off + a) w) = fill b e.
Proof.
  intros H1 H2 H3 H. rewrite fill_split in H by lia. rewrite take_plus in H by lia. rewrite drop_drop in H by lia.
  assert (L : zlen (take a (drop off w)) = a).
  { pose proof (f_equal zlen H) as L. rewrite !zlen_app, !zlen_fill in L by lia. rewrite zlen_take, (zlen_take b) in L. rewrite zlen_take. lia. }
  replace (a + off) with (off + a) in H by lia.
  assert (X : take a (drop off w) = fill a e).
  { pose proof (f_equal (take a) H) as T. rewrite !take_app_exact in T by (rewrite ?zlen_fill; lia). exact T. }
  split; [exact X|]. rewrite X in H. now apply app_inv_head in H.
Qed.
Lemma replaced_all w d : zlen d = zlen w -> replaced w 0 d = d.
Proof. intros H. unfold replaced. rewrite take_0, drop_all by lia. now rewrite app_nil_r. Qed.
Lemma replaced_nil w off : replaced w off [] = w.
Proof. unfold replaced. change (zlen []) with 0. rewrite Z.add_0_r. cbn [app]. apply take_drop. Qed.
Lemma take_fill n m b : 0 <= n <= m -> take n (fill m b) = fill n b.
Proof. intros H. replace m with (n + (m - n)) by lia. rewrite fill_split by lia. apply take_app_exact. symmetry. apply zlen_fill. lia. Qed.
Lemma fill_0 e : fill 0 e = [].
Proof. reflexivity. Qed.

(** ** Flash around the storage *)
Lemma read_in pre w post off n : 0 <= off -> 0 <= n -> off + n <= zlen w -> read_at (pre ++ w ++ post) (zlen pre + off) n = Some (take n (drop off w)).
Proof.
  intros. pose proof (zlen_nonneg pre). pose proof (zlen_nonneg post). rewrite read_at_some by (rewrite ?zlen_app; lia). f_equal.
  rewrite drop_app_ge by lia. replace (zlen pre + off - zlen pre) with off by lia. rewrite drop_app_le by lia. apply take_app_le. rewrite zlen_drop. lia.
Qed.
Lemma splice_in pre w post off d : 0 <= off -> off + zlen d <= zlen w -> splice (pre ++ w ++ post) (zlen pre + off) d = Some (pre ++ replaced w off d ++ post).
Proof.
  intros. pose proof (zlen_nonneg pre). pose proof (zlen_nonneg post). pose proof (zlen_nonneg d). rewrite splice_some by (rewrite ?zlen_app; lia). f_equal. unfold replaced.
  rewrite take_app_ge by lia. replace (zlen pre + off - zlen pre) with off by lia. rewrite take_app_le by lia. rewrite drop_app_ge by lia.
  replace (zlen pre + off + zlen d - zlen pre) with (off + zlen d) by lia. rewrite drop_app_le by lia. now rewrite <- !app_assoc.
Qed.
Lemma and_erased d : bytes d -> and_bytes (fill (zlen d) 255) d = d.
Proof.
  induction 1 as [|x d B F IH]; [reflexivity|]. rewrite zlen_cons. pose proof (zlen_nonneg d). rewrite fill_split by lia. change (fill 1 255) with [255]. cbn [app and_bytes].
  rewrite IH. f_equal. rewrite Z.land_comm, land_255. apply Z.mod_small. exact B.
Qed.
Lemma and_zeros n : forall old, zlen old = n -> and_bytes old (fill n 0) = fill n 0.
Proof.
  intros old <-. induction old as [|x old IH]; [reflexivity|]. rewrite zlen_cons. pose proof (zlen_nonneg old). rewrite fill_split by lia. change (fill 1 0) with [0]. cbn [app and_bytes].
  now rewrite IH, Z.land_0_r.
Qed.
Lemma and_len old : forall d, zlen (and_bytes old d) = Z.min (zlen old) (zlen d).
Proof.
  induction old as [|x old IH]; intros d; [cbn; rewrite zlen_nil; pose proof (zlen_nonneg d); lia|]. destruct d as [|y d]; [cbn [and_bytes]; rewrite !zlen_nil; pose proof (zlen_nonneg (x :: old)); lia|].
  cbn [and_bytes]. rewrite !zlen_cons, IH. lia.
Qed.
Lemma prog_in pre w post off d : bytes d -> 0 <= off -> off + zlen d <= zlen w -> take (zlen d) (drop off w) = fill (zlen d) 255 ->
  nor_prog (pre ++ w ++ post) (zlen pre + off) d = Some (pre ++ replaced w off d ++ post).
Proof. intros B H1 H2 T. pose proof (zlen_nonneg d). unfold nor_prog. rewrite read_in by lia. cbn [bind]. rewrite T, and_erased by exact B. apply splice_in; lia. Qed.
Lemma zero_in pre w post off n : 0 <= off -> 0 <= n -> off + n <= zlen w ->
  nor_prog (pre ++ w ++ post) (zlen pre + off) (fill n 0) = Some (pre ++ replaced w off (fill n 0) ++ post).
Proof. intros. unfold nor_prog. rewrite zlen_fill by lia. rewrite read_in by lia. cbn [bind]. rewrite and_zeros by (rewrite zlen_take, zlen_drop; lia). apply splice_in; rewrite ?zlen_fill; lia. Qed.
Lemma erase_in pre w post off n : 0 <= off -> 0 <= n -> off + n <= zlen w ->
  nor_erase (pre ++ w ++ post) (zlen pre + off) n = Some (pre ++ replaced w off (fill n 255) ++ post).
Proof. intros. unfold nor_erase. replace (0 <=? n) with true by lia. apply splice_in; rewrite ?zlen_fill; lia. Qed.
Lemma ecc_in u pre w post off d : zlen d = u -> (zlen pre + off) mod u = 0 -> 0 <= off -> off + u <= zlen w -> take u (drop off w) = fill u 255 \/ d = fill u 0 ->
  ecc_prog u (pre ++ w ++ post) (zlen pre + off) d = Some (pre ++ replaced w off d ++ post).
Proof.
  intros L M H1 H2 T. pose proof (zlen_nonneg d). unfold ecc_prog. rewrite M, L, !Z.eqb_refl. cbn [negb orb]. rewrite read_in by lia. cbn [bind].
  match goal with |- context [list_eq_dec Z.eq_dec ?a ?b] => destruct (list_eq_dec Z.eq_dec a b) as [Q|Q] end; cbn [orb]; [apply splice_in; lia|].
  destruct T as [T|T]; [congruence|]. match goal with |- context [list_eq_dec Z.eq_dec ?a ?b] => destruct (list_eq_dec Z.eq_dec a b) as [R|R]; [apply splice_in; lia|congruence] end.
Qed.

Lemma bounds_in size off n : 0 <= off -> 0 <= n -> off + n <= size -> size < 2 ^ 32 -> in_bounds size off n = true.
Proof. intros. unfold in_bounds. rewrite u32_id by (unfold is_u32; lia). lia. Qed.
Lemma bounds_out size off n : 0 <= off -> 0 <= n -> size < off + n < 2 ^ 32 -> in_bounds size off n = false.
Proof. intros. unfold in_bounds. rewrite u32_id by (unfold is_u32; lia). lia. Qed.
Lemma not_valid w b : get w 0 = Some b -> b <> 0x43 -> cd_has_valid true w = None.
Proof.
  intros G N. unfold cd_has_valid, cd_get_header. destruct (zlen w =? 0); [reflexivity|]. destruct (read_at w 0 12) as [h|] eqn:R; [|reflexivity].
  apply read_at_inv in R. destruct R as (_ & _ & L & E & _). rewrite drop_0 in E. unfold cd_header_valid.
  match goal with |- context [list_eq_dec ?a ?b ?c] => destruct (list_eq_dec a b c) as [Q|Q]; [|reflexivity] end. exfalso. apply N.
  subst h. rewrite take_take in Q. change (Z.min 4 12) with 4 in Q. destruct w as [|x w]; [discriminate|]. rewrite get_cons_0 in G. injection G as <-. apply (f_equal (fun l => hd 0 l)) in Q. exact Q.
Qed.
Lemma no_header w : zlen w < 12 -> cd_has_valid true w = None.
Proof.
  intros L. unfold cd_has_valid, cd_get_header. destruct (zlen w =? 0); [reflexivity|]. destruct (read_at w 0 12) as [h|] eqn:R; [|reflexivity].
  apply read_at_inv in R. lia.
Qed.
Lemma get_replaced_0 w d b : get d 0 = Some b -> get (replaced w 0 d) 0 = Some b.
Proof. intros G. pose proof (get_range _ _ _ G). unfold replaced. rewrite take_0. cbn [app]. now rewrite get_app1 by lia. Qed.
Lemma get_fill_0 n e : 0 < n -> get (fill n e) 0 = Some e.
Proof. intros. unfold fill. replace (Z.to_nat n) with (S (Z.to_nat (n - 1))) by lia. reflexivity. Qed.

(** ** The loops *)
Lemma erase_loop_sectors {S} (er : S -> Z -> option S) (emb : list Z -> S) e base sec lim size off0 : 0 < sec -> lim mod sec = 0 -> 0 <= base -> base + lim < 2 ^ 32 -> off0 + lim <= size -> 0 <= off0 ->
  (forall w k, zlen w = size -> 0 <= k -> k + sec <= lim -> k mod sec = 0 -> er (emb w) (base + k) = Some (emb (replaced w (off0 + k) (fill sec e)))) ->
  forall n w k, zlen w = size -> 0 <= k <= lim -> k mod sec = 0 -> lim - k <= Z.of_nat n ->
  erase_loop er n k lim sec base (emb w) = Some (emb (replaced w (off0 + k) (fill (lim - k) e))).
Proof.
  intros HS HM HB HB2 HL HO ER. assert (STEP : forall k, 0 <= k < lim -> k mod sec = 0 -> k + sec <= lim).
  { intros k K M. apply Z.mod_divide in M; [|lia]. apply Z.mod_divide in HM; [|lia]. destruct M as (q & Q). destruct HM as (r & R). clear - HS K Q R. assert (q < r) by nia. nia. }
  induction n as [|n IH]; intros w k L K M N; cbn [erase_loop].
  - replace (k <? lim) with false by lia. replace (lim - k) with 0 by lia. rewrite fill_0, replaced_nil. reflexivity.
  - destruct (Z_lt_ge_dec k lim) as [X|X].
    2:{ replace (k <? lim) with false by lia. replace (lim - k) with 0 by lia. rewrite fill_0, replaced_nil. reflexivity. }
    replace (k <? lim) with true by lia. pose proof (STEP k ltac:(lia) M) as ST.
    rewrite (u32_id (base + k)) by (unfold is_u32; lia). rewrite ER by (auto; lia). cbn [bind]. rewrite (u32_id (k + sec)) by (unfold is_u32; lia).
    rewrite IH; [| rewrite replaced_len by (rewrite ?zlen_fill; lia); lia | lia | rewrite <- Zplus_mod_idemp_r, Z_mod_same_full, Z.add_0_r; exact M | lia].
    do 2 f_equal. replace (off0 + (k + sec)) with (off0 + k + zlen (fill sec e)) by (rewrite zlen_fill; lia).
    rewrite replaced_twice by (rewrite ?zlen_fill by lia; lia). f_equal. rewrite <- fill_split by lia. f_equal. lia.
Qed.

(** ** What is written are bytes, never none *)
Definition goodw (w : cwrite) : Prop := bytes (cw_data w) /\ cw_data w <> [].
Definition keeps (f : cctx -> bool * cctx) : Prop := forall c, Forall goodw (cx_log c) -> Forall goodw (cx_log (snd (f c))).
Lemma bytes_le32 v : bytes (cd_le32 v).
Proof. unfold cd_le32. repeat constructor; apply Z.mod_pos_bound; lia. Qed.
Lemma keeps_write fail d : bytes d -> d <> [] -> keeps (cd_write fail d).
Proof.
  intros B N c H. unfold cd_write. destruct (cx_only c); [exact H|]. destruct (fail _); cbn [snd cx_log]; (apply Forall_app; split; [exact H|constructor; [split; [exact B|exact N]|constructor]]).
Qed.
Lemma keeps_words fail n : forall d, bytes d -> 4 * Z.of_nat n <= zlen d -> keeps (cd_write_words fail n d).
Proof.
  induction n as [|n IH]; intros d B L c H; [exact H|]. cbn [cd_write_words].
  assert (K : keeps (cd_write fail (take 4 d))).
  { apply keeps_write; [now apply bytes_take|]. intros E. pose proof (f_equal zlen E) as ZZ. rewrite zlen_take in ZZ. change (zlen (@nil Z)) with 0 in ZZ. lia. }
  specialize (K c H). destruct (cd_write fail (take 4 d) c) as (ok & c1). destruct ok; [|exact K]. apply IH; [now apply bytes_drop|rewrite zlen_drop; lia|exact K].
Qed.
Lemma bytes_block type addr len : is_u8 type -> bytes (cd_block type addr len).
Proof. intros T. unfold cd_block. apply bytes_app. split; [constructor; [exact T|repeat (constructor; [unfold is_u8; lia|]); constructor]|]. apply bytes_app. split; apply bytes_le32. Qed.
Lemma keeps_payload fail type addr d words : is_u8 type -> bytes d -> d <> [] -> keeps (cd_write_payload fail type addr d words).
Proof.
  intros T B N c H. unfold cd_write_payload. pose proof (keeps_write fail (cd_block type addr (zlen d)) (bytes_block _ _ _ T) ltac:(discriminate) c H) as K.
  destruct (cd_write fail _ c) as (ok & c1). destruct ok; cbn [negb]; [|exact K]. cbn [snd] in K. destruct (_ || _); [apply keeps_write; auto|].
  pose proof (zlen_nonneg d) as ZN. pose proof (keeps_words fail (Z.to_nat (zlen d / 4)) d B) as KW. pose proof (Z.div_pos (zlen d) 4 ZN ltac:(lia)) as DP. pose proof (Z.mul_div_le (zlen d) 4 ltac:(lia)) as DL.
  specialize (KW ltac:(lia) c1 K). destruct (cd_write_words _ _ _ c1) as (ok & c2). destruct ok; exact KW.
Qed.
Lemma keeps_block fail type null d addr words : is_u8 type -> bytes d -> keeps (cd_write_block fail type null d addr words).
Proof.
  intros T B c H. unfold cd_write_block. destruct ((zlen d =? 0) || null) eqn:E; [exact H|]. apply orb_false_iff in E. destruct E as (E & _).
  assert (N : d <> []) by (intros ->; discriminate). destruct (_ && _); [|apply keeps_payload; auto].
  destruct (_ <? 12) eqn:E12; [exact H|]. match goal with |- context [?x =? 0] => destruct (x =? 0) eqn:E0; [exact H|] end. apply keeps_payload; [exact T|now apply bytes_take| |exact H].
  intros X. pose proof (f_equal zlen X) as ZZ. rewrite zlen_take in ZZ. change (zlen (@nil Z)) with 0 in ZZ.
  match type of E0 with (?a / 4 * 4 =? 0) = false => pose proof (Z.div_pos a 4 ltac:(lia) ltac:(lia)) end. pose proof (zlen_nonneg d). lia.
Qed.
Lemma keeps_opt fail type d : is_u8 type -> field_bytes d -> keeps (cd_write_opt fail type d).
Proof. intros T B. destruct d as [d|]; [apply keeps_block; auto|]. intros c H. exact H. Qed.
Lemma keeps_seq l : Forall keeps l -> keeps (cd_seq l).
Proof.
  induction 1 as [|f l K F IH]; intros c H; [exact H|]. cbn [cd_seq]. specialize (K c H). destruct (f c) as (ok & c1). destruct ok; [apply IH; exact K|exact K].
Qed.
Ltac u8 := unfold is_u8; lia.
Lemma keeps_region fail r : region_bytes r -> keeps (cd_write_region fail r).
Proof.
  intros B c H. unfold cd_write_region. assert (K : Forall goodw (cx_log (cd_pad fail c))).
  { unfold cd_pad. destruct (_ =? 0); [exact H|]. apply keeps_block; [u8|apply bytes_fill; u8|exact H]. }
  destruct r as [type addr d|v addr d]; [apply keeps_block; [destruct (type =? 3); u8|exact B|exact K]|]. destruct (v =? 0); [exact K|]. apply keeps_block; [u8|exact B|exact K].
Qed.
Lemma keeps_regions fail l : Forall region_bytes l -> keeps (cd_write_regions fail l).
Proof. intros F. apply keeps_seq. apply Forall_map. revert F. apply Forall_impl. intros r. apply keeps_region. Qed.
Lemma keeps_regs fail env regs : field_bytes regs -> keeps (cd_write_regs fail env regs).
Proof.
  intros B. destruct regs as [regs|]; [|intros c H; exact H]. apply keeps_seq. apply Forall_map. apply Forall_forall. intros i _. apply keeps_block; [u8|]. apply bytes_take, bytes_drop. exact B.
Qed.
Lemma good_sections fail env info only size ok tot c : dump_bytes env info -> cd_sections fail env info only size = (ok, tot, c) -> Forall goodw (cx_log c).
Proof.
  intros (FB & RB) H. unfold cd_sections in H. apply Forall_app in RB. destruct RB as (R1 & RB). apply Forall_app in RB. destruct RB as (R2 & R3).
  pose proof (Forall_inv FB) as B0. apply Forall_inv_tail in FB. pose proof (Forall_inv FB) as B1. apply Forall_inv_tail in FB. pose proof (Forall_inv FB) as B2. apply Forall_inv_tail in FB.
  pose proof (Forall_inv FB) as B3. apply Forall_inv_tail in FB. pose proof (Forall_inv FB) as B4. apply Forall_inv_tail in FB. pose proof (Forall_inv FB) as B5.
  match type of H with context [cd_seq ?l ?c0] => assert (K : keeps (cd_seq l)); [|assert (K0 : Forall goodw (cx_log c0)) by constructor; specialize (K c0 K0); destruct (cd_seq l c0) as (ok1 & c1)] end.
  { apply keeps_seq. constructor; [now apply keeps_regs|]. constructor; [|constructor; [apply keeps_block; [u8|apply bytes_le32]|constructor]].
    apply keeps_seq. repeat (constructor; [apply keeps_opt; [u8|assumption]|]). constructor; [apply keeps_block; [u8|apply bytes_le32]|constructor]. }
  cbn [snd] in K. destruct ok1; cbn [negb] in H; [|injection H as _ _ <-; exact K].
  match type of H with context [cd_seq ?l c1] => assert (K2 : keeps (cd_seq l)); [|specialize (K2 c1 K); destruct (cd_seq l c1) as (ok2 & c2)] end.
  { apply keeps_seq. repeat (constructor; [now apply keeps_regions|]). constructor. }
  cbn [snd] in K2. destruct (negb ok2 && cx_err c2); [injection H as _ _ <-; exact K2|].
  match type of H with context [cd_write fail (cd_footer ?f) ?c0] => pose proof (keeps_write fail (cd_footer f)) as K3; specialize (K3 ltac:(unfold cd_footer; rewrite !bytes_app; repeat split; apply bytes_le32) ltac:(discriminate) c0 K2);
    destruct (cd_write fail (cd_footer f) c0) as (ok3 & c3) end.
  cbn [snd] in K3. destruct ok3; cbn [negb] in H; [|injection H as _ _ <-; exact K3].
  match type of H with context [cd_write fail (cd_header ?f) ?c0] => pose proof (keeps_write fail (cd_header f)) as K4; specialize (K4 ltac:(unfold cd_header; rewrite !bytes_app; repeat split; apply bytes_le32) ltac:(discriminate) c0 K3);
    destruct (cd_write fail (cd_header f) c0) as (ok4 & c4) end.
  injection H as _ _ <-. exact K4.
Qed.

(** ** A coredump through a port *)
Section Saved.
Context {S : Type}.
Variables (p : port S) (emb : list Z -> S) (size e : Z) (P : Z -> list Z -> Prop).
Hypothesis WR : writes p emb size e P.
Lemma write_sequence pieces : forall pre, zlen pre + zlen (concat pieces) <= size ->
  Forall (fun x => P (fst x) (snd x)) (in_sequence (zlen pre) pieces) -> Forall bytes pieces ->
  write_all p (in_sequence (zlen pre) pieces) (emb (pre ++ fill (size - zlen pre) e)) =
  Some (true, emb (pre ++ concat pieces ++ fill (size - zlen pre - zlen (concat pieces)) e)).
Proof.
  induction pieces as [|d r IH]; intros pre L HP HB; cbn [in_sequence write_all concat] in *.
  { change (zlen (@nil Z)) with 0. cbn [app]. now rewrite Z.sub_0_r. }
  rewrite zlen_app in *. pose proof (zlen_nonneg pre). pose proof (zlen_nonneg d). pose proof (zlen_nonneg (concat r)).
  rewrite WR; [|rewrite zlen_app, zlen_fill; lia|exact (Forall_inv HP)|exact (Forall_inv HB)|lia|lia|].
  2:{ rewrite drop_app_exact by reflexivity. apply take_fill. lia. }
  replace (replaced (pre ++ fill (size - zlen pre) e) (zlen pre) d) with ((pre ++ d) ++ fill (size - zlen (pre ++ d)) e).
  2:{ unfold replaced. rewrite take_app_exact by reflexivity. rewrite drop_app_ge by lia. rewrite drop_fill by lia. rewrite <- app_assoc. do 3 f_equal. rewrite zlen_app. lia. }
  replace (zlen pre + zlen d) with (zlen (pre ++ d)) in * by (rewrite zlen_app; lia).
  rewrite IH; [|rewrite zlen_app; lia|exact (Forall_inv_tail HP)|exact (Forall_inv_tail HB)]. rewrite <- !app_assoc. replace (size - zlen (pre ++ d) - zlen (concat r)) with (size - zlen pre - (zlen d + zlen (concat r))) by (rewrite zlen_app; lia). reflexivity.
Qed.
Lemma write_app l1 : forall l2 s s', write_all p l1 s = Some (true, s') -> write_all p (l1 ++ l2) s = write_all p l2 s'.
Proof.
  induction l1 as [|(o & d) l1 IH]; intros l2 s s' H; cbn [write_all app] in *; [now injection H as <-|].
  destruct (p_wr p s o d) as [[[|] s1]|]; [apply IH; exact H|discriminate|discriminate].
Qed.
Lemma write_dump header pieces : zlen header + zlen (concat pieces) <= size -> Forall (fun x => P (fst x) (snd x)) (dump_writes header pieces) ->
  bytes header -> Forall bytes pieces ->
  write_all p (dump_writes header pieces) (emb (fill size e)) = Some (true, emb (header ++ concat pieces ++ fill (size - zlen header - zlen (concat pieces)) e)).
Proof.
  intros L HP BH BP. unfold dump_writes in *. apply Forall_app in HP. destruct HP as (HP & HH). apply Forall_inv in HH. cbn [fst snd] in HH.
  pose proof (zlen_nonneg header). pose proof (zlen_nonneg (concat pieces)).
  assert (ZF : zlen (fill (zlen header) e) = zlen header) by (apply zlen_fill; lia).
  pose proof (write_sequence pieces (fill (zlen header) e)) as WS. rewrite ZF in WS. specialize (WS L HP BP).
  rewrite <- fill_split in WS by lia. replace (zlen header + (size - zlen header)) with size in WS by lia.
  rewrite (write_app _ _ _ _ WS). cbn [write_all].
  rewrite WR; [|rewrite !zlen_app, !zlen_fill by lia; lia|exact HH|exact BH|lia|lia|].
  2:{ rewrite drop_0. apply take_app_exact. now rewrite ZF. }
  unfold replaced. rewrite take_0, Z.add_0_l. cbn [app]. rewrite drop_app_exact by now rewrite ZF. reflexivity.
Qed.
End Saved.

Definition direct_platform (e : Z) : cplat := mk_cplat true true true e (fun _ => None).
Lemma saved_shape e env info w w' log : dump_ok env info -> dump_bytes env info -> zlen w < 4294967296 ->
  cd_save (direct_platform e) env info w = Some (true, w', log) ->
  exists header pieces, map (fun x => (cw_off x, cw_data x)) log = dump_writes header pieces /\ zlen header = 12 /\
    28 <= zlen header + zlen (concat pieces) <= zlen w /\ w' = header ++ concat pieces ++ fill (zlen w - zlen header - zlen (concat pieces)) e /\
    cd_has_valid true w' = Some (zlen header + zlen (concat pieces)) /\ bytes header /\ header <> [] /\ Forall bytes pieces /\ Forall (fun d => d <> []) pieces /\ Forall (fun x => cw_ok x = true) log.
Proof.
  intros HO HB HS ES. unfold direct_platform in ES. pose proof ES as ES0. unfold cd_save in ES0. cbn [pl_begin pl_read pl_erase pl_erased pl_fail negb] in ES0.
  destruct (zlen (ci_regions info) =? 0); [discriminate|]. destruct (cd_get_header true w) as [h|]; [|discriminate]. destruct (cd_header_valid h); [discriminate|].
  destruct (cd_sections (fun _ => None) env info false (zlen w)) as ((ok & tot) & c) eqn:EN. apply bind_inv in ES0. destruct ES0 as (st & AP & ES0). injection ES0 as -> -> EL.
  pose proof (good_sections _ _ _ _ _ _ _ _ HB EN) as GD.
  destruct (Z_lt_ge_dec (zlen w) (28 + blocks_size (meta_blocks env info))) as [Q|Q].
  { pose proof (sections_none_small env info (zlen w) HO HS Q) as SM. unfold none in SM. rewrite EN in SM. discriminate. }
  destruct (sections_none env info (zlen w) HO HS ltac:(lia)) as (ds & t & Lb & E & EC & OKL & LE & _). unfold none in E. rewrite EN in E. injection E as E1 E2. subst c. cbn [cx_log] in EL, GD, AP.
  rewrite apply_image in AP by exact LE. assert (AP2 : w' = image ds t ++ fill (zlen w - (off_of ds + 16)) e) by (symmetry; congruence). clear AP ES. subst w' log.
  exists (cd_header (off_of ds + 16)), (ds ++ [cd_footer (if t then 1 else 0)]).
  assert (EI : image ds t = cd_header (off_of ds + 16) ++ concat (ds ++ [cd_footer (if t then 1 else 0)])) by (unfold image; rewrite concat_app; cbn [concat]; now rewrite app_nil_r).
  assert (LI : zlen (cd_header (off_of ds + 16)) + zlen (concat (ds ++ [cd_footer (if t then 1 else 0)])) = off_of ds + 16) by (rewrite <- (image_len ds t), EI, zlen_app; reflexivity).
  assert (OF : 12 <= off_of ds) by (unfold off_of; pose proof (zlen_nonneg (concat ds)); lia).
  split; [rewrite map_app, evs_sequence; reflexivity|]. split; [apply header_len|]. split; [lia|]. split; [rewrite EI, <- app_assoc; do 3 f_equal; lia|].
  split; [rewrite LI; apply valid_image; lia|].
  apply Forall_app in GD. destruct GD as (GE & GH). apply Forall_inv in GH. destruct GH as (GH1 & GH2). cbn [cw_data] in GH1, GH2. split; [exact GH1|]. split; [exact GH2|].
  assert (GP : Forall (fun d => bytes d /\ d <> []) (ds ++ [cd_footer (if t then 1 else 0)])).
  { revert GE. generalize (ds ++ [cd_footer (if t then 1 else 0)]). generalize 12. clear. intros o l. revert o. induction l as [|d l IH]; intros o H; [constructor|]. cbn [evs] in H.
    constructor; [exact (Forall_inv H)|]. exact (IH _ (Forall_inv_tail H)). }
  split; [revert GP; apply Forall_impl; tauto|]. split; [revert GP; apply Forall_impl; tauto|].
  apply Forall_app. split; [|constructor; [reflexivity|constructor]]. generalize (ds ++ [cd_footer (if t then 1 else 0)]). generalize 12. clear. intros o l. revert o. induction l as [|d l IH]; intros o; [constructor|]. cbn [evs]. constructor; [reflexivity|apply IH].
Qed.
Lemma bytes_concat l : Forall bytes l -> bytes (concat l).
Proof. induction 1 as [|d l B F IH]; [constructor|]. cbn [concat]. apply bytes_app. auto. Qed.
Lemma seq_all (Q : list Z -> Prop) l : Forall Q l -> forall off, Forall (fun x => Q (snd x)) (in_sequence off l).
Proof. induction 1 as [|d l B F IH]; intros off; [constructor|]. cbn [in_sequence]. constructor; [exact B|apply IH]. Qed.
(** What is saved through a port, and cleared. *)
Theorem saved_through {S} (p : port S) emb size e env info w w' log n : is_u8 e -> stores p emb size e some_bytes -> dump_ok env info -> dump_bytes env info ->
  zlen w = size -> size < 4294967296 -> cd_save (direct_platform e) env info w = Some (true, w', log) -> cd_has_valid true w' = Some n ->
  p_er p (emb w) 0 size = Some (true, emb (fill size e)) /\
  write_all p (map (fun x => (cw_off x, cw_data x)) log) (emb (fill size e)) = Some (true, emb w') /\
  (forall off k, 0 <= off -> 0 < k -> off + k <= n -> p_rd p (emb w') off k = Some (Some (take k (drop off w')))) /\
  exists w2, p_clr p (emb w') = Some (emb w2) /\ cd_has_valid true w2 = None.
Proof.
  intros He (RD & ER & WR & CL) HO HB L HS ES HV. rewrite <- L in HS. destruct (saved_shape e env info w w' log HO HB HS ES) as (header & pieces & EM & LH & LI & EW & V & BH & NH & BP & NP & _).
  rewrite V in HV. injection HV as <-. split; [apply ER; exact L|]. rewrite L in *.
  assert (LW : zlen w' = size). { rewrite EW, !zlen_app, zlen_fill by lia. lia. }
  assert (BW : bytes w'). { rewrite EW. apply bytes_app. split; [exact BH|]. apply bytes_app. split; [now apply bytes_concat|now apply bytes_fill]. }
  split; [|split].
  - rewrite EM, EW. apply (write_dump p emb size e some_bytes WR); [lia| |exact BH|exact BP]. unfold dump_writes. apply Forall_app. split; [|constructor; [exact NH|constructor]].
    apply (seq_all (fun d => d <> [])). exact NP.
  - intros off k H1 H2 H3. apply RD; lia.
  - destruct (CL w' LW BW) as (w2 & E1 & _ & E3). exists w2. auto.
Qed.

(** ** The same through blocks *)
Lemma valid_prefix a b : 12 <= zlen a -> 12 <= zlen b -> take 12 a = take 12 b -> cd_has_valid true a = cd_has_valid true b.
Proof.
  intros A B T. unfold cd_has_valid, cd_get_header. replace (zlen a =? 0) with false by lia. replace (zlen b =? 0) with false by lia.
  rewrite !read_at_some by lia. rewrite !drop_0, T. reflexivity.
Qed.
Lemma rows_sequence W fs : Forall (fun f => zlen f = W) fs -> forall off, rows W off fs = in_sequence off fs.
Proof. induction 1 as [|f fs E F IH]; intros off; [reflexivity|]. cbn [rows in_sequence]. now rewrite IH, E. Qed.
Lemma sequence_app a : forall off b, in_sequence off (a ++ b) = in_sequence off a ++ in_sequence (off + zlen (concat a)) b.
Proof.
  induction a as [|d a IH]; intros off b; [cbn; change (zlen (@nil Z)) with 0; f_equal; lia|]. cbn [app in_sequence concat]. rewrite IH. cbn [app]. do 3 f_equal. rewrite zlen_app. lia.
Qed.
Lemma blocks_as_dump W img : 0 < W <= zlen img -> exists fs, blocks_to_write W img = dump_writes (take W img) fs /\ Forall (fun f => zlen f = W) fs /\
  exists pad, 0 <= pad < W /\ concat fs = drop W img ++ fill pad 0.
Proof.
  intros (HW & HL). destruct (split_rows W HW _ (drop W img) ltac:(reflexivity)) as (fs & tl & E & F & T). pose proof (zlen_nonneg tl) as TN.
  exists (fs ++ if zlen tl =? 0 then [] else [tl ++ fill (W - zlen tl) 0]).
  assert (ZT : zlen (take W img) = W) by (rewrite zlen_take; lia). split.
  { unfold blocks_to_write, dump_writes. rewrite E, cut_up_rows by (auto; lia). f_equal. rewrite ZT, sequence_app, (rows_sequence W fs F), (concat_len W fs F). f_equal. destruct (zlen tl =? 0); reflexivity. }
  split. { apply Forall_app. split; [exact F|]. destruct (zlen tl =? 0); constructor; [rewrite zlen_app, zlen_fill by lia; lia|constructor]. }
  exists (if zlen tl =? 0 then 0 else W - zlen tl). split; [destruct (zlen tl =? 0) eqn:Q; lia|].
  rewrite concat_app, E, <- app_assoc. f_equal. destruct (zlen tl =? 0) eqn:X; cbn [concat]; [|apply app_nil_r]. now rewrite (zlen_0_nil tl) by lia.
Qed.
Lemma sequence_whole W fs : 0 < W -> Forall (fun f => zlen f = W) fs -> forall off, off mod W = 0 -> Forall (fun x => whole_blocks W (fst x) (snd x)) (in_sequence off fs).
Proof.
  intros HW. induction 1 as [|f fs E F IH]; intros off M; [constructor|]. cbn [in_sequence]. constructor; [split; [exact E|exact M]|]. apply IH. rewrite E. rewrite <- Zplus_mod_idemp_r, Z_mod_same_full, Z.add_0_r. exact M.
Qed.
Theorem saved_through_blocks {S} (p : port S) emb size e W env info w w' log n : is_u8 e -> stores p emb size e (whole_blocks W) -> dump_ok env info -> dump_bytes env info ->
  12 <= W -> size mod W = 0 -> zlen w = size -> size < 4294967296 ->
  cd_save (direct_platform e) env info w = Some (true, w', log) -> cd_has_valid true w' = Some n -> W <= n ->
  p_er p (emb w) 0 size = Some (true, emb (fill size e)) /\
  exists b w2, bs_run W size (fun _ => true) (map (fun x => (cw_off x, cw_data x)) log) (bs_init W) = Some (true, b) /\
    write_all p (map (fun x => (bw_off x, bw_data x)) (bs_log b)) (emb (fill size e)) = Some (true, emb w2) /\
    cd_has_valid true w2 = Some n /\ take n w2 = take n w' /\
    (forall off k, 0 <= off -> 0 < k -> off + k <= n -> p_rd p (emb w2) off k = Some (Some (take k (drop off w')))) /\
    exists w3, p_clr p (emb w2) = Some (emb w3) /\ cd_has_valid true w3 = None.
Proof.
  intros He (RD & ER & WR & CL) HO HB HW HM L HS ES HV HN. rewrite <- L in HS. destruct (saved_shape e env info w w' log HO HB HS ES) as (header & pieces & EM & LH & LI & EW & V & BH & NH & BP & NP & _).
  pose proof V as V0. rewrite V0 in HV. injection HV as HV. split; [apply ER; exact L|]. rewrite L in *. set (img := header ++ concat pieces) in *.
  assert (LM : zlen img = n) by (unfold img; rewrite zlen_app; lia). assert (BI : bytes img) by (apply bytes_app; split; [exact BH|now apply bytes_concat]).
  destruct (dump_blocks W size (fun _ => true) (zlen header) ltac:(lia) ltac:(lia) HS HM ltac:(lia) header pieces eq_refl ltac:(lia)) as (b & R & LG & _).
  fold img in R, LG. rewrite tried_all in R, LG. cbn [fst snd] in R, LG.
  destruct (blocks_as_dump W img ltac:(lia)) as (fs & EB & FW & pad & HP & EC).
  assert (ZT : zlen (take W img) = W) by (rewrite zlen_take; lia).
  assert (CF : W + zlen (concat fs) <= size).
  { rewrite EC, zlen_app, zlen_drop, zlen_fill by lia. assert (M : (n + pad) mod W = 0).
    { pose proof (concat_len W fs FW) as CL2. rewrite EC, zlen_app, zlen_drop, zlen_fill in CL2 by lia. replace (n + pad) with (0 + (1 + zlen fs) * W) by lia. rewrite Z.mod_add by lia. apply Z.mod_0_l. lia. }
    apply Z.mod_divide in M; [|lia]. apply Z.mod_divide in HM; [|lia]. destruct M as (q & Q). destruct HM as (r & R2). assert (q <= r); [|nia]. assert (q < r + 1); [|lia]. clear - Q R2 HP LI HV HW. nia. }
  assert (BF : Forall bytes fs).
  { assert (B : bytes (concat fs)) by (rewrite EC; apply bytes_app; split; [now apply bytes_drop|apply bytes_fill; u8]). clear - B. induction fs as [|f fs IH]; constructor; cbn [concat] in B; apply bytes_app in B; [tauto|apply IH; tauto]. }
  exists b, (take W img ++ concat fs ++ fill (size - W - zlen (concat fs)) e). split; [rewrite EM; exact R|].
  pose proof (zlen_nonneg (concat fs)) as CN.
  assert (E2 : take W img ++ concat fs ++ fill (size - W - zlen (concat fs)) e = img ++ fill pad 0 ++ fill (size - W - zlen (concat fs)) e) by (rewrite EC at 1; rewrite <- app_assoc, app_assoc, take_drop; reflexivity).
  assert (EW' : w' = img ++ fill (size - zlen header - zlen (concat pieces)) e) by (rewrite EW; unfold img; now rewrite <- app_assoc).
  assert (L2 : zlen (take W img ++ concat fs ++ fill (size - W - zlen (concat fs)) e) = size) by (rewrite !zlen_app, zlen_fill by lia; lia).
  assert (LW : zlen w' = size) by (rewrite EW', zlen_app, zlen_fill; lia).
  split.
  { rewrite LG. unfold done. rewrite map_map. cbn [bw_off bw_data]. erewrite map_ext; [rewrite map_id|intros (x & y); reflexivity]. rewrite EB.
    pose proof (write_dump p emb size e (whole_blocks W) WR (take W img) fs) as WD. rewrite ZT in WD. apply WD; [lia| |now apply bytes_take|exact BF].
    unfold dump_writes. apply Forall_app. split; [apply sequence_whole; [lia|exact FW|rewrite ZT; apply Z_mod_same_full]|constructor; [split; [exact ZT|apply Z.mod_0_l; lia]|constructor]]. }
  assert (T2 : take n (take W img ++ concat fs ++ fill (size - W - zlen (concat fs)) e) = take n w') by (rewrite E2, EW', !take_app_exact by lia; reflexivity).
  split. { rewrite <- HV, <- V0. apply valid_prefix; [lia|lia|]. apply (f_equal (take 12)) in T2. rewrite !take_take in T2. now replace (Z.min 12 n) with 12 in T2 by lia. }
  split; [exact T2|]. split.
  - intros off k H1 H2 H3. rewrite RD by lia. do 2 f_equal. rewrite !take_drop_comm by lia. f_equal. apply (f_equal (take (k + off))) in T2. rewrite !take_take in T2. now replace (Z.min (k + off) n) with (k + off) in T2 by lia.
  - destruct (CL (take W img ++ concat fs ++ fill (size - W - zlen (concat fs)) e) L2) as (w3 & E3 & _ & E4); [|exists w3; auto].
    apply bytes_app. split; [now apply bytes_take|]. apply bytes_app. split; [now apply bytes_concat|now apply bytes_fill].
Qed.
