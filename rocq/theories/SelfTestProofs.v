From Coq Require Import String.
From Verif Require Import Base Reboot RebootSpec RebootProofs StorageTest BuildId BuildIdSpec BuildIdProofs SelfTest SelfTestSpec.

(** ** Strings *)
Lemma strnlen_nul t rest : Forall (fun c => c <> 0) t -> forall n pre, (n > List.length t)%nat ->
  sf_strnlen n (pre ++ t ++ 0 :: rest)%list (zlen pre) = Some (zlen pre + zlen t).
Proof.
  induction t as [|c t IH]; intros F n pre L; destruct n as [|n]; cbn [List.length] in L; try lia.
  - cbn [sf_strnlen app]. rewrite get_app_pre by reflexivity. cbn [bind]. rewrite Z.eqb_refl. f_equal. change (zlen (@nil Z)) with 0. lia.
  - cbn [sf_strnlen app]. rewrite get_app_pre by reflexivity. cbn [bind].
    assert (c <> 0) by exact (Forall_inv F). replace (c =? 0) with false by lia.
    replace (pre ++ c :: t ++ 0 :: rest)%list with ((pre ++ [c]) ++ t ++ 0 :: rest)%list by now rewrite <- app_assoc.
    replace (zlen pre + 1) with (zlen (pre ++ [c])%list) by (rewrite zlen_app; reflexivity).
    rewrite IH; [|exact (Forall_inv_tail F)|lia]. f_equal. rewrite zlen_app. change (zlen [c]) with 1. rewrite zlen_cons. lia.
Qed.
Lemma strnlen_long t : Forall (fun c => c <> 0) t -> forall rest pre,
  sf_strnlen (List.length t) (pre ++ t ++ rest)%list (zlen pre) = Some (zlen pre + zlen t).
Proof.
  induction t as [|c t IH]; intros F rest pre.
  - cbn. f_equal. change (zlen (@nil Z)) with 0. lia.
  - cbn [sf_strnlen app List.length]. rewrite get_app_pre by reflexivity. cbn [bind].
    assert (c <> 0) by exact (Forall_inv F). replace (c =? 0) with false by lia.
    replace (pre ++ c :: t ++ rest)%list with ((pre ++ [c]) ++ t ++ rest)%list by now rewrite <- app_assoc.
    replace (zlen pre + 1) with (zlen (pre ++ [c])%list) by (rewrite zlen_app; reflexivity).
    rewrite IH; [|exact (Forall_inv_tail F)]. f_equal. rewrite zlen_app. change (zlen [c]) with 1. rewrite zlen_cons. lia.
Qed.
Lemma chars_ok ok t : forall rest pre,
  sf_chars (List.length t) (pre ++ t ++ rest)%list (zlen pre) ok = Some (forallb ok t).
Proof.
  induction t as [|c t IH]; intros rest pre; [reflexivity|].
  cbn [sf_chars app List.length forallb]. rewrite get_app_pre by reflexivity. cbn [bind].
  destruct (ok c); cbn [negb andb]; [|reflexivity].
  replace (pre ++ c :: t ++ rest)%list with ((pre ++ [c]) ++ t ++ rest)%list by now rewrite <- app_assoc.
  replace (zlen pre + 1) with (zlen (pre ++ [c])%list) by (rewrite zlen_app; reflexivity). apply IH.
Qed.

(** A readable string ends within [max] characters, or has more. *)
Lemma split_nul (mem : list Z) : In 0 mem -> exists t rest, mem = (t ++ 0 :: rest)%list /\ Forall (fun c => c <> 0) t.
Proof.
  induction mem as [|c mem IH]; intros H; [destruct H|]. destruct (Z.eq_dec c 0) as [->|N].
  - exists [], mem. split; [reflexivity|constructor].
  - destruct H as [H|H]; [congruence|]. destruct (IH H) as (t & rest & -> & F). exists (c :: t), rest. split; [reflexivity|now constructor].
Qed.
Lemma nul_unique (t t' rest rest' : list Z) : (t ++ 0 :: rest = t' ++ 0 :: rest')%list -> Forall (fun c => c <> 0) t ->
  Forall (fun c => c <> 0) t' -> t = t'.
Proof.
  revert t'. induction t as [|c t IH]; intros [|c' t'] E F F'; cbn in E.
  - reflexivity.
  - inversion E; subst. now inversion F'.
  - inversion E; subst. now inversion F.
  - inversion E; subst. f_equal. apply IH; [assumption|now inversion F|now inversion F'].
Qed.

Lemma valid_ok max s field ok okP : 0 <= max -> readable max s -> sf_validator field = Some ok ->
  (forall c, ok c = true <-> okP c) -> (forall c, okP c -> c <> 0) ->
  exists b : bool, sf_valid max s field = Some b /\ (b = true <-> text max okP s).
Proof.
  intros M R V OK NZ. unfold sf_valid. destruct s as [mem|].
  2:{ exists false. split; [reflexivity|]. split; [discriminate|]. intros (t & rest & E & _). discriminate. }
  assert (SHORT : forall t rest, mem = (t ++ 0 :: rest)%list -> Forall (fun c => c <> 0) t -> zlen t <= max ->
            sf_strnlen (Z.to_nat (max + 1)) mem 0 = Some (zlen t)).
  { intros t rest -> F L. change 0 with (zlen (@nil Z)) at 2. change (t ++ 0 :: rest)%list with ([] ++ t ++ 0 :: rest)%list.
    rewrite strnlen_nul; [reflexivity|exact F|unfold zlen in L; lia]. }
  assert (LONG : forall t rest, mem = (t ++ rest)%list -> Forall (fun c => c <> 0) t -> zlen t = max + 1 ->
            sf_strnlen (Z.to_nat (max + 1)) mem 0 = Some (max + 1)).
  { intros t rest -> F L. change 0 with (zlen (@nil Z)) at 1. change (t ++ rest)%list with ([] ++ t ++ rest)%list.
    replace (Z.to_nat (max + 1)) with (List.length t) by (unfold zlen in L; lia).
    rewrite strnlen_long by exact F. f_equal. change (zlen (@nil Z)) with 0. lia. }
  assert (TEXT : forall t rest, Some mem = Some (t ++ 0 :: rest)%list -> 1 <= zlen t <= max -> Forall okP t -> Forall (fun c => c <> 0) t).
  { intros t rest _ _ F. eapply Forall_impl; [|exact F]. exact NZ. }
  assert (CASES : (exists t rest, mem = (t ++ 0 :: rest)%list /\ Forall (fun c => c <> 0) t /\ zlen t <= max) \/
                  (exists t rest, mem = (t ++ rest)%list /\ Forall (fun c => c <> 0) t /\ zlen t = max + 1)).
  { destruct (in_dec Z.eq_dec 0 (take (max + 1) mem)) as [I|I].
    - left. destruct (split_nul _ I) as (t & rest & E & F). exists t, (rest ++ drop (max + 1) mem)%list.
      split; [|split; [exact F|]].
      + rewrite <- (take_drop (max + 1) mem) at 1. rewrite E, <- app_assoc. reflexivity.
      + apply (f_equal zlen) in E. rewrite zlen_take, zlen_app, zlen_cons in E. pose proof (zlen_nonneg rest). lia.
    - right. exists (take (max + 1) mem), (drop (max + 1) mem). split; [now rewrite take_drop|]. split.
      + apply Forall_forall. intros c H ->. now apply I.
      + destruct (R mem eq_refl) as [Z0|L].
        * rewrite zlen_take. destruct (Z_le_gt_dec (zlen mem) max) as [L|L]; [|pose proof (zlen_nonneg mem); lia].
          exfalso. apply I. rewrite take_all by lia. exact Z0.
        * rewrite zlen_take. pose proof (zlen_nonneg mem). lia. }
  destruct CASES as [(t & rest & E & F & L)|(t & rest & E & F & L)].
  - rewrite (SHORT t rest E F L). cbn [bind]. rewrite V. pose proof (zlen_nonneg t).
    replace (max <? zlen t) with false by lia. rewrite orb_false_r.
    destruct (zlen t <? 1) eqn:L1.
    + exists false. split; [reflexivity|]. split; [discriminate|]. intros (t' & rest' & E' & L' & F').
      pose proof (TEXT t' rest' E' L' F') as NZ'. inversion E' as [E2]. rewrite E in E2. pose proof (nul_unique _ _ _ _ E2 F NZ'). subst t'. lia.
    + exists (forallb ok t). split.
      * subst mem. change (t ++ 0 :: rest)%list with ([] ++ t ++ 0 :: rest)%list. change 0 with (zlen (@nil Z)) at 2.
        replace (Z.to_nat (zlen t)) with (List.length t) by (unfold zlen; lia). apply chars_ok.
      * rewrite forallb_forall. split.
        -- intros A. exists t, rest. split; [now rewrite E|]. split; [lia|]. apply Forall_forall. intros c I. apply OK, A, I.
        -- intros (t' & rest' & E' & L' & F'). pose proof (TEXT t' rest' E' L' F') as NZ'. inversion E' as [E2]. rewrite E in E2.
           pose proof (nul_unique _ _ _ _ E2 F NZ'). subst t'. intros c I. apply OK. now apply (proj1 (Forall_forall _ _) F').
  - rewrite (LONG t rest E F L). cbn [bind]. replace (max <? max + 1) with true by lia. rewrite orb_true_r.
    exists false. split; [reflexivity|]. split; [discriminate|]. intros (t' & rest' & E' & L' & F').
    pose proof (TEXT t' rest' E' L' F') as NZ'. inversion E' as [E2].
    pose proof (SHORT t' rest' E2 NZ' ltac:(lia)) as A. rewrite (LONG t rest E F L) in A. inversion A. lia.
Qed.

Lemma put_some (l : list Z) i v : 0 <= i < zlen l -> exists l', put l i v = Some l' /\ zlen l' = zlen l.
Proof.
  intros H. unfold put. rewrite splice_some by (change (zlen [v]) with 1; lia). eexists. split; [reflexivity|].
  rewrite !zlen_app, zlen_take, zlen_drop. change (zlen [v]) with 1. lia.
Qed.
Definition in_bytes (l : list Z) (c : Z) : bool := existsb (Z.eqb c) l.
Lemma in_bytes_ok l c : in_bytes l c = true <-> In c l.
Proof.
  unfold in_bytes. rewrite existsb_exists. split.
  - intros (x & I & E). apply Z.eqb_eq in E. now subst.
  - intros I. exists c. split; [exact I|apply Z.eqb_refl].
Qed.
Lemma table_ok (f g : Z -> bool) : (forall c, ~ 0 <= c < 128 -> f c = false /\ g c = false) ->
  forallb (fun k => Bool.eqb (f (Z.of_nat k)) (g (Z.of_nat k))) (seq 0 128) = true -> forall c, f c = g c.
Proof.
  intros OUT T c. destruct (Z_lt_ge_dec c 0) as [L|G]; [destruct (OUT c); [lia|congruence]|].
  destruct (Z_lt_ge_dec c 128) as [L|G2]; [|destruct (OUT c); [lia|congruence]].
  rewrite forallb_forall in T. specialize (T (Z.to_nat c)). rewrite Z2Nat.id in T by lia. apply Bool.eqb_prop, T.
  apply in_seq. lia.
Qed.
Lemma bytes_below l : forallb (fun c => (0 <? c) && (c <? 128)) l = true -> forall c, ~ 0 < c < 128 -> in_bytes l c = false.
Proof.
  intros F c N. destruct (in_bytes l c) eqn:E; [|reflexivity]. apply in_bytes_ok in E. rewrite forallb_forall in F. specialize (F c E). lia.
Qed.
Lemma serial_ok c : sf_serial c = true <-> serial_char c.
Proof.
  unfold serial_char. rewrite <- in_bytes_ok. replace (sf_serial c) with (in_bytes (letters ++ str "_-") c); [reflexivity|].
  revert c. apply table_ok; [|vm_compute; reflexivity]. intros c N. split; [apply bytes_below; [vm_compute; reflexivity|lia]|].
  unfold sf_serial, sf_alnum. lia.
Qed.
Lemma type_ok c : sf_type c = true <-> type_char c.
Proof.
  unfold type_char. rewrite <- in_bytes_ok. replace (sf_type c) with (in_bytes (letters ++ str "_-.+:") c); [reflexivity|].
  revert c. apply table_ok; [|vm_compute; reflexivity]. intros c N. split; [apply bytes_below; [vm_compute; reflexivity|lia]|].
  unfold sf_type, sf_serial, sf_alnum. lia.
Qed.
Lemma version_ok c : sf_version c = true <-> version_char c.
Proof. unfold sf_version, version_char. lia. Qed.
Lemma serial_nz c : serial_char c -> c <> 0. Proof. intros H ->. apply serial_ok in H. discriminate. Qed.
Lemma type_nz c : type_char c -> c <> 0. Proof. intros H ->. apply type_ok in H. discriminate. Qed.
Lemma version_nz c : version_char c -> c <> 0. Proof. unfold version_char. lia. Qed.

(** ** Device info *)
Lemma field_ok max s field ok okP : 0 <= max -> readable max s -> sf_validator field = Some ok ->
  (forall c, ok c = true <-> okP c) -> (forall c, okP c -> c <> 0) ->
  exists b : bool, sf_field max s field = Some (if b then 0 else Z.shiftl 1 field) /\ (b = true <-> text max okP s).
Proof.
  intros M R V OK NZ. destruct (valid_ok max s field ok okP M R V OK NZ) as (b & E & I). exists b. unfold sf_field. rewrite E. split; [reflexivity|exact I].
Qed.
Section P.
Context {S : Type} (p : port S) (valid : S -> bool).
Lemma build_ok max e (w : world S) : sane p max e w ->
  exists b : bool, sf_build_id e = Some (if b then 0 else 16) /\ (b = true <-> e_id_type e = 2 \/ e_id_type e = 3).
Proof.
  intros (_ & _ & _ & _ & _ & T3 & T2 & _). unfold sf_build_id.
  assert (HEX : forall id, zlen id = 20 -> exists out, bi_hex 40 0 id (fill 41 0) = Some out /\ zlen out = 41).
  { intros id L. assert (G : forall n i out, 0 <= i -> i + Z.of_nat n <= 40 -> zlen out = 41 -> exists out', bi_hex n i id out = Some out' /\ zlen out' = 41).
    { induction n as [|n IH]; intros i out A B C; [exists out; now split|]. cbn [bi_hex].
      destruct (get id (i / 2)) as [c|] eqn:G. 2:{ exfalso. destruct (get_some id (i / 2)) as (x & X); [Z.div_mod_to_equations; lia|congruence]. }
      cbn [bind]. destruct (put_some out i (bi_nib (if i mod 2 =? 0 then Z.land (Z.shiftr c 4) 15 else Z.land c 15))) as (o & PO & LO); [lia|].
      rewrite PO. cbn [bind]. apply IH; lia. }
    apply G; [lia|lia|reflexivity]. }
  assert (ID : forall id, zlen id = 20 -> bi_read (e_id_type e) (e_id_mem e) = Some (Some id) ->
     exists out, bi_get_string (e_id_type e) (e_id_mem e) (fill 41 0) 41 = Some (true, out)).
  { intros id L R. unfold bi_get_string. rewrite R. cbn [bind]. change (41 <? 2) with false. cbv iota.
    change (Z.to_nat (Z.min (20 * 2) (41 - 1))) with 40%nat. change (Z.min (20 * 2) (41 - 1)) with 40.
    destruct (HEX id L) as (out & E & LO). rewrite E. cbn [bind].
    destruct (put_some out 40 0) as (o & PO & _); [lia|]. rewrite PO. cbn [bind]. now exists o. }
  destruct (Z.eq_dec (e_id_type e) 3) as [E3|N3].
  { specialize (T3 E3). pose proof (read_at_some (e_id_mem e) 0 20 ltac:(lia) ltac:(lia) ltac:(lia)) as R.
    destruct (ID _ (proj2 (proj2 (proj2 (proj2 (read_at_inv _ _ _ _ R)))))) as (out & E). { unfold bi_read. rewrite E3. change (3 =? 3) with true. cbv iota. rewrite R. reflexivity. }
    rewrite E. exists true. split; [reflexivity|]. split; auto. }
  destruct (Z.eq_dec (e_id_type e) 2) as [E2|N2].
  { destruct (T2 E2) as (name & id & rest & M & L & n & R & LN). destruct (ID id L) as (out & E).
    { unfold bi_read. rewrite E2. change (2 =? 3) with false. change (2 =? 2) with true. cbv iota. rewrite R. cbn [bind].
      rewrite <- LN, M, <- L, read_app_at. reflexivity. }
    rewrite E. exists true. split; [reflexivity|]. split; auto. }
  exists false. unfold bi_get_string, bi_read. replace (e_id_type e =? 3) with false by lia. replace (e_id_type e =? 2) with false by lia.
  split; [reflexivity|]. split; [discriminate|lia].
Qed.
Lemma info_ok max e (w : world S) : sane p max e w -> exists r, sf_info max e = Some r /\
  0 <= r < 32 /\ forall bit, 0 <= bit < 5 -> (Z.testbit r bit = false <-> field_good max e bit).
Proof.
  intros SA. destruct (build_ok max e w SA) as (b4 & E4 & I4).
  destruct SA as (M & R0 & R3 & R2 & R1 & _).
  destruct (field_ok max (e_serial e) 0 sf_serial serial_char M R0 eq_refl serial_ok serial_nz) as (b0 & E0 & I0).
  destruct (field_ok max (e_hw e) 3 sf_type type_char M R3 eq_refl type_ok type_nz) as (b3 & E3 & I3).
  destruct (field_ok max (e_swv e) 2 sf_version version_char M R2 eq_refl version_ok version_nz) as (b2 & E2 & I2).
  destruct (field_ok max (e_swt e) 1 sf_type type_char M R1 eq_refl type_ok type_nz) as (b1 & E1 & I1).
  unfold sf_info, sf_device. rewrite E4. cbn [bind]. rewrite E0. cbn [bind]. rewrite E3. cbn [bind]. rewrite E2. cbn [bind]. rewrite E1. cbn [bind].
  eexists. split; [reflexivity|]. split; [destruct b0, b1, b2, b3, b4; vm_compute; split; congruence|].
  intros bit B. unfold field_good.
  assert (C : bit = 0 \/ bit = 1 \/ bit = 2 \/ bit = 3 \/ bit = 4) by lia.
  destruct C as [ -> | [ -> | [ -> | [ -> | -> ]]]].
  - rewrite <- I0. replace (Z.testbit _ 0) with (negb b0) by (destruct b0, b1, b2, b3, b4; reflexivity). split.
    + intros H. repeat split; intros; try lia; now destruct b0.
    + intros (H & _). rewrite H by reflexivity. reflexivity.
  - rewrite <- I1. replace (Z.testbit _ 1) with (negb b1) by (destruct b0, b1, b2, b3, b4; reflexivity). split.
    + intros H. repeat split; intros; try lia; now destruct b1.
    + intros (_ & H & _). rewrite H by reflexivity. reflexivity.
  - rewrite <- I2. replace (Z.testbit _ 2) with (negb b2) by (destruct b0, b1, b2, b3, b4; reflexivity). split.
    + intros H. repeat split; intros; try lia; now destruct b2.
    + intros (_ & _ & H & _). rewrite H by reflexivity. reflexivity.
  - rewrite <- I3. replace (Z.testbit _ 3) with (negb b3) by (destruct b0, b1, b2, b3, b4; reflexivity). split.
    + intros H. repeat split; intros; try lia; now destruct b3.
    + intros (_ & _ & _ & H & _). rewrite H by reflexivity. reflexivity.
  - rewrite <- I4. replace (Z.testbit _ 4) with (negb b4) by (destruct b0, b1, b2, b3, b4; reflexivity). split.
    + intros H. repeat split; intros; try lia; now destruct b4.
    + intros (_ & _ & _ & _ & H). rewrite H by reflexivity. reflexivity.
Qed.
Lemma info_zero max e (w : world S) storage r : sane p max e w -> sf_info max e = Some r ->
  (r = 0 <-> passes p valid max storage e w DeviceInfo).
Proof.
  intros SA E. destruct (info_ok max e w SA) as (r' & E' & B & T). assert (r' = r) by congruence. subst r'. cbn [passes]. split.
  - intros -> bit HB. apply T; [exact HB|apply Z.testbit_0_l].
  - intros H. apply Z.bits_inj_0. intros n. destruct (Z_lt_ge_dec n 0) as [L|G]; [now apply Z.testbit_neg_r|].
    destruct (Z_lt_ge_dec n 5) as [L|G5]; [apply T; [lia|apply H; lia]|].
    destruct (Z.eq_dec r 0) as [->|N]; [apply Z.testbit_0_l|]. apply Z.bits_above_log2; [lia|].
    pose proof (Z.log2_lt_pow2 r 5 ltac:(lia)) as X. lia.
Qed.

(** ** The other tests *)
Lemma boot_ok' e r : let b := fun k => Z.testbit (sf_boot e r) k in
  b 0 = negb (e_events e) /\ b 1 = negb (e_log e) /\ b 2 = negb (rt_ptr r && (i_magic (rt_mem r) =? 0x21544252)) /\ b 3 = negb (e_trace e) /\
  (sf_boot e r = 0 <-> e_events e = true /\ e_log e = true /\ e_trace e = true /\ rt_ptr r = true /\ i_magic (rt_mem r) = 0x21544252).
Proof.
  unfold sf_boot. cbn [rt_step]. change magic with 0x21544252. destruct (e_events e), (e_log e), (e_trace e), (rt_ptr r), (Z.eqb_spec (i_magic (rt_mem r)) 0x21544252);
    cbn; repeat split; intros; try congruence; try discriminate; intuition congruence.
Qed.
Lemma regions_ok e : sf_regions e = 0 <-> e_regions e = true /\ e_num e <> 0.
Proof. unfold sf_regions. destruct (e_regions e), (Z.eqb_spec (e_num e) 0); cbn; intuition (congruence || lia). Qed.
Lemma verify_ok r : sf_verify r = 0 <-> exists reason, rt_data r = Some (reason, 11).
Proof.
  unfold sf_verify. cbn [rt_step]. destruct (rt_data r) as [[a b]|].
  - destruct (Z.eqb_spec b 11) as [->|N]; split; intros H; try lia; [now exists a|]. destruct H as (x & X). congruence.
  - split; [lia|]. intros (x & X). discriminate.
Qed.
Lemma time_ok e : 0 <= e_t0 e -> (sf_time e = 0 <-> 0 < e_t0 e < e_t1 e /\ exists secs, e_now e = Some (1, secs) /\ 1706486400 <= secs).
Proof.
  intros P. unfold sf_time. rewrite Z.lor_eq_0_iff. assert (A : sf_since_boot e = 0 <-> 0 < e_t0 e < e_t1 e).
  { unfold sf_since_boot. destruct (Z.eqb_spec (e_t0 e) 0), (Z.leb_spec (e_t1 e) (e_t0 e)); split; lia. }
  assert (B : sf_current e = 0 <-> exists secs, e_now e = Some (1, secs) /\ 1706486400 <= secs).
  { unfold sf_current. destruct (e_now e) as [[ty secs]|].
    - destruct (Z.eqb_spec ty 1) as [->|N]; cbn [negb].
      + destruct (Z.ltb_spec secs 1706486400); split; intros H0; try lia.
        * destruct H0 as (x & X & Y). inversion X. lia.
        * now exists secs.
      + split; [lia|]. intros (x & X & _). congruence.
    - split; [lia|]. intros (x & X & _). discriminate. }
  now rewrite A, B.
Qed.
Lemma capacity_ok e : sf_capacity e = 0 <-> e_fits e = true.
Proof. unfold sf_capacity. destruct (e_fits e); split; congruence. Qed.
Lemma finish_pass t s t' s' : st_finish p t s = (true, t', s') -> sr_res t = RSuccess.
Proof. unfold st_finish. destruct (sr_res t); [reflexivity|discriminate..]. Qed.
Lemma begin_true_success s ok t s' : st_begin p s = Some (ok, t, s') -> sr_res t = RSuccess -> ok = true.
Proof.
  intros E R. destruct ok; [reflexivity|]. exfalso. unfold st_begin, st_fail in E.
  assert (CE : forall n i s0 r s1, st_check_erased p n i s0 = Some (Some r, s1) -> sr_res r <> RSuccess).
  { induction n as [|n IH]; intros i s0 r s1 H; cbn [st_check_erased] in H.
    - destruct (po_size p <=? i); discriminate.
    - destruct (po_size p <=? i); [discriminate|]. destruct (po_read p i _ s0) as [[o b] s2]. destruct o; cbn [negb] in H; [|inv H; discriminate].
      destruct (st_find 0 b); [inv H; discriminate|]. eapply IH, H. }
  assert (WA : forall n off num s0 r o s1, st_write_all p n off num s0 = Some (Some r, o, s1) -> sr_res r <> RSuccess).
  { induction n as [|n IH]; intros off num s0 r o s1 H; cbn [st_write_all] in H.
    - destruct (po_size p <=? off); discriminate.
    - destruct (po_size p <=? off); [discriminate|]. destruct (po_write p off _ s0) as [w s2]. destruct w; cbn [negb] in H; [|inv H; discriminate]. eapply IH, H. }
  assert (RA : forall n off num s0 r s1, st_read_all p n off num s0 = Some (Some r, s1) -> sr_res r <> RSuccess).
  { induction n as [|n IH]; intros off num s0 r s1 H; cbn [st_read_all] in H.
    - destruct (po_size p <=? off); discriminate.
    - destruct (po_size p <=? off); [discriminate|]. destruct (po_read p off _ s0) as [[o b] s2]. destruct o; cbn [negb] in H; [|inv H; discriminate].
      match type of H with (if ?c then _ else _) = _ => destruct c end; [|try (inv H; discriminate)]; try (eapply IH, H); inv H; discriminate. }
  destruct (po_size p =? 0); [inv E; discriminate|].
  destruct (po_begin p s) as [o0 s0]. destruct o0; cbn [negb] in E; [|inv E; discriminate].
  destruct (po_erase p 0 (po_size p) s0) as [o1 s1]. destruct o1; cbn [negb] in E; [|inv E; discriminate].
  apply bind_inv in E. destruct E as ([[r|] s2] & E1 & E); [inv E; eapply CE; eassumption|].
  apply bind_inv in E. destruct E as ([[[r|] off] s3] & E2 & E); [inv E; eapply WA; eassumption|].
  destruct (po_write p 0 st_pattern1 s3) as [o2 s4]. destruct o2; cbn [negb] in E; [|inv E; discriminate].
  apply bind_inv in E. destruct E as ([[r|] s5] & E3 & E); [inv E; eapply RA; eassumption|]. discriminate.
Qed.
Lemma storage_ok e w : st_begin p (w_st w) <> None -> exists r w', sf_storage p valid e w = Some (r, w') /\
  w_rt w' = w_rt w /\ (r = 0 <-> valid (w_st w) = false /\ e_off e = true /\ storage_passes p (w_st w)).
Proof.
  intros D. unfold sf_storage. destruct (valid (w_st w)).
  { exists 1, w. split; [reflexivity|]. split; [reflexivity|]. split; [lia|]. intros (X & _). discriminate. }
  destruct (e_off e); cbn [negb].
  2:{ exists 2. eexists. split; [reflexivity|]. split; [reflexivity|]. split; [lia|]. intros (_ & X & _). discriminate. }
  cbn [w_st w_call w_set_irq]. destruct (st_begin p (w_st w)) as [[[ok t] s]|] eqn:B; [|congruence]. cbn [bind].
  destruct (st_finish p t s) as [[ok' t'] s'] eqn:F.
  assert (X : forall b : bool, st_finish p t (w_st (w_call KFinish (if b then w_set_irq true (w_call KOn (w_set_st s (w_call KBegin (w_set_irq false (w_call KOff w))))) else
              w_call KOn (w_set_st s (w_call KBegin (w_set_irq false (w_call KOff w))))))) = (ok', t', s')) by (intros []; exact F).
  match goal with |- context [st_finish p t ?x] => change x with (w_st (w_call KFinish (if e_on e then w_set_irq true (w_call KOn (w_set_st s (w_call KBegin (w_set_irq false (w_call KOff w))))) else
              w_call KOn (w_set_st s (w_call KBegin (w_set_irq false (w_call KOff w)))))))  end.
  rewrite X. eexists. eexists. split; [reflexivity|]. split; [destruct (e_on e); reflexivity|]. split.
  - destruct ok'; [|let Y := fresh in intros Y; discriminate Y]. intros _. split; [reflexivity|]. split; [reflexivity|].
    pose proof (begin_true_success _ _ _ _ B (finish_pass _ _ _ _ F)) as ->. now exists t, s, t', s'.
  - intros (_ & _ & t1 & s1 & t2 & s2 & B1 & F1). rewrite B in B1. inversion B1; subst. rewrite F in F1. inversion F1. reflexivity.
Qed.

(** ** A run *)
Lemma sel_bit flags k : 0 <= k -> negb (Z.land flags (Z.shiftl 1 k) =? 0) = Z.testbit flags k.
Proof.
  intros K. rewrite Z.shiftl_1_l. destruct (Z.testbit flags k) eqn:T.
  - replace (Z.land flags (2 ^ k) =? 0) with false; [reflexivity|]. symmetry. apply Z.eqb_neq. intros E.
    apply (f_equal (fun z => Z.testbit z k)) in E. rewrite Z.land_spec, T, Z.pow2_bits_true, Z.testbit_0_l in E by exact K. discriminate.
  - replace (Z.land flags (2 ^ k)) with 0; [reflexivity|]. symmetry. apply Z.bits_inj_0. intros n. rewrite Z.land_spec.
    destruct (Z.eq_dec n k) as [->|N]; [now rewrite T|]. rewrite Z.pow2_bits_false by congruence. apply andb_false_r.
Qed.
Lemma line_ok len : 2 <= len -> sf_line len = Some (fill (len - 2) 43 ++ [49])%list.
Proof.
  intros L. unfold sf_line.
  assert (FS : fill len 0 = (fill (len - 2) 0 ++ [0; 0])%list).
  { unfold fill. replace (Z.to_nat len) with (Z.to_nat (len - 2) + 2)%nat by lia. now rewrite repeat_app. }
  assert (ZL : forall v, zlen (fill (len - 2) v) = len - 2) by (intros v; rewrite zlen_fill; lia).
  assert (SP : splice (fill len 0) 0 (fill (len - 2) 43) = Some (fill (len - 2) 43 ++ [0; 0])%list).
  { unfold splice. rewrite FS, zlen_app, !ZL. change (zlen [0; 0]) with 2. replace ((0 <=? 0) && (0 + (len - 2) <=? len - 2 + 2)) with true by lia.
    rewrite take_0. cbn [app]. f_equal. f_equal. rewrite Z.add_0_l, drop_app_exact by (now rewrite ZL). reflexivity. }
  rewrite SP. cbn [bind]. rewrite put_app_pre by apply ZL. cbn [bind].
  replace (fill (len - 2) 43 ++ [49; 0])%list with ((fill (len - 2) 43 ++ [49]) ++ 0 :: [])%list by now rewrite <- app_assoc.
  apply cstr_nul. apply Forall_app. split; [|repeat constructor; lia]. unfold fill. apply Forall_forall. intros c I. apply repeat_spec in I. lia.
Qed.

(** The tests whose failures count: with the verification selected, those before it do not. *)
Definition early (t : test) : Prop := match t with DeviceInfo | ComponentBoot | Regions => True | _ => False end.
Definition counted (flags : Z) (t : test) : Prop := selected flags t /\ (selected flags RebootVerify -> ~ early t).

Lemma code_or a : (if a =? 0 then 0 else 1) = 0 <-> a = 0.
Proof. destruct (Z.eqb_spec a 0); split; lia. Qed.
Lemma run_logic (b0 b1 b2 b3 b5 b6 b7 b8 : bool) (P0 P1 P2 P5 P6 Q7 P7 P8 : Prop) :
  (((((b5 = true -> P5) /\ (b5 = false -> (b0 = true -> P0) /\ (b1 = true -> P1) /\ (b2 = true -> P2))) /\ (b6 = true -> P6)) /\
    (b7 = true -> Q7 /\ P7)) /\ (b8 = true -> P8)) <->
  (b0 = true /\ (b5 = true -> ~ True) -> P0) /\ (b1 = true /\ (b5 = true -> ~ True) -> P1) /\ (b2 = true /\ (b5 = true -> ~ True) -> P2) /\
  (b3 = true /\ (b5 = true -> ~ False) -> True) /\ (false = true /\ (b5 = true -> ~ False) -> True) /\ (b5 = true /\ (b5 = true -> ~ False) -> P5) /\
  (b6 = true /\ (b5 = true -> ~ False) -> P6) /\ (b7 = true /\ (b5 = true -> ~ False) -> Q7 /\ P7) /\ (b8 = true /\ (b5 = true -> ~ False) -> P8).
Proof.
  split.
  - intros ((((H5 & H0) & H6) & H7) & H8). refine (conj _ (conj _ (conj _ (conj (fun _ => Logic.I) (conj (fun _ => Logic.I) (conj _ (conj _ (conj _ _)))))))); intros (X & Y).
    + destruct b5; [exfalso; exact (Y eq_refl Logic.I)|]. now apply H0.
    + destruct b5; [exfalso; exact (Y eq_refl Logic.I)|]. now apply H0.
    + destruct b5; [exfalso; exact (Y eq_refl Logic.I)|]. now apply H0.
    + exact (H5 X).
    + exact (H6 X).
    + exact (H7 X).
    + exact (H8 X).
  - intros (H0 & H1 & H2 & _ & _ & H5 & H6 & H7 & H8).
    split; [split; [split; [split|]|]|].
    + intros X. apply H5. split; [exact X|intros _ []].
    + intros X. subst b5. split; [|split]; intros Y; [apply H0|apply H1|apply H2]; (split; [exact Y|discriminate]).
    + intros X. apply H6. split; [exact X|intros _ []].
    + intros X. apply H7. split; [exact X|intros _ []].
    + intros X. apply H8. split; [exact X|intros _ []].
Qed.
Lemma or_if (b : bool) a x : (if b then Z.lor a x else a) = 0 <-> a = 0 /\ (b = true -> x = 0).
Proof. destruct b; rewrite ?Z.lor_eq_0_iff; split; intros H; try (split; intros; first [exact H|apply H|discriminate]); destruct H as (A & B); auto. Qed.
Lemma run_ok max len storage flags e reg w : sane p max e w -> 2 <= len -> Z.testbit flags 4 = false ->
  exists code w', sf_run p valid max len storage flags e reg w = Some (Returns code w') /\ (code = 0 \/ code = 1) /\
    w_rt w' = w_rt w /\
    (code = 0 <-> forall t, counted flags t -> passes p valid max storage e w t).
Proof.
  intros SA HL N4. unfold sf_run. rewrite !sel_bit by lia. rewrite N4, (line_ok len HL). cbn [bind].
  destruct (info_ok max e w SA) as (r0 & E0 & _). pose proof (info_zero max e w storage r0 SA E0) as Z0.
  pose proof (proj2 (proj2 (proj2 (proj2 (boot_ok' e (w_rt w)))))) as Z1. pose proof (regions_ok e) as Z2.
  pose proof (verify_ok (w_rt w)) as Z5. assert (T0 : 0 <= e_t0 e) by (unfold sane in SA; tauto). pose proof (time_ok e T0) as Z6.
  assert (BD : st_begin p (w_st w) <> None) by (unfold sane in SA; tauto).
  destruct (storage_ok e w BD) as (r7 & w7 & E7 & RT7 & Z7). pose proof (capacity_ok e) as Z8. rewrite E0, E7. cbn [bind fst snd].
  assert (ALL : forall P : test -> Prop, (forall t, P t) <-> P DeviceInfo /\ P ComponentBoot /\ P Regions /\ P Export /\ P RebootTest /\ P RebootVerify /\ P PlatformTime /\ P Storage /\ P Capacity).
  { intros P. split; [intros H; repeat split; apply H|]. intros H t. destruct t; tauto. }
  set (b0 := Z.testbit flags 0). set (b1 := Z.testbit flags 1). set (b2 := Z.testbit flags 2). set (b3 := Z.testbit flags 3).
  set (b5 := Z.testbit flags 5). set (b6 := Z.testbit flags 6). set (b7 := Z.testbit flags 7). set (b8 := Z.testbit flags 8).
  replace (if b0 then Some (Z.lor 0 r0) else Some 0) with (Some (if b0 then r0 else 0)) by (destruct b0; [now rewrite Z.lor_0_l|reflexivity]).
  cbn [bind]. replace (if b3 then Some tt else Some tt) with (Some tt) by (destruct b3; reflexivity). cbn [bind].
  set (a := if b5 then sf_verify (w_rt w) else _).
  assert (A : a = 0 <-> (b5 = true -> sf_verify (w_rt w) = 0) /\ (b5 = false -> (b0 = true -> r0 = 0) /\ (b1 = true -> sf_boot e (w_rt w) = 0) /\ (b2 = true -> sf_regions e = 0))).
  { unfold a. clear. destruct b5.
    - split; [intros H; split; [intros _; exact H|discriminate]|intros (H & _); now apply H].
    - rewrite !or_if. assert (I0 : (if b0 then r0 else 0) = 0 <-> (b0 = true -> r0 = 0)).
      { destruct b0; [split; auto|split; [discriminate|reflexivity]]. }
      rewrite I0. split; [intros ((A & B) & C); split; [discriminate|auto]|intros (_ & H); destruct (H eq_refl) as (A & B & C); auto]. }
  clearbody a. set (a' := if b6 then Z.lor a (sf_time e) else a).
  assert (A' : a' = 0 <-> a = 0 /\ (b6 = true -> sf_time e = 0)). { apply or_if. }
  clearbody a'.
  assert (X : exists a'' w', (if b7 then if storage then Some (Z.lor a' r7, w7) else Some (1, w) else Some (a', w)) = Some (a'', w') /\
     w_rt w' = w_rt w /\ (a'' = 0 <-> a' = 0 /\ (b7 = true -> storage = true /\ r7 = 0)) \/
     False /\ a'' = 0 /\ w' = w).
  { destruct b7; [destruct storage|].
    - exists (Z.lor a' r7), w7. left. split; [reflexivity|]. split; [exact RT7|]. rewrite Z.lor_eq_0_iff. split; [intros (H & K); auto|]. intros (H & K). split; [exact H|now apply K].
    - exists 1, w. left. split; [reflexivity|]. split; [reflexivity|]. split; [discriminate|]. intros (_ & H). destruct (H eq_refl). discriminate.
    - exists a', w. left. split; [reflexivity|]. split; [reflexivity|]. split; [intros H; split; [exact H|discriminate]|intros (H & _); exact H]. }
  destruct X as (a'' & w' & [(E & RT & A'')|([] & _)]). rewrite E. cbn [bind]. eexists. exists w'. split; [reflexivity|].
  split; [match goal with |- context [?x =? 0] => destruct (x =? 0) end; auto|]. split; [exact RT|].
  rewrite code_or, ALL. unfold counted, selected, early. cbn [bit_of]. fold b0 b1 b2 b3 b5 b6 b7 b8. rewrite N4.
  assert (A8 : (if b8 then Z.lor a'' (sf_capacity e) else a'') = 0 <-> a'' = 0 /\ (b8 = true -> sf_capacity e = 0)).
  { apply or_if. }
  rewrite A8, A'', A', A, Z0, Z1, Z2, Z5, Z6, Z7, Z8. clear. cbn [passes].
  apply run_logic.
Qed.

(** ** The reboot test *)
Lemma reboot_ends max len storage flags e reg w : sane p max e w -> 2 <= len -> Z.testbit flags 4 = true ->
  exists r, rt_step (w_rt w) (TMark 11 (Some reg)) = Some (TOk, r) /\
    sf_run p valid max len storage flags e reg w = Some (Reboots (mk_w r (w_st w) (w_irq w) (w_calls w))).
Proof.
  intros SA HL N4. unfold sf_run. rewrite !sel_bit by lia. rewrite N4, (line_ok len HL). cbn [bind].
  destruct (info_ok max e w SA) as (r0 & E0 & _). rewrite E0. cbn [bind].
  assert (X : exists r, rt_step (w_rt w) (TMark 11 (Some reg)) = Some (TOk, r)).
  { cbn [rt_step]. destruct (check_or_init (w_rt w)); eauto. }
  destruct X as (r & X). exists r. split; [exact X|]. unfold sf_reboot. change 0xb with 11. rewrite X. cbn [bind snd].
  destruct (Z.testbit flags 0), (Z.testbit flags 3); reflexivity.
Qed.
End P.

Lemma mark_kept r reg : rt_ptr r = true ->
  exists r', rt_step r (TMark 11 (Some reg)) = Some (TOk, r') /\ i_magic (rt_mem r') = 0x21544252 /\
    (i_reason (rt_mem r') = 11 <-> kept r = None \/ kept r = Some 11) /\ i_reason (rt_mem r') <> not_set.
Proof.
  intros P. cbn [rt_step]. unfold check_or_init. rewrite P. cbn [negb]. unfold kept, recall. change 0x21544252 with magic.
  destruct (Z.eqb_spec (i_magic (rt_mem r)) magic) as [M|M].
  - eexists. split; [reflexivity|]. unfold record_event. destruct reg as [pc lr].
    destruct (Z.eqb_spec (i_reason (rt_mem r)) not_set) as [R|R]; cbn [negb rt_mem i_magic i_reason k_first].
    + split; [exact M|]. change (i_reason (rt_mem r) =? 4294967295) with (i_reason (rt_mem r) =? not_set). rewrite R, Z.eqb_refl.
      split; [|unfold not_set; lia]. split; auto.
    + split; [exact M|]. change (i_reason (rt_mem r) =? 4294967295) with (i_reason (rt_mem r) =? not_set).
      replace (i_reason (rt_mem r) =? not_set) with false by lia. split; [|exact R]. split; [intros ->; auto|]. intros [X|X]; congruence.
  - eexists. split; [reflexivity|]. destruct reg as [pc lr]. cbn. split; [reflexivity|]. split; [|discriminate]. split; auto.
Qed.
Lemma booted_verify r info : i_magic (rt_mem r) = 0x21544252 -> i_reason (rt_mem r) <> not_set ->
  exists r', rt_run r [TReset None; TBoot true None info] = Some ([TOk; TOk], r') /\
    (sf_verify r' = 0 <-> i_reason (rt_mem r) = 11) /\ kept r' = kept r.
Proof.
  intros M R. cbn [rt_run rt_step bind]. eexists. split; [reflexivity|]. unfold rt_boot. cbn [negb rt_mem rt_data rt_ptr].
  unfold check_or_init. cbn [rt_ptr negb rt_mem]. change magic with 0x21544252. rewrite M, Z.eqb_refl.
  assert (X : forall (reason : Z) (m : rinfo), i_reason m = i_reason (rt_mem r) -> i_magic m = 0x21544252 ->
     let s := record_event (set_mem (mk_rt true (rt_mem r) None) m) reason None in
     let s' := match rt_data s with Some d => if unexpected d then let m := rt_mem s in
                      set_mem s (mk_rin (i_magic m) (i_version m) (u8 (i_crashes m + 1)) (i_saved m) (i_reason m) (i_pc m) (i_lr m) (i_reg0 m) (i_sessions m)) else s | None => s end in
     (sf_verify s' = 0 <-> i_reason (rt_mem r) = 11) /\ kept s' = kept r).
  { intros reason m RM MM. unfold record_event. cbn [set_mem rt_mem rt_ptr rt_data]. rewrite RM.
    replace (i_reason (rt_mem r) =? not_set) with false by lia. cbn [negb rt_data]. cbv zeta.
    assert (V : forall b : bool, let x := mk_rt true m (Some (reason, i_reason (rt_mem r))) in
       let y := if b then set_mem x (mk_rin (i_magic m) (i_version m) (u8 (i_crashes m + 1)) (i_saved m) (i_reason m) (i_pc m) (i_lr m) (i_reg0 m) (i_sessions m)) else x in
       (sf_verify y = 0 <-> i_reason (rt_mem r) = 11) /\ kept y = kept r).
    { intros b. cbv zeta. split.
      - rewrite verify_ok. destruct b; cbn [set_mem rt_data rt_mem]; (split; [intros (x & E); congruence|intros ->; now exists reason]).
      - unfold kept, recall. destruct b; cbn [set_mem rt_mem i_magic i_reason]; rewrite MM, M, RM; reflexivity. }
    exact (V _). }
  destruct info as [[reason reg]|]; apply X; cbn [i_reason i_magic]; auto.
Qed.
Lemma rt_run_cons s o l x s1 rs s2 : rt_step s o = Some (x, s1) -> rt_run s1 l = Some (rs, s2) -> rt_run s (o :: l) = Some (x :: rs, s2).
Proof. intros A B. cbn [rt_run]. rewrite A. cbn [bind]. now rewrite B. Qed.
Lemma reboot_then_verify r reg info : rt_ptr r = true ->
  exists r', rt_run r [TMark 11 (Some reg); TReset None; TBoot true None info] = Some ([TOk; TOk; TOk], r') /\
    (sf_verify r' = 0 <-> kept r = None \/ kept r = Some 11).
Proof.
  intros P. destruct (mark_kept r reg P) as (r1 & E1 & M & K & N). destruct (booted_verify r1 info M N) as (r2 & E2 & V & _).
  exists r2. split; [|now rewrite V]. exact (rt_run_cons _ _ _ _ _ _ _ E1 E2).
Qed.

(** ** Arguments *)
Lemma strncmp_ok a b resta restb : Forall (fun c => c <> 0) a -> Forall (fun c => c <> 0) b ->
  forall n pre pre', zlen pre = zlen pre' -> (n > List.length b)%nat ->
  sf_strncmp n (pre ++ a ++ 0 :: resta)%list (pre' ++ b ++ 0 :: restb)%list (zlen pre) = Some (if list_eq_dec Z.eq_dec a b then true else false).
Proof.
  revert b. induction a as [|x a IH]; intros [|y b] FA FB n pre pre' L N; destruct n as [|n]; cbn [List.length] in N; try lia;
    cbn [sf_strncmp app]; rewrite get_app_pre by reflexivity; cbn [bind]; rewrite get_app_pre by congruence; cbn [bind].
  - destruct (list_eq_dec Z.eq_dec [] []); [reflexivity|congruence].
  - inversion FB; subst. replace (0 =? y) with false by lia. destruct (list_eq_dec Z.eq_dec [] (y :: b)); [discriminate|reflexivity].
  - inversion FA; subst. replace (x =? 0) with false by lia. destruct (list_eq_dec Z.eq_dec (x :: a) []); [discriminate|reflexivity].
  - inversion FA; subst. inversion FB; subst. destruct (Z.eqb_spec x y) as [<-|D]; cbn [negb].
    + replace (x =? 0) with false by lia.
      replace (pre ++ x :: a ++ 0 :: resta)%list with ((pre ++ [x]) ++ a ++ 0 :: resta)%list by now rewrite <- app_assoc.
      replace (pre' ++ x :: b ++ 0 :: restb)%list with ((pre' ++ [x]) ++ b ++ 0 :: restb)%list by now rewrite <- app_assoc.
      replace (zlen pre + 1) with (zlen (pre ++ [x])%list) by (rewrite zlen_app; reflexivity).
      rewrite IH by (try assumption; try lia; rewrite !zlen_app; congruence).
      destruct (list_eq_dec Z.eq_dec a b), (list_eq_dec Z.eq_dec (x :: a) (x :: b)); congruence.
    + destruct (list_eq_dec Z.eq_dec (x :: a) (y :: b)); congruence.
Qed.
Lemma arg_ok a rest : Forall (fun c => c <> 0) a ->
  sf_arg_to_flag (a ++ 0 :: rest)%list =
    Some (if list_eq_dec Z.eq_dec a (str "reboot") then 16
          else if list_eq_dec Z.eq_dec a (str "reboot_verify") then 32
          else if list_eq_dec Z.eq_dec a (str "coredump_storage") then 128 else 335).
Proof.
  intros F. unfold sf_arg_to_flag, sf_flags. cbn [sf_find].
  assert (N : forall b, forallb (fun c => negb (c =? 0)) b = true -> Forall (fun c => c <> 0) b).
  { intros b H. rewrite forallb_forall in H. apply Forall_forall. intros c I. specialize (H c I). lia. }
  pose proof (fun b H n L => strncmp_ok a b rest [] F (N b H) n [] [] eq_refl L) as X. cbn [app] in X. change (zlen (@nil Z)) with 0 in X.
  rewrite !X by (try (vm_compute; reflexivity); vm_compute; lia). cbn [bind].
  destruct (list_eq_dec Z.eq_dec a (str "reboot")); [reflexivity|]. destruct (list_eq_dec Z.eq_dec a (str "reboot_verify")); [reflexivity|].
  destruct (list_eq_dec Z.eq_dec a (str "coredump_storage")); reflexivity.
Qed.
