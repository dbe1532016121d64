From Verif Require Import Base Crc16 Crc16Spec Crc16Proofs Coredump CoredumpSpec CoredumpProofs ArchRegions ArchRegionsSpec.

(** ** Reading registers *)
Definition plain (a n : Z) : Prop := forall i, 0 <= i < n -> a + 4 * i <> 0xE000ED98 /\ a + 4 * i <> 0xE000ED9C /\ a + 4 * i <> 0xE000EDA0.
Lemma read_plain h a : a <> 0xE000ED98 -> a <> 0xE000ED9C -> a <> 0xE000EDA0 -> scs_read h a = h_word h a.
Proof. intros A B D. unfold scs_read. now rewrite (proj2 (Z.eqb_neq _ _) A), (proj2 (Z.eqb_neq _ _) B), (proj2 (Z.eqb_neq _ _) D). Qed.
Lemma zlen_le32 v : zlen (cd_le32 v) = 4. Proof. reflexivity. Qed.
Lemma zlen_flat {A} (f : A -> list Z) k (l : list A) : (forall x, zlen (f x) = k) -> zlen (flat_map f l) = k * zlen l.
Proof. intros E. induction l as [|x l IH]; [change (0 = k * 0); lia|]. cbn [flat_map]. rewrite zlen_app, IH, E, zlen_cons. lia. Qed.
Lemma zlen_zrange n : zlen (zrange n) = Z.of_nat n.
Proof. unfold zlen, zrange. now rewrite map_length, seq_length. Qed.
Lemma zlen_scs h a n : 0 <= n -> zlen (scs_bytes h a n) = 4 * n.
Proof. intros P. unfold scs_bytes. rewrite (zlen_flat _ 4) by reflexivity. rewrite zlen_zrange. lia. Qed.
Lemma scs_bytes_spec h a n : plain a n -> scs_bytes h a n = flat_map (fun i => word (h_word h (a + 4 * Z.of_nat i))) (seq 0 (Z.to_nat n)).
Proof.
  intros P. unfold scs_bytes, zrange. rewrite flat_map_concat_map, map_map, <- flat_map_concat_map.
  assert (Q : forall l, (forall i, In i l -> 0 <= Z.of_nat i < n) ->
     flat_map (fun x => cd_le32 (scs_read h (a + 4 * Z.of_nat x))) l = flat_map (fun i => word (h_word h (a + 4 * Z.of_nat i))) l).
  { induction l as [|x l IH]; intros B; [reflexivity|]. cbn [flat_map]. rewrite IH by (intros; apply B; now right).
    destruct (P (Z.of_nat x) (B x (or_introl eq_refl))) as (P1 & P2 & P3). now rewrite read_plain. }
  apply Q. intros i I. apply in_seq in I. lia.
Qed.
Lemma words_block h a n : 0 <= n -> a <> 0 -> plain a n -> region_block (RgMemory 1 a (scs_bytes h a n)) = registers h a n.
Proof.
  intros N A P. unfold region_block, registers. rewrite zlen_scs by lia.
  destruct (Z.eqb_spec n 0) as [Z0|Z0]; [subst; reflexivity|].
  destruct (Z.eqb_spec (4 * n) 0); [lia|]. destruct (Z.eqb_spec a 0); [lia|]. cbn [orb]. change (1 =? 3) with false. cbv iota.
  now rewrite scs_bytes_spec.
Qed.
Lemma words_whole h a n : 0 <= n -> whole_words (RgMemory 1 a (scs_bytes h a n)).
Proof. intros N. cbn [whole_words]. rewrite zlen_scs by lia. rewrite Z.mul_comm. apply Z.mod_mul. lia. Qed.
Lemma below a n : 0 <= n -> a + 4 * n <= 0xE000ED98 -> plain a n. Proof. intros N B i I. lia. Qed.

(** ** The MPU *)
Definition pairs (h : scs) (r n : Z) : list Z := flat_map (fun i => [fst (h_mpu h i); snd (h_mpu h i)]) (map (fun i => r + Z.of_nat i) (seq 0 (Z.to_nat n))).
Lemma zlen_pairs h r n : 0 <= n -> zlen (pairs h r n) = 2 * n.
Proof. intros N. unfold pairs. rewrite (zlen_flat _ 2) by reflexivity. unfold zlen. rewrite map_length, seq_length. lia. Qed.
Lemma pairs_cons h r n : 0 <= n -> pairs h r (n + 1) = fst (h_mpu h r) :: snd (h_mpu h r) :: pairs h (r + 1) n.
Proof.
  intros N. unfold pairs. replace (Z.to_nat (n + 1)) with (S (Z.to_nat n)) by lia. cbn [seq map flat_map app].
  replace (r + Z.of_nat 0) with r by lia. do 2 f_equal. f_equal. rewrite <- seq_shift, map_map. apply map_ext. intros; lia.
Qed.
Definition same_regs (h h' : scs) : Prop := h_word h' = h_word h /\ h_mpu h' = h_mpu h.
Lemma unroll_ok k : forall r h pre mid post, zlen pre = 2 + 2 * r -> zlen mid = 2 * Z.of_nat k ->
  exists h', unroll_mpu k r h (pre ++ mid ++ post) = Some (h', pre ++ pairs h r (Z.of_nat k) ++ post) /\ same_regs h h'.
Proof.
  induction k as [|k IH]; intros r h pre mid post P M.
  - exists h. destruct mid as [|x mid]; [|rewrite zlen_cons in M; pose proof (zlen_nonneg mid); lia]. split; [reflexivity|split; reflexivity].
  - destruct mid as [|x [|y mid]]; [change (zlen (@nil Z)) with 0 in M; lia|rewrite zlen_cons in M; change (zlen (@nil Z)) with 0 in M; lia|]. rewrite !zlen_cons in M.
    cbn [unroll_mpu app]. set (h1 := scs_select h r).
    assert (B1 : scs_read h1 0xE000ED9C = fst (h_mpu h r)) by reflexivity.
    assert (B2 : scs_read h1 0xE000EDA0 = snd (h_mpu h r)) by reflexivity.
    rewrite B1, B2. rewrite put_app_pre by lia. cbn [bind].
    replace (pre ++ fst (h_mpu h r) :: y :: mid ++ post) with ((pre ++ [fst (h_mpu h r)]) ++ y :: mid ++ post) by (rewrite <- app_assoc; reflexivity).
    rewrite put_app_pre by (rewrite zlen_app, zlen_cons; change (zlen (@nil Z)) with 0; lia). cbn [bind].
    replace ((pre ++ [fst (h_mpu h r)]) ++ snd (h_mpu h r) :: mid ++ post) with ((pre ++ [fst (h_mpu h r); snd (h_mpu h r)]) ++ mid ++ post)
      by (rewrite <- !app_assoc; reflexivity).
    destruct (IH (r + 1) h1 (pre ++ [fst (h_mpu h r); snd (h_mpu h r)]) mid post) as (h' & E & S1 & S2);
      [rewrite zlen_app; change (zlen [fst (h_mpu h r); snd (h_mpu h r)]) with 2; lia|lia|].
    exists h'. split; [|now split]. rewrite E. do 2 f_equal. rewrite <- app_assoc. f_equal.
    replace (Z.of_nat (S k)) with (Z.of_nat k + 1) by lia. rewrite pairs_cons by lia. reflexivity.
Qed.

(** The words kept: of the regions not there, zeros. *)
Definition mpu_n (h : scs) (k : Z) : Z := if mpu_type h =? 0 then 0 else Z.min (mpu_regions h) k.
Definition mpu_inv (t k : Z) (m : list Z) : Prop :=
  exists a b mid, m = a :: b :: mid ++ fill (2 * (k - (if t =? 0 then 0 else Z.min (t / 256 mod 256) k))) 0 /\
    zlen mid = 2 * (if t =? 0 then 0 else Z.min (t / 256 mod 256) k) /\ (t = 0 -> b = 0).
Lemma pairs_words h n : forall r, 
  flat_map (fun i => let i := Z.of_nat i in if negb (mpu_type h =? 0) && (i <? mpu_regions h) then [fst (h_mpu h i); snd (h_mpu h i)] else [0; 0]) (seq r n)
  = pairs h (Z.of_nat r) (Z.max 0 (Z.min (Z.of_nat n) ((if mpu_type h =? 0 then 0 else mpu_regions h) - Z.of_nat r)))
    ++ fill (2 * (Z.of_nat n - Z.max 0 (Z.min (Z.of_nat n) ((if mpu_type h =? 0 then 0 else mpu_regions h) - Z.of_nat r)))) 0.
Proof.
  induction n as [|n IH]; intros r; [replace (Z.max 0 _) with 0 by lia; reflexivity|].
  cbn [seq flat_map]. rewrite IH. clear IH. set (w := if mpu_type h =? 0 then 0 else mpu_regions h).
  assert (W : (negb (mpu_type h =? 0) && (Z.of_nat r <? mpu_regions h)) = (Z.of_nat r <? w)).
  { subst w. destruct (mpu_type h =? 0); [|reflexivity]. cbn [negb andb]. symmetry. apply Z.ltb_ge. lia. }
  cbv zeta. rewrite W. destruct (Z.ltb_spec (Z.of_nat r) w) as [Q|Q].
  - replace (Z.max 0 (Z.min (Z.of_nat (S n)) (w - Z.of_nat r))) with (Z.max 0 (Z.min (Z.of_nat n) (w - Z.of_nat (S r))) + 1) by lia.
    rewrite pairs_cons by lia. cbn [app]. do 2 f_equal. replace (Z.of_nat (S r)) with (Z.of_nat r + 1) by lia. f_equal. f_equal. lia.
  - replace (Z.max 0 (Z.min (Z.of_nat (S n)) (w - Z.of_nat r))) with 0 by lia.
    replace (Z.max 0 (Z.min (Z.of_nat n) (w - Z.of_nat (S r)))) with 0 by lia. cbn [pairs app]. 
    change (pairs h (Z.of_nat (S r)) 0) with (@nil Z). change (pairs h (Z.of_nat r) 0) with (@nil Z). cbn [app].
    unfold fill. replace (Z.to_nat (2 * (Z.of_nat (S n) - 0))) with (S (S (Z.to_nat (2 * (Z.of_nat n - 0))))) by lia. reflexivity.
Qed.
Lemma mpu_words_eq h k : 0 <= k -> 0 <= mpu_regions h ->
  mpu_words h k = mpu_type h :: (if mpu_type h =? 0 then 0 else h_word h 0xE000ED94) :: pairs h 0 (mpu_n h k) ++ fill (2 * (k - mpu_n h k)) 0.
Proof.
  intros K R. unfold mpu_words. rewrite pairs_words, Z2Nat.id by lia. unfold mpu_n. do 2 f_equal. change (Z.of_nat 0) with 0.
  replace (Z.max 0 (Z.min k ((if mpu_type h =? 0 then 0 else mpu_regions h) - 0))) with (if mpu_type h =? 0 then 0 else Z.min (mpu_regions h) k)
    by (destruct (mpu_type h =? 0); lia). reflexivity.
Qed.
Lemma regions_range h : 0 <= mpu_regions h < 256. Proof. apply Z.mod_pos_bound. lia. Qed.
Lemma read_mpu_ok k h m : 0 <= k -> mpu_inv (mpu_type h) k m ->
  exists h', read_mpu k h m = Some (h', mpu_words h k) /\ same_regs h h' /\ mpu_inv (mpu_type h) k (mpu_words h k).
Proof.
  intros K (a & b & mid & E & L & Z0). pose proof (regions_range h) as R.
  assert (I : mpu_inv (mpu_type h) k (mpu_words h k)).
  { rewrite mpu_words_eq by lia. exists (mpu_type h), (if mpu_type h =? 0 then 0 else h_word h 0xE000ED94), (pairs h 0 (mpu_n h k)).
    split; [reflexivity|]. split.
    - rewrite zlen_pairs by (unfold mpu_n; destruct (mpu_type h =? 0); lia). reflexivity.
    - intros Q. rewrite Q. reflexivity. }
  unfold read_mpu. change (scs_read h 0xE000ED90) with (mpu_type h). rewrite E.
  match goal with |- context[put (a :: ?s) 0 ?v] => change (put (a :: s) 0 v) with (put ([] ++ a :: s) 0 v) end.
  rewrite put_app_pre by reflexivity. cbn [bind app].
  destruct (Z.eqb_spec (mpu_type h) 0) as [Q|Q].
  - exists h. split; [|split; [split; reflexivity|exact I]]. do 2 f_equal. rewrite mpu_words_eq by lia. unfold mpu_n. rewrite Q. change (0 =? 0) with true. cbv iota.
    rewrite (Z0 Q). do 2 f_equal. destruct mid as [|x mid]; [reflexivity|]. rewrite zlen_cons in L. pose proof (zlen_nonneg mid). lia.
  - change (scs_read h 0xE000ED94) with (h_word h 0xE000ED94). 
    match goal with |- context[put (?t :: b :: ?s) 1 ?v] => change (put (t :: b :: s) 1 v) with (put ([t] ++ b :: s) 1 v) end.
    rewrite put_app_pre by reflexivity. cbn [bind].
    change (mpu_type h / 256 mod 256) with (mpu_regions h) in *.
    destruct (unroll_ok (Z.to_nat (Z.min (mpu_regions h) k)) 0 h [mpu_type h; h_word h 0xE000ED94] mid (fill (2 * (k - Z.min (mpu_regions h) k)) 0)) as (h' & E1 & S1);
      [reflexivity|rewrite Z2Nat.id; lia|].
    exists h'. split; [|split; assumption]. cbn [app] in E1 |- *. rewrite E1. do 2 f_equal. rewrite mpu_words_eq by lia. unfold mpu_n.
    destruct (Z.eqb_spec (mpu_type h) 0); [lia|]. rewrite Z2Nat.id by lia. reflexivity.
Qed.

(** ** Registers kept earlier *)
Definition cached_words (h : scs) : list Z := 1 :: 0xE000ED24 :: 28 :: map (fun i => h_word h (0xE000ED24 + 4 * Z.of_nat i)) (seq 0 7).
Definition cache_inv (o : option scs) (c : list Z) : Prop :=
  match o with Some h => c = cached_words h | None => c = fill 10 0 end.
Lemma cache_ok h c o : cache_inv o c -> cache_fault_regs h c = Some (cached_words h).
Proof.
  intros I. assert (L : exists x0 x1 x2 x3 x4 x5 x6 x7 x8 x9, c = [x0; x1; x2; x3; x4; x5; x6; x7; x8; x9]).
  { destruct o; cbn in I; subst c; repeat eexists. }
  destruct L as (x0 & x1 & x2 & x3 & x4 & x5 & x6 & x7 & x8 & x9 & L). subst c. reflexivity.
Qed.
Lemma words_bytes_app a b : words_bytes (a ++ b) = words_bytes a ++ words_bytes b.
Proof. apply flat_map_app. Qed.
Lemma cached_region c o : cache_inv o c ->
  exists r, cached_block c = Some r /\ region_block r = match o with Some h => registers h 0xE000ED24 7 | None => [] end /\ whole_words r.
Proof.
  intros I. destruct o as [h|]; cbn [cache_inv] in I; subst c; [|eexists; split; [reflexivity|split; [reflexivity|exact I]]].
  eexists. split; [reflexivity|]. split; [reflexivity|exact I].
Qed.

(** ** All of them *)
Definition st_inv (cfg : acfg) (t : Z) (o : option scs) (s : list Z * list Z) : Prop :=
  cache_inv o (fst s) /\ match a_mpu cfg with Some k => mpu_inv t k (snd s) | None => True end.
Lemma regs_same h h' a n : same_regs h h' -> registers h' a n = registers h a n.
Proof. intros (A & B). unfold registers. now rewrite A. Qed.
Lemma ints_same h h' n : same_regs h h' -> interrupt_registers h' n = interrupt_registers h n.
Proof. intros S. unfold interrupt_registers. now rewrite !(regs_same h h') by exact S. Qed.
Lemma zlen_words_bytes l : zlen (words_bytes l) = 4 * zlen l.
Proof. apply zlen_flat. reflexivity. Qed.
Lemma int_blocks h n : 0 <= n <= 512 ->
  let words a n := RgMemory 1 a (scs_bytes h a n) in
  let l := [words 0xE000ED18 3; words 0xE000E004 4; words 0xE000ED04 2; words 0xE000EDFC 1;
            words 0xE000E100 ((n + 31) / 32); words 0xE000E200 ((n + 31) / 32); words 0xE000E300 ((n + 31) / 32); words 0xE000E400 (n / 4)] in
  flat_map region_block l = interrupt_registers h n /\ Forall whole_words l.
Proof.
  intros N words l. subst words l. cbv beta.
  assert (A : 0 <= (n + 31) / 32 <= 16) by (split; [apply Z.div_pos; lia|apply Z.lt_succ_r, Z.div_lt_upper_bound; lia]).
  assert (B : 0 <= n / 4 <= 128) by (split; [apply Z.div_pos; lia|apply Z.lt_succ_r, Z.div_lt_upper_bound; lia]).
  split.
  - unfold interrupt_registers. cbn [flat_map]. rewrite app_nil_r.
    rewrite !words_block; try reflexivity; try lia; try (apply below; lia).
    intros i I. lia.
  - repeat (apply Forall_cons; [apply words_whole; lia|]). apply Forall_nil.
Qed.
Lemma arch_step cfg low mpu_at t o c m h : acfg_ok cfg -> mpu_at <> 0 -> a_fault cfg = true \/ low_word low 0 = 0 ->
  mpu_type h = t -> st_inv cfg t o (c, m) ->
  exists l h' m', arch_regions cfg low mpu_at h c m = Some (l, h', m') /\ st_inv cfg t o (c, m') /\
    flat_map region_block l = arch_expected cfg mpu_at h o /\ Forall whole_words l.
Proof.
  intros (CI & CM) MA LW T (I1 & I2). cbn [fst snd] in I1, I2. unfold arch_regions.
  assert (M : exists h' m', match a_mpu cfg with Some k => read_mpu k h m | None => Some (h, m) end = Some (h', m') /\ same_regs h h' /\
     match a_mpu cfg with Some k => m' = mpu_words h k /\ mpu_inv t k m' | None => True end).
  { destruct (a_mpu cfg) as [k|]; [|exists h, m; split; [reflexivity|split; [split; reflexivity|exact I]]].
    subst t. destruct (read_mpu_ok k h m) as (h' & E & S & J); [lia|exact I2|]. exists h', (mpu_words h k). now repeat split; try apply S; try apply J. }
  destruct M as (h' & m' & EM & SM & JM). rewrite EM. cbn [bind].
  assert (F : exists f, (if negb (a_fault cfg) then Some (low_block low) else if a_cache cfg then cached_block c
                         else Some (RgMemory 1 0xE000ED24 (scs_bytes h' 0xE000ED24 7))) = Some f /\
     region_block f = fault_registers cfg h o /\ whole_words f).
  { unfold fault_registers. destruct (a_fault cfg) eqn:AF; cbn [negb].
    - destruct (a_cache cfg).
      + destruct (cached_region c o I1) as (r & A & B & W). now exists r.
      + eexists. split; [reflexivity|]. split; [|apply words_whole; lia].
        rewrite words_block; [now rewrite (regs_same h h')|lia|lia|apply below; lia].
    - destruct LW as [Q|Q]; [congruence|]. eexists. split; [reflexivity|]. split; [|exact I]. unfold low_block, region_block. rewrite Q. now rewrite orb_true_r. }
  destruct F as (f & EF & BF & WF). rewrite EF. cbn [bind].
  eexists _, h', m'. split; [reflexivity|]. split; [|split].
  - split; [exact I1|]. cbn [snd]. destruct (a_mpu cfg); [apply JM|exact I].
  - cbn [flat_map]. rewrite BF, flat_map_app. unfold arch_expected. f_equal. f_equal.
    + destruct (a_ints cfg) as [n|]; [|reflexivity]. destruct (int_blocks h' n (proj1 CI)) as [Q _]. rewrite Q. now apply ints_same.
    + destruct (a_mpu cfg) as [k|]; [|reflexivity]. destruct JM as [JM _]. subst m'. cbn [flat_map]. rewrite app_nil_r. unfold region_block.
      rewrite zlen_words_bytes. destruct (Z.eqb_spec (4 * zlen (mpu_words h k)) 0) as [Q|Q].
      { unfold mpu_words in Q. rewrite !zlen_cons in Q. match type of Q with context[zlen (flat_map ?f ?l)] => pose proof (zlen_nonneg (flat_map f l)) end. lia. }
      destruct (Z.eqb_spec mpu_at 0); [lia|]. reflexivity.
  - apply Forall_cons; [exact WF|]. apply Forall_app. split.
    + destruct (a_ints cfg) as [n|]; [|apply Forall_nil]. apply (int_blocks h' n (proj1 CI)).
    + destruct (a_mpu cfg); [|apply Forall_nil]. apply Forall_cons; [exact I|apply Forall_nil].
Qed.
Lemma last_cached_app a b : last_cached (a ++ b) = match last_cached b with Some h => Some h | None => last_cached a end.
Proof.
  induction a as [|x a IH]; cbn [app last_cached]; [destruct (last_cached b); reflexivity|]. rewrite IH.
  destruct (last_cached b); reflexivity.
Qed.
Lemma start_inv cfg t : acfg_ok cfg -> st_inv cfg t None (ac_start cfg).
Proof.
  intros (_ & CM). split; [reflexivity|]. unfold ac_start. cbn [snd]. destruct (a_mpu cfg) as [k|]; [|exact I].
  set (n := if t =? 0 then 0 else Z.min (t / 256 mod 256) k).
  assert (N : 0 <= n <= k) by (subst n; pose proof (Z.mod_pos_bound (t / 256) 256); destruct (t =? 0); lia).
  exists 0, 0, (fill (2 * n) 0). split; [|split; [apply zlen_fill; lia|reflexivity]]. fold n. unfold fill.
  rewrite <- repeat_app. replace (Z.to_nat (2 + 2 * k)) with (S (S (Z.to_nat (2 * n) + Z.to_nat (2 * (k - n))))) by lia. reflexivity.
Qed.
Lemma run_inv cfg low mpu_at t : acfg_ok cfg -> mpu_at <> 0 -> a_fault cfg = true \/ low_word low 0 = 0 -> forall ops o s,
  Forall (of_type_mpu t) ops -> st_inv cfg t o s ->
  exists s', ac_run cfg low mpu_at s ops = Some s' /\ st_inv cfg t (match last_cached ops with Some h => Some h | None => o end) s'.
Proof.
  intros OK MA LW. induction ops as [|x ops IH]; intros o s F I; [exists s; split; [reflexivity|exact I]|].
  inversion F as [|? ? F1 F2]; subst. destruct s as [c m]. cbn [ac_run last_cached]. unfold ac_step. destruct x as [h|h].
  - rewrite (cache_ok h c o) by apply I. cbn [bind snd].
    destruct (IH (Some h) (cached_words h, m) F2) as (s' & E & J); [split; [reflexivity|apply I]|].
    exists s'. split; [exact E|]. destruct (last_cached ops); exact J.
  - destruct (arch_step cfg low mpu_at t o c m h OK MA LW F1 I) as (l & h' & m' & E & J & _). rewrite E. cbn [bind snd].
    destruct (IH o (c, m') F2 J) as (s' & E' & J'). exists s'. split; [exact E'|]. destruct (last_cached ops); exact J'.
Qed.
Lemma arch_regions_ok cfg low mpu_at t ops h : acfg_ok cfg -> mpu_at <> 0 -> a_fault cfg = true \/ low_word low 0 = 0 ->
  Forall (of_type_mpu t) ops -> mpu_type h = t ->
  exists s l s', ac_run cfg low mpu_at (ac_start cfg) ops = Some s /\ ac_step cfg low mpu_at s (ARegions h) = Some (l, s') /\
    flat_map region_block l = arch_expected cfg mpu_at h (last_cached ops) /\ Forall whole_words l.
Proof.
  intros OK MA LW F T. destruct (run_inv cfg low mpu_at t OK MA LW ops None (ac_start cfg) F (start_inv cfg t OK)) as ([c m] & E & J).
  replace (match last_cached ops with Some h => Some h | None => None end) with (last_cached ops) in J by (destruct (last_cached ops); reflexivity).
  destruct (arch_step cfg low mpu_at t _ c m h OK MA LW T J) as (l & h' & m' & E1 & _ & B & W).
  exists (c, m), l, (c, m'). split; [exact E|]. split; [|split; assumption]. unfold ac_step. rewrite E1. reflexivity.
Qed.

(** ** The SDK's regions *)
Lemma log_regions_two at_ size l rs : log_get_regions at_ size l = Some rs -> rs = [(at_, size); (li_storage l, li_len l)].
Proof. unfold log_get_regions. destruct (li_enabled l); cbn [negb]; [|discriminate]. destruct (log_region_crc l); cbn [bind]; [|discriminate]. destruct (z =? li_crc l); cbn [negb]; congruence. Qed.
Lemma sdk_regions_ok cfg at_ size l heap h1 h2 watchdog :
  sdk_regions cfg (log_get_regions at_ size l) heap h1 h2 watchdog = Some (sdk_expected cfg (log_get_regions at_ size l) heap h1 h2 watchdog).
Proof.
  pose proof (log_regions_two at_ size l) as R. destruct (log_get_regions at_ size l) as [rs|]; [rewrite (R rs eq_refl)|];
  destruct cfg as [[] [] []], heap; reflexivity.
Qed.
Lemma bytes_le32 v : bytes (cd_le32 v).
Proof. unfold cd_le32, bytes. repeat (apply Forall_cons; [apply Z.mod_pos_bound; lia|]). apply Forall_nil. Qed.
Lemma log_boot_regions at_ size l storage len : storage <> 0 -> len <> 0 -> li_enabled l = false ->
  exists l', log_boot_info l storage len = Some l' /\ log_get_regions at_ size l' = Some [(at_, size); (storage, len)].
Proof.
  intros S L E. unfold log_boot_info, log_region_crc. rewrite E. destruct (Z.eqb_spec storage 0); [lia|]. destruct (Z.eqb_spec len 0); [lia|]. cbn [orb li_storage li_len].
  destruct (crc16_some 0 (cd_le32 storage ++ cd_le32 len)) as (r & Q & _); [unfold is_u16; lia|apply Forall_app; split; apply bytes_le32|].
  rewrite Q. cbn [bind]. eexists. split; [reflexivity|]. unfold log_get_regions, log_region_crc. cbn [li_enabled li_storage li_len li_crc negb]. rewrite Q. cbn [bind].
  now rewrite Z.eqb_refl.
Qed.
Lemma log_damaged at_ size l storage len l' storage' len' pre x y post : log_boot_info l storage len = Some l' ->
  bits_of (cd_le32 storage ++ cd_le32 len) = pre ++ x ++ post -> bits_of (cd_le32 storage' ++ cd_le32 len') = pre ++ y ++ post ->
  zlen x = zlen y -> zlen x <= 16 -> x <> y ->
  log_get_regions at_ size (mk_li true storage' len' (li_crc l')) = None.
Proof.
  intros B X Y L1 L2 N. unfold log_boot_info in B. destruct ((storage =? 0) || (len =? 0) || li_enabled l); [discriminate|].
  unfold log_region_crc in B. cbn [li_storage li_len] in B.
  destruct (crc16_compute 0 (cd_le32 storage ++ cd_le32 len)) as [c|] eqn:Q; cbn [bind] in B; [|discriminate]. injection B as <-.
  unfold log_get_regions, log_region_crc. cbn [li_enabled li_storage li_len li_crc negb].
  destruct (crc16_some 0 (cd_le32 storage' ++ cd_le32 len')) as (r & Q' & _); [unfold is_u16; lia|apply Forall_app; split; apply bytes_le32|].
  rewrite Q'. cbn [bind].
  assert (D : c <> r) by (refine (crc16_burst 0 _ _ pre x y post c r _ _ _ X Y L1 L2 N Q Q'); [unfold is_u16; lia|apply Forall_app; split; apply bytes_le32..]).
  destruct (Z.eqb_spec r c); [congruence|reflexivity].
Qed.
