From Verif Require Import Base Coredump CoredumpSpec CoredumpProofs CoredumpSaveProofs BufferedStorage BufferedStorageSpec.

Lemma zlen_len {A} (l : list A) : Z.of_nat (length l) = zlen l.
Proof. reflexivity. Qed.

(** ** Blocks in a row *)
Fixpoint rows (W off : Z) (fs : list (list Z)) : list (Z * list Z) :=
  match fs with [] => [] | f :: r => (off, f) :: rows W (off + W) r end.
Definition done (l : list (Z * list Z)) : list bwrite := map (fun x => mk_bw (fst x) (snd x) true) l.
Lemma rows_app W a : forall off b, rows W off (a ++ b) = rows W off a ++ rows W (off + W * zlen a) b.
Proof.
  induction a as [|x a IH]; intros off b; cbn [app rows]; [change (zlen (@nil (list Z))) with 0; f_equal; lia|].
  rewrite IH, zlen_cons. do 2 f_equal. f_equal. lia.
Qed.
Lemma rows_len W a : forall off, zlen (rows W off a) = zlen a.
Proof. induction a as [|x a IH]; intros off; [reflexivity|]. cbn [rows]. now rewrite !zlen_cons, IH. Qed.
Lemma done_app a b : done (a ++ b) = done a ++ done b.
Proof. apply map_app. Qed.
Lemma done_len a : zlen (done a) = zlen a.
Proof. apply zlen_map. Qed.
Lemma tried_app ok a : forall n b, tried ok n (a ++ b) =
  let (t, x) := tried ok n a in if t then let (t, y) := tried ok (n + zlen a) b in (t, x ++ y) else (false, x).
Proof.
  induction a as [|(o & d) a IH]; intros n b; cbn [app tried].
  - change (zlen (@nil (Z * list Z))) with 0. rewrite Z.add_0_r. destruct (tried ok n b); reflexivity.
  - destruct (ok n); [|reflexivity]. rewrite IH, zlen_cons. destruct (tried ok (n + 1) a) as (t & x). destruct t; [|reflexivity].
    rewrite Z.add_assoc. destruct (tried ok (n + 1 + zlen a) b); reflexivity.
Qed.
Lemma tried_true ok a : forall n, fst (tried ok n a) = true -> snd (tried ok n a) = done a.
Proof.
  induction a as [|(o & d) a IH]; intros n; [reflexivity|]. cbn [tried]. destruct (ok n); [|discriminate].
  specialize (IH (n + 1)). destruct (tried ok (n + 1) a) as (t & x). cbn [fst snd] in *. intros H. now rewrite (IH H).
Qed.
Lemma fill_none n b : n <= 0 -> fill n b = [].
Proof. intros L. unfold fill. destruct n; [reflexivity|lia|reflexivity]. Qed.
Lemma cut_nil n W off : cut n W off [] = [].
Proof. destruct n; reflexivity. Qed.
Lemma cut_more W : 0 < W -> forall n m off l, (length l <= n)%nat -> (length l <= m)%nat -> cut n W off l = cut m W off l.
Proof.
  intros HW. induction n as [|n IH]; intros m off l Hn Hm.
  - destruct l; [|cbn in Hn; lia]. symmetry; apply cut_nil.
  - destruct l as [|x l]; [now rewrite !cut_nil|]. destruct m as [|m]; [cbn in Hm; lia|]. cbn [cut]. f_equal. apply IH.
    + pose proof (zlen_drop W (x :: l)) as Z1. rewrite zlen_cons in Z1. unfold zlen in Z1. cbn [length] in *. lia.
    + pose proof (zlen_drop W (x :: l)) as Z1. rewrite zlen_cons in Z1. unfold zlen in Z1. cbn [length] in *. lia.
Qed.
Lemma cut_up_rows W : 0 < W -> forall fs off tl, Forall (fun f => zlen f = W) fs -> 0 <= zlen tl < W ->
  cut_up W off (concat fs ++ tl) = rows W off fs ++ (if zlen tl =? 0 then [] else [(off + W * zlen fs, tl ++ fill (W - zlen tl) 0)]).
Proof.
  intros HW. induction fs as [|f fs IH]; intros off tl F L.
  - cbn [concat app rows]. unfold cut_up. destruct (zlen tl =? 0) eqn:E.
    + assert (tl = []) by (apply zlen_0_nil; lia). subst. reflexivity.
    + destruct tl as [|x tl]; [discriminate E|]. cbn [length cut]. rewrite take_all by lia. rewrite drop_all by lia. rewrite cut_nil.
      change (zlen (@nil (list Z))) with 0. do 3 f_equal. lia.
  - cbn [concat rows app]. inversion F as [|? ? F1 F2]; subst. rewrite <- app_assoc. specialize (IH (off + zlen f) tl F2 L).
    destruct f as [|x f]; [discriminate HW|]. unfold cut_up. rewrite app_length. cbn [length app Nat.add cut].
    change (x :: f ++ concat fs ++ tl) with ((x :: f) ++ concat fs ++ tl).
    rewrite take_app_exact by reflexivity. rewrite drop_app_exact by reflexivity. pose proof (zlen_nonneg (concat fs ++ tl)).
    replace (fill (zlen (x :: f) - zlen ((x :: f) ++ concat fs ++ tl)) 0) with (@nil Z).
    2:{ symmetry. apply fill_none. rewrite (zlen_app (x :: f)). lia. }
    rewrite app_nil_r. f_equal. rewrite (cut_more (zlen (x :: f)) HW _ (length (concat fs ++ tl))) by lia. change (cut (length (concat fs ++ tl))) with (fun a b c => cut (length (concat fs ++ tl)) a b c). cbv beta.
    unfold cut_up in IH. rewrite IH. f_equal. destruct (zlen tl =? 0); [reflexivity|]. rewrite (zlen_cons (x :: f)). do 2 f_equal. lia.
Qed.

Lemma concat_len W fs : Forall (fun f : list Z => zlen f = W) fs -> zlen (concat fs) = W * zlen fs.
Proof. induction 1 as [|f fs E F IH]; cbn [concat]; [change (zlen (@nil Z)) with 0; change (zlen (@nil (list Z))) with 0; lia|]. rewrite zlen_app, zlen_cons. lia. Qed.

Section P.
Variables (W size : Z) (ok : Z -> bool) (H : Z).
Hypotheses (HH : 0 < H) (HW : H <= W) (HS : size < 4294967296) (HM : size mod W = 0) (HZ : W <= size).

(** What was written after the header: the rest of block 0, whole blocks, the beginning of a block. *)
Definition good (b0 : list Z) (fs : list (list Z)) (tl : list Z) : Prop :=
  zlen b0 <= W - H /\ (zlen b0 < W - H -> fs = [] /\ tl = []) /\ Forall (fun f => zlen f = W) fs /\ zlen tl < W.
Definition datbuf (fs : list (list Z)) (tl : list Z) : wbuf :=
  if zlen tl =? 0 then wb_zero W else mk_wb (tl ++ fill (W - zlen tl) 0) (W + W * zlen fs) (zlen tl).
Definition St (b0 : list Z) (fs : list (list Z)) (tl : list Z) : bsto :=
  mk_bs (mk_wb (fill H 0 ++ b0 ++ fill (W - H - zlen b0) 0) 0 (zlen b0)) (datbuf fs tl) (done (rows W W fs)).
Definition all (b0 : list Z) (fs : list (list Z)) (tl : list Z) : list Z := b0 ++ concat fs ++ tl.
Lemma all_len b0 fs tl : good b0 fs tl -> zlen (all b0 fs tl) = zlen b0 + W * zlen fs + zlen tl.
Proof. intros (_ & _ & F & _). unfold all. rewrite !zlen_app, (concat_len W) by exact F. lia. Qed.

Definition Res (b0 : list Z) (fs : list (list Z)) (tl x : list Z) (r : option (bool * bsto)) : Prop :=
  exists b1 new t1 s, good b1 (fs ++ new) t1 /\ all b0 fs tl ++ x = all b1 (fs ++ new) t1 /\
    r = Some (fst (tried ok (zlen fs) (rows W (W + W * zlen fs) new)), s) /\
    bs_log s = done (rows W W fs) ++ snd (tried ok (zlen fs) (rows W (W + W * zlen fs) new)) /\
    (fst (tried ok (zlen fs) (rows W (W + W * zlen fs) new)) = true -> s = St b1 (fs ++ new) t1).

Lemma St_init : bs_init W = St [] [] [].
Proof.
  unfold bs_init, St, datbuf, wb_zero. change (zlen (@nil Z)) with 0. cbn [Z.eqb app rows done map]. rewrite <- fill_split by lia. do 3 f_equal. lia.
Qed.
Lemma extend1 b0 fs tl y : good b0 fs tl -> exists b1 new t1, good b1 (fs ++ new) t1 /\ all b0 fs tl ++ [y] = all b1 (fs ++ new) t1.
Proof.
  intros (G1 & G2 & G3 & G4). destruct (Z_lt_ge_dec (zlen b0) (W - H)) as [L|L].
  - destruct (G2 L) as (-> & ->). exists (b0 ++ [y]), [], []. split.
    + unfold good. rewrite zlen_app. change (zlen [y]) with 1. change (zlen (@nil Z)) with 0. split; [lia|]. split; [auto|]. split; [constructor|lia].
    + unfold all. cbn. now rewrite !app_nil_r.
  - assert (E0 : zlen b0 = W - H) by lia. destruct (Z_lt_ge_dec (zlen tl + 1) W) as [T|T].
    + exists b0, [], (tl ++ [y]). split.
      * unfold good. rewrite app_nil_r, zlen_app. change (zlen [y]) with 1. split; [lia|]. split; [intros; lia|]. split; [exact G3|lia].
      * unfold all. rewrite app_nil_r. now rewrite <- !app_assoc.
    + exists b0, [tl ++ [y]], []. split.
      * unfold good. split; [lia|]. split; [intros; lia|]. split; [apply Forall_app; split; [exact G3|constructor; [rewrite zlen_app; change (zlen [y]) with 1; lia|constructor]]|change (zlen (@nil Z)) with 0; lia].
      * unfold all. rewrite concat_app. cbn [concat]. rewrite !app_nil_r. now rewrite <- !app_assoc.
Qed.
Lemma extend y : forall b0 fs tl, good b0 fs tl -> exists b1 new t1, good b1 (fs ++ new) t1 /\ all b0 fs tl ++ y = all b1 (fs ++ new) t1.
Proof.
  induction y as [|c y IH]; intros b0 fs tl G.
  - exists b0, [], tl. rewrite !app_nil_r. auto.
  - destruct (extend1 b0 fs tl c G) as (b1 & n1 & t1 & G1 & E1). destruct (IH _ _ _ G1) as (b2 & n2 & t2 & G2 & E2).
    exists b2, (n1 ++ n2), t2. rewrite app_assoc. split; [exact G2|]. rewrite <- E2, <- E1, <- app_assoc. reflexivity.
Qed.
Lemma res_bind b0 fs tl x y r k : Res b0 fs tl x r ->
  (forall b1 f1 t1, good b1 f1 t1 -> all b1 f1 t1 = all b0 fs tl ++ x -> Res b1 f1 t1 y (k (St b1 f1 t1))) ->
  Res b0 fs tl (x ++ y) (do r <- r; let (b, s) := (r : bool * bsto) in if b then k s else Some (false, s)).
Proof.
  intros (b1 & n1 & t1 & s & G1 & E1 & -> & L1 & T1) HK. cbn [bind].
  destruct (fst (tried ok (zlen fs) (rows W (W + W * zlen fs) n1))) eqn:ET.
  - specialize (T1 eq_refl). subst s. destruct (HK _ _ _ G1 ltac:(now symmetry)) as (b2 & n2 & t2 & s & G2 & E2 & -> & L2 & T2).
    exists b2, (n1 ++ n2), t2, s. rewrite app_assoc. split; [exact G2|]. split; [rewrite app_assoc, E1; exact E2|].
    assert (TR : tried ok (zlen fs) (rows W (W + W * zlen fs) (n1 ++ n2)) =
      (fst (tried ok (zlen (fs ++ n1)) (rows W (W + W * zlen (fs ++ n1)) n2)), snd (tried ok (zlen fs) (rows W (W + W * zlen fs) n1)) ++ snd (tried ok (zlen (fs ++ n1)) (rows W (W + W * zlen (fs ++ n1)) n2)))).
    { rewrite rows_app, tried_app, rows_len, zlen_app. replace (W + W * zlen fs + W * zlen n1) with (W + W * (zlen fs + zlen n1)) by lia.
      destruct (tried ok (zlen fs) (rows W (W + W * zlen fs) n1)) as (t & z). cbn [fst] in ET. subst t. cbn [fst snd]. destruct (tried ok (zlen fs + zlen n1) _) as (t & z2). reflexivity. }
    rewrite TR. cbn [fst snd]. split; [reflexivity|]. split; [|exact T2]. rewrite L2, rows_app, done_app, (tried_true _ _ _ ET), <- app_assoc. reflexivity.
  - destruct (extend y _ _ _ G1) as (b2 & n2 & t2 & G2 & E2). exists b2, (n1 ++ n2), t2, s. rewrite app_assoc. split; [exact G2|]. split; [rewrite app_assoc, E1; exact E2|].
    assert (TR : tried ok (zlen fs) (rows W (W + W * zlen fs) (n1 ++ n2)) = (false, snd (tried ok (zlen fs) (rows W (W + W * zlen fs) n1)))).
    { rewrite rows_app, tried_app. destruct (tried ok (zlen fs) (rows W (W + W * zlen fs) n1)) as (t & z). cbn [fst] in ET. subst t. reflexivity. }
    rewrite TR. cbn [fst snd]. split; [reflexivity|]. split; [exact L1|discriminate].
Qed.

(** A piece that stays inside one block. *)
Lemma put_ok b0 fs tl x base : good b0 fs tl -> base = (H + zlen (all b0 fs tl)) / W * W -> 0 < H + zlen (all b0 fs tl) - base + zlen x <= W ->
  Res b0 fs tl x (bs_put W ok base (H + zlen (all b0 fs tl) - base) x (St b0 fs tl)).
Proof.
  intros G EB LX. pose proof (all_len _ _ _ G) as AL. destruct G as (G1 & G2 & G3 & G4). pose proof (zlen_nonneg b0). pose proof (zlen_nonneg tl). pose proof (zlen_nonneg fs). pose proof (zlen_nonneg x).
  destruct (Z_lt_ge_dec (zlen b0) (W - H)) as [L|L].
  - destruct (G2 L) as (-> & ->). change (zlen (@nil (list Z))) with 0 in AL. change (zlen (@nil Z)) with 0 in AL. rewrite AL in *.
    assert (Q : (H + (zlen b0 + W * 0 + 0)) / W = 0) by (apply Z.div_small; lia). rewrite Q in EB. subst base. rewrite Z.mul_0_l in *.
    exists (b0 ++ x), [], []. unfold bs_put. change (0 =? 0) with true. cbn [St bs_hdr wb_data wb_n].
    replace (fill H 0 ++ b0 ++ fill (W - H - zlen b0) 0) with ((fill H 0 ++ b0) ++ fill (W - H - zlen b0) 0) by (now rewrite <- app_assoc).
    rewrite splice_app_pre; [|rewrite zlen_app, zlen_fill by lia; lia|rewrite zlen_fill by lia; lia]. cbn [bind].
    rewrite drop_fill by lia. unfold bs_try_flush. cbn [bs_hdr wb_n bs_dat St]. rewrite u32_in by lia. replace (zlen b0 + zlen x =? W) with false by lia. cbn [negb].
    unfold datbuf. change (zlen (@nil Z) =? 0) with true. cbn iota. cbn [bs_dat]. change (wb_n (wb_zero W)) with 0. replace (0 =? W) with false by lia.
    eexists. split; [|split; [|split; [reflexivity|split]]].
    + unfold good. rewrite zlen_app. change (zlen (@nil Z)) with 0. split; [lia|]. split; [auto|]. split; [constructor|lia].
    + unfold all. cbn. now rewrite !app_nil_r.
    + reflexivity.
    + intros _. unfold St. cbn [app]. f_equal. rewrite zlen_app, <- !app_assoc. replace (W - H - zlen b0 - zlen x) with (W - H - (zlen b0 + zlen x)) by lia. reflexivity.
  - assert (E0 : zlen b0 = W - H) by lia. rewrite AL in *.
    assert (Q : (H + (zlen b0 + W * zlen fs + zlen tl)) / W = 1 + zlen fs).
    { symmetry. apply (Z.div_unique_pos _ _ _ (zlen tl)); [lia|]. lia. }
    rewrite Q in EB. assert (EB' : base = W + W * zlen fs) by lia. clear EB Q. subst base. replace (H + (zlen b0 + W * zlen fs + zlen tl) - (W + W * zlen fs)) with (zlen tl) in * by lia.
    unfold bs_put. replace (W + W * zlen fs =? 0) with false by lia. cbn [St bs_dat bs_hdr bs_log].
    assert (DB : wb_data (datbuf fs tl) = tl ++ fill (W - zlen tl) 0 /\ wb_n (datbuf fs tl) = zlen tl).
    { unfold datbuf. destruct (zlen tl =? 0) eqn:E; [|auto]. assert (tl = []) by (apply zlen_0_nil; lia). subst tl. cbn [app wb_data wb_n wb_zero]. change (zlen (@nil Z)) with 0. now rewrite Z.sub_0_r. }
    destruct DB as (-> & ->). rewrite splice_app_pre; [|reflexivity|rewrite zlen_fill by lia; lia]. cbn [bind]. rewrite drop_fill by lia. rewrite u32_in by lia.
    unfold bs_try_flush. cbn [bs_hdr bs_dat wb_n]. replace (zlen b0 =? W) with false by lia. cbn [negb bs_dat wb_n].
    destruct (zlen tl + zlen x =? W) eqn:EW.
    + exists b0, [tl ++ x], []. unfold bs_write_blk. cbn [bs_log bs_dat bs_hdr wb_off wb_data]. rewrite done_len, rows_len.
      replace (W - zlen tl - zlen x) with 0 by lia. change (fill 0 0) with (@nil Z). rewrite !app_nil_r.
      cbn [rows tried].
      destruct (ok (zlen fs)) eqn:EO; cbn [fst snd]; eexists; (split; [|split; [|split; [reflexivity|split]]]).
      * unfold good. split; [lia|]. split; [intros; lia|]. split; [apply Forall_app; split; [exact G3|constructor; [rewrite zlen_app; lia|constructor]]|change (zlen (@nil Z)) with 0; lia].
      * unfold all. rewrite concat_app. cbn [concat]. rewrite !app_nil_r. now rewrite <- !app_assoc.
      * reflexivity.
      * intros _. unfold St. rewrite rows_app, done_app. reflexivity.
      * unfold good. split; [lia|]. split; [intros; lia|]. split; [apply Forall_app; split; [exact G3|constructor; [rewrite zlen_app; lia|constructor]]|change (zlen (@nil Z)) with 0; lia].
      * unfold all. rewrite concat_app. cbn [concat]. rewrite !app_nil_r. now rewrite <- !app_assoc.
      * reflexivity.
      * discriminate.
    + exists b0, [], (tl ++ x). rewrite !app_nil_r. cbn [rows tried fst snd]. eexists. split; [|split; [|split; [reflexivity|split]]].
      * unfold good. rewrite zlen_app. split; [lia|]. split; [intros; lia|]. split; [exact G3|lia].
      * unfold all. now rewrite <- !app_assoc.
      * reflexivity.
      * intros _. unfold St. f_equal. unfold datbuf. rewrite zlen_app. replace (zlen tl + zlen x =? 0) with false by lia.
        replace (W - zlen tl - zlen x) with (W - (zlen tl + zlen x)) by lia. now rewrite <- app_assoc.
Qed.

Lemma res_nil b0 fs tl : good b0 fs tl -> Res b0 fs tl [] (Some (true, St b0 fs tl)).
Proof.
  intros G. exists b0, [], tl, (St b0 fs tl). split; [now rewrite app_nil_r|]. split; [now rewrite !app_nil_r|]. split; [reflexivity|].
  split; [cbn [rows tried snd]; now rewrite app_nil_r|]. intros _. now rewrite app_nil_r.
Qed.

(** The loop over whole blocks. *)
Lemma blocks_ok n : forall b0 fs tl d, good b0 fs tl -> (length d <= n)%nat -> (H + zlen (all b0 fs tl)) mod W = 0 -> H + zlen (all b0 fs tl) + zlen d <= size ->
  Res b0 fs tl d (bs_blocks W ok n (H + zlen (all b0 fs tl)) d (St b0 fs tl)).
Proof.
  induction n as [|n IH]; intros b0 fs tl d G L M B.
  - destruct d; [|cbn in L; lia]. now apply res_nil.
  - destruct d as [|x d0]; [now apply res_nil|].
    cbn [bs_blocks]. set (d := x :: d0) in *. assert (LD : 0 < zlen d) by (unfold d; rewrite zlen_cons; pose proof (zlen_nonneg d0); lia).
    set (p := H + zlen (all b0 fs tl)) in *. assert (EP : p = p / W * W) by (rewrite Z.mul_comm; pose proof (Z.div_mod p W); lia).
    pose proof (zlen_nonneg (all b0 fs tl)) as AN.
    assert (LT : zlen (take W d) = Z.min W (zlen d)) by (rewrite zlen_take; lia).
    pose proof (put_ok b0 fs tl (take W d) p G EP ltac:(fold p; lia)) as P. fold p in P. rewrite Z.sub_diag in P.
    rewrite <- (take_drop W d) at 1.
    apply (res_bind b0 fs tl (take W d) (drop W d) _ (fun s => bs_blocks W ok n (u32 (p + W)) (drop W d) s) P). intros b1 f1 t1 G1 E1.
    destruct (Z_le_gt_dec (zlen d) W) as [C|C].
    + rewrite drop_all by lia. destruct n; now apply res_nil.
    + assert (EA : H + zlen (all b1 f1 t1) = p + W) by (rewrite E1, zlen_app; fold p; lia).
      rewrite u32_in by lia. rewrite <- EA. apply IH; [exact G1| |rewrite EA; rewrite <- M; replace (p + W) with (p + 1 * W) by lia; apply Z.mod_add; lia|rewrite EA, zlen_drop; lia].
      pose proof (zlen_drop W d) as ZD. unfold zlen in *. lia.
Qed.
Lemma write_ok b0 fs tl d : good b0 fs tl -> H + zlen (all b0 fs tl) + zlen d <= size ->
  Res b0 fs tl d (bs_write W size ok (H + zlen (all b0 fs tl)) d (St b0 fs tl)).
Proof.
  intros G B. set (p := H + zlen (all b0 fs tl)) in *. pose proof (zlen_nonneg (all b0 fs tl)) as AN. pose proof (zlen_nonneg d) as DN.
  unfold bs_write. rewrite u32_in by lia. replace (size <? p + zlen d) with false by lia. rewrite HM. replace (size <? W) with false by lia. cbn [orb negb Z.eqb].
  pose proof (Z.div_mod p W ltac:(lia)) as DM. pose proof (Z.mod_pos_bound p W ltac:(lia)) as MB.
  destruct (p / W * W =? p) eqn:EB.
  - apply blocks_ok; [exact G|lia|fold p; lia|fold p; lia].
  - set (base := p / W * W) in *. set (n := Z.min (base + W - p) (zlen d)).
    assert (LT : zlen (take n d) = n) by (rewrite zlen_take; lia).
    pose proof (put_ok b0 fs tl (take n d) base G eq_refl ltac:(fold p; lia)) as P. fold p in P.
    rewrite <- (take_drop n d) at 1.
    pose proof (res_bind b0 fs tl (take n d) (drop n d) _ (fun s => bs_blocks W ok (length d) (p + n) (drop n d) s) P) as R.
    match goal with |- Res _ _ _ _ ?X => match type of R with _ -> Res _ _ _ _ ?Y => replace X with Y end end.
    2:{ destruct (bs_put W ok base (p - base) (take n d) (St b0 fs tl)) as [[[|] s]|]; reflexivity. }
    apply R. intros b1 f1 t1 G1 E1. assert (EA : H + zlen (all b1 f1 t1) = p + n) by (rewrite E1, zlen_app; fold p; lia).
    destruct (Z_le_gt_dec (zlen d) n) as [C|C].
    + rewrite drop_all by lia. destruct d; now apply res_nil.
    + rewrite <- EA. apply blocks_ok; [exact G1| | |rewrite EA, zlen_drop; lia].
      * pose proof (zlen_drop n d) as ZD. unfold zlen in *. lia.
      * rewrite EA. replace (p + n) with (0 + (p / W + 1) * W) by (subst n base; lia). rewrite Z.mod_add by lia. apply Z.mod_0_l. lia.
Qed.
Lemma run_ok ps : forall b0 fs tl, good b0 fs tl -> H + zlen (all b0 fs tl) + zlen (concat ps) <= size ->
  Res b0 fs tl (concat ps) (bs_run W size ok (in_sequence (H + zlen (all b0 fs tl)) ps) (St b0 fs tl)).
Proof.
  induction ps as [|d ps IH]; intros b0 fs tl G B; cbn [in_sequence concat bs_run] in *.
  - now apply res_nil.
  - rewrite zlen_app in B. pose proof (zlen_nonneg (concat ps)).
    apply (res_bind b0 fs tl d (concat ps) _ (fun s => bs_run W size ok (in_sequence (H + zlen (all b0 fs tl) + zlen d) ps) s)); [apply write_ok; [exact G|lia]|].
    intros b1 f1 t1 G1 E1. replace (H + zlen (all b0 fs tl) + zlen d) with (H + zlen (all b1 f1 t1)) by (rewrite E1, zlen_app; lia).
    apply IH; [exact G1|rewrite E1, zlen_app; lia].
Qed.
Lemma run_app a : forall b s, bs_run W size ok (a ++ b) s = do r <- bs_run W size ok a s; let (t, s) := (r : bool * bsto) in if t then bs_run W size ok b s else Some (false, s).
Proof.
  induction a as [|(o & d) a IH]; intros b s; cbn [app bs_run bind]; [reflexivity|]. destruct (bs_write W size ok o d s) as [[[|] s1]|]; cbn [bind]; [apply IH|reflexivity|reflexivity].
Qed.

Lemma blocks_step n a d s : 0 < zlen d -> bs_blocks W ok (S n) a d s =
  do r <- bs_put W ok a 0 (take W d) s; let (r, s) := (r : bool * bsto) in if r then bs_blocks W ok n (u32 (a + W)) (drop W d) s else Some (false, s).
Proof. destruct d; [change (zlen (@nil Z)) with 0; lia|reflexivity]. Qed.

(** The header: everything still held is written, the header's block last. *)
Lemma header_ok h b0 fs tl : zlen h = H -> good b0 fs tl -> zlen b0 = W - H ->
  let last := (if zlen tl =? 0 then [] else [(W + W * zlen fs, tl ++ fill (W - zlen tl) 0)]) ++ [(0, h ++ b0)] in
  exists s, bs_run W size ok [(0, h)] (St b0 fs tl) = Some (fst (tried ok (zlen fs) last), s) /\
    bs_log s = done (rows W W fs) ++ snd (tried ok (zlen fs) last) /\
    (fst (tried ok (zlen fs) last) = true -> bs_hdr s = wb_zero W /\ bs_dat s = wb_zero W).
Proof.
  intros LH (G1 & _ & G3 & G4) L0 last. pose proof (zlen_nonneg tl). pose proof (zlen_nonneg fs).
  cbn [bs_run]. unfold bs_write. rewrite u32_in by lia. replace (size <? 0 + zlen h) with false by lia. rewrite HM. replace (size <? W) with false by lia. cbn [orb negb Z.eqb].
  rewrite Z.div_0_l by lia. rewrite Z.mul_0_l. change (0 =? 0) with true. cbn iota.
  assert (EN : exists n, length h = S n) by (destruct h; [change (zlen (@nil Z)) with 0 in LH; lia|eexists; reflexivity]). destruct EN as (n & EN). rewrite EN.
  rewrite blocks_step by lia.
  rewrite (take_all W h), (drop_all W h) by lia.
  unfold bs_put. change (0 =? 0) with true. cbn [St bs_hdr wb_data wb_n].
  rewrite splice_some by (rewrite ?zlen_app, ?zlen_fill by lia; lia). rewrite take_0. cbn [app bind]. rewrite (drop_app_exact (0 + zlen h)) by (rewrite zlen_fill by lia; lia).
  replace (W - H - zlen b0) with 0 by lia. change (fill 0 0) with (@nil Z). rewrite app_nil_r. rewrite u32_in by lia. replace (zlen b0 + zlen h) with W by lia.
  unfold bs_try_flush. cbn [bs_hdr wb_n bs_dat St]. rewrite Z.eqb_refl. subst last.
  assert (ZW : (0 =? W) = false) by lia.
  unfold datbuf. destruct (zlen tl =? 0) eqn:ET.
  - change (wb_n (wb_zero W)) with 0. change (0 =? 0) with true. cbn [negb]. unfold bs_write_blk. cbn [bs_log bs_hdr bs_dat wb_off wb_data St app tried]. rewrite done_len, rows_len.
    destruct (ok (zlen fs)); cbn [negb bs_dat fst snd]; [|eexists; split; [reflexivity|split; [reflexivity|discriminate]]].
    change (wb_n (wb_zero W)) with 0. rewrite ZW. eexists. split; [destruct n; reflexivity|]. split; [reflexivity|auto].
  - cbn [wb_n]. rewrite ET. cbn [negb]. unfold bs_write_blk. cbn [bs_log bs_hdr bs_dat wb_off wb_data St app tried]. rewrite done_len, rows_len.
    destruct (ok (zlen fs)); cbn [negb bs_dat bs_log bs_hdr wb_off wb_data fst snd]; [|eexists; split; [reflexivity|split; [reflexivity|discriminate]]].
    rewrite zlen_app, done_len, rows_len. change (zlen [_]) with 1.
    destruct (ok (zlen fs + 1)); cbn [negb bs_dat fst snd]; [|eexists; split; [reflexivity|split; [cbn [bs_log]; now rewrite <- app_assoc|discriminate]]].
    change (wb_n (wb_zero W)) with 0. rewrite ZW. eexists. split; [destruct n; reflexivity|]. split; [cbn [bs_log]; now rewrite <- app_assoc|auto].
Qed.

(** ** A whole coredump *)
Theorem dump_blocks h ps : zlen h = H -> W <= H + zlen (concat ps) <= size ->
  exists s, bs_run W size ok (dump_writes h ps) (bs_init W) = Some (fst (tried ok 0 (blocks_to_write W (h ++ concat ps))), s) /\
    bs_log s = snd (tried ok 0 (blocks_to_write W (h ++ concat ps))) /\
    (fst (tried ok 0 (blocks_to_write W (h ++ concat ps))) = true -> bs_hdr s = wb_zero W /\ bs_dat s = wb_zero W).
Proof.
  intros LH LS. unfold dump_writes. rewrite run_app, St_init, LH.
  assert (G0 : good [] [] []) by (unfold good; change (zlen (@nil Z)) with 0; split; [lia|]; split; [auto|]; split; [constructor|lia]).
  pose proof (run_ok ps [] [] [] G0) as R. change (zlen (all [] [] [])) with 0 in R. rewrite Z.add_0_r in R.
  destruct (R ltac:(lia)) as (b1 & fs & tl & s & G & E & -> & L & T). clear R. cbn [app] in *. change (all [] [] []) with (@nil Z) in E. cbn [app] in E. change (zlen (@nil (list Z))) with 0 in *. rewrite Z.mul_0_r, Z.add_0_r in *. cbn [rows done map app] in L.
  assert (L1 : zlen b1 = W - H). { destruct G as (X1 & X2 & _). destruct (Z_lt_ge_dec (zlen b1) (W - H)) as [X|X]; [|lia]. destruct (X2 X) as (-> & ->). unfold all in E. rewrite E in LS. cbn [concat app] in LS. rewrite app_nil_r in LS. lia. }
  assert (EB : blocks_to_write W (h ++ concat ps) = rows W W fs ++ (if zlen tl =? 0 then [] else [(W + W * zlen fs, tl ++ fill (W - zlen tl) 0)]) ++ [(0, h ++ b1)]).
  { unfold blocks_to_write. rewrite E. unfold all. rewrite app_assoc. rewrite drop_app_exact, take_app_exact by (rewrite zlen_app; lia).
    destruct G as (_ & _ & G3 & G4). rewrite cut_up_rows by (try assumption; pose proof (zlen_nonneg tl); lia). now rewrite <- app_assoc. }
  rewrite EB, tried_app, rows_len, Z.add_0_l. destruct (tried ok 0 (rows W W fs)) as (t & x) eqn:ET. cbn [fst snd] in *. cbn [bind].
  destruct t; [|cbn [fst snd]; exists s; split; [reflexivity|]; split; [exact L|discriminate]].
  rewrite (T eq_refl). destruct (header_ok h b1 fs tl LH G L1) as (s2 & -> & L2 & T2).
  pose proof (tried_true ok (rows W W fs) 0) as TT. rewrite ET in TT. specialize (TT eq_refl). cbn [snd] in TT. subst x.
  set (lst := (if zlen tl =? 0 then [] else [(W + W * zlen fs, tl ++ fill (W - zlen tl) 0)]) ++ [(0, h ++ b1)]) in *.
  exists s2. destruct (tried ok (zlen fs) lst) as (t2 & y). cbn [fst snd] in *. split; [reflexivity|]. split; [now rewrite TT|exact T2].
Qed.
End P.

(** ** The storage afterwards *)
Lemma split_rows W : 0 < W -> forall n (r : list Z), (length r <= n)%nat -> exists (fs : list (list Z)) tl, r = concat fs ++ tl /\ Forall (fun f => zlen f = W) fs /\ zlen tl < W.
Proof.
  intros HW. induction n as [|n IH]; intros r L.
  - destruct r; [|cbn in L; lia]. exists [], []. split; [reflexivity|]. split; [constructor|]. change (zlen (@nil Z)) with 0. lia.
  - destruct (Z_lt_ge_dec (zlen r) W) as [X|X]; [exists [], r; split; [reflexivity|]; split; [constructor|exact X]|].
    destruct (IH (drop W r)) as (fs & tl & E & F & T).
    { pose proof (zlen_drop W r) as ZD. unfold zlen in *. lia. }
    exists (take W r :: fs), tl. cbn [concat]. split; [rewrite <- app_assoc, <- E; symmetry; apply take_drop|]. split; [constructor; [rewrite zlen_take; lia|exact F]|exact T].
Qed.
Definition as_writes (l : list bwrite) : list cwrite := map (fun b => mk_cwrite (bw_off b) (bw_data b) true (zlen (bw_data b))) l.
Lemma as_app a b : as_writes (a ++ b) = as_writes a ++ as_writes b.
Proof. apply map_app. Qed.
Lemma as_rows W fs : Forall (fun f => zlen f = W) fs -> forall off, as_writes (done (rows W off fs)) = evs off fs.
Proof. induction 1 as [|f fs E F IH]; intros off; [reflexivity|]. cbn [rows done map as_writes evs fst snd bw_off bw_data]. rewrite <- E at 2. f_equal. rewrite E. apply IH. Qed.
Lemma mod_opp a q t W : 0 < W -> a = q * W + t -> 0 <= t < W -> (- a) mod W = if t =? 0 then 0 else W - t.
Proof.
  intros HW -> T. destruct (t =? 0) eqn:E.
  - replace (- (q * W + t)) with (0 + (- q) * W) by lia. rewrite Z.mod_add by lia. apply Z.mod_0_l. lia.
  - replace (- (q * W + t)) with ((W - t) + (- q - 1) * W) by lia. rewrite Z.mod_add by lia. apply Z.mod_small. lia.
Qed.
Lemma size_fits W size n t : 0 < W -> size mod W = 0 -> n * W + t <= size -> 0 < t -> (n + 1) * W <= size.
Proof. intros HW M L T. pose proof (Z.div_mod size W ltac:(lia)) as D. assert (n < size / W) by nia. nia. Qed.
Lemma blocks_stored W e size img : 0 < W -> size mod W = 0 -> W <= zlen img <= size ->
  in_storage (fill size e) (done (blocks_to_write W img)) = Some (stored W e size img).
Proof.
  intros HW HM HL. unfold in_storage. fold (as_writes (done (blocks_to_write W img))).
  destruct (split_rows W HW _ (drop W img) ltac:(reflexivity)) as (fs & tl & E & F & T).
  pose proof (zlen_nonneg tl) as TN. pose proof (zlen_nonneg fs) as FN. pose proof (concat_len W fs F) as CL.
  assert (LI : zlen img = W + W * zlen fs + zlen tl). { pose proof (zlen_drop W img) as ZD. rewrite E, zlen_app, CL in ZD. lia. }
  unfold blocks_to_write. rewrite E, cut_up_rows by (auto; lia). rewrite !done_app, !as_app, as_rows by exact F.
  unfold stored. rewrite (mod_opp (zlen img) (1 + zlen fs) (zlen tl) W HW) by lia.
  set (fs2 := fs ++ if zlen tl =? 0 then [] else [tl ++ fill (W - zlen tl) 0]).
  assert (F2 : Forall (fun f => zlen f = W) fs2).
  { unfold fs2. apply Forall_app. split; [exact F|]. destruct (zlen tl =? 0); constructor; [rewrite zlen_app, zlen_fill by lia; lia|constructor]. }
  assert (C2 : concat fs2 = drop W img ++ fill (if zlen tl =? 0 then 0 else W - zlen tl) 0).
  { unfold fs2. rewrite concat_app, E, <- app_assoc. f_equal. destruct (zlen tl =? 0) eqn:X; cbn [concat]; [|apply app_nil_r]. now rewrite (zlen_0_nil tl) by lia. }
  set (pd := if zlen tl =? 0 then 0 else W - zlen tl) in *.
  assert (PB : 0 <= pd /\ zlen img + pd <= size).
  { unfold pd. destruct (zlen tl =? 0) eqn:X; [lia|]. pose proof (size_fits W size (1 + zlen fs) (zlen tl) HW HM ltac:(lia) ltac:(lia)). lia. }
  match goal with |- cd_apply _ ((?a ++ ?b) ++ ?c) = _ => replace (a ++ b) with (evs W fs2) end.
  2:{ unfold fs2. rewrite evs_app, CL. f_equal. destruct (zlen tl =? 0); [reflexivity|]. cbn [done map as_writes evs fst snd bw_off bw_data]. reflexivity. }
  rewrite apply_app. replace (fill size e) with (fill W e ++ fill (size - W) e) by (rewrite <- fill_split by lia; f_equal; lia).
  assert (ZW : zlen (fill W e) = W) by (apply zlen_fill; lia). assert (ZD : zlen (drop W img) = zlen img - W) by (rewrite zlen_drop; lia).
  replace (evs W fs2) with (evs (zlen (fill W e)) fs2) by (now rewrite ZW). rewrite apply_evs by (rewrite C2, zlen_app, !zlen_fill by lia; lia). cbn [bind].
  assert (ZT : zlen (take W img) = W) by (rewrite zlen_take; lia).
  cbn [done map as_writes fst snd bw_off bw_data cd_apply]. unfold cd_apply1. cbn [cw_off cw_data cw_done]. rewrite (zlen_app (fill W e)).
  match goal with |- context [zlen (fill W e) + zlen ?x] => pose proof (zlen_nonneg x) as XN end.
  replace (_ && _) with true by lia. rewrite (take_all _ (take W img)) by lia.
  rewrite splice_some by (rewrite ?(zlen_app (fill W e)); lia). cbn [bind]. rewrite take_0, ZT. cbn [app Z.add]. rewrite (drop_app_exact _ (fill W e)) by lia.
  f_equal. rewrite C2, <- app_assoc, app_assoc, take_drop. do 2 f_equal. rewrite drop_fill by (rewrite zlen_app, zlen_fill by lia; lia). rewrite zlen_app, zlen_fill by lia. f_equal. lia.
Qed.

(** ** A saved coredump *)
Lemma evs_sequence ds : forall off, map (fun w => (cw_off w, cw_data w)) (evs off ds) = in_sequence off ds.
Proof. induction ds as [|d ds IH]; intros off; [reflexivity|]. cbn [evs map in_sequence cw_off cw_data]. now rewrite IH. Qed.
Lemma tried_all l : forall n, tried (fun _ => true) n l = (true, done l).
Proof. induction l as [|(o & d) l IH]; intros n; [reflexivity|]. cbn [tried]. now rewrite IH. Qed.
Theorem saved_in_blocks W pl env info st st' log n : dump_ok env info -> zlen st < 4294967296 -> 12 <= W -> zlen st mod W = 0 ->
  cd_save pl env info st = Some (true, st', log) -> Forall (fun w => cw_ok w = true) log -> cd_has_valid true st' = Some n -> W <= n ->
  exists s st2, bs_run W (zlen st) (fun _ => true) (map (fun w => (cw_off w, cw_data w)) log) (bs_init W) = Some (true, s) /\
    in_storage (fill (zlen st) (pl_erased pl)) (bs_log s) = Some st2 /\ zlen st2 = zlen st /\
    cd_has_valid true st2 = Some n /\ take n st2 = take n st'.
Proof.
  intros HO HS HW HM ES OK HV HN. destruct (save_any pl env info st HO HS) as [Q|(_ & _ & _ & ok & s1 & new & tail & E & L & F & AP & X & K)]; [unfold quiet in Q; congruence|].
  rewrite ES in E. injection E as E1 E2 E3. subst ok s1 log. destruct (K OK) as (tot & c & EN & EL).
  destruct (Z_lt_ge_dec (zlen st) (28 + blocks_size (meta_blocks env info))) as [Q|Q].
  { pose proof (sections_none_small env info (zlen st) HO HS Q) as SM. rewrite EN in SM. discriminate. }
  destruct (sections_none env info (zlen st) HO HS ltac:(lia)) as (ds & t & Lb & E & EC & OKL & LE & BG & FF & FT). rewrite EN in E. injection E as E1 E2. subst c. cbn [cx_log] in EL.
  rewrite <- EL in *. rewrite apply_image in AP by exact LE. assert (AP2 : st' = image ds t ++ fill (zlen st - (off_of ds + 16)) (pl_erased pl)) by (symmetry; congruence). clear AP. subst st'.
  rewrite valid_image in HV by lia. injection HV as HV. subst n. pose proof (image_len ds t) as IL.
  assert (OF : 12 <= off_of ds) by (unfold off_of; pose proof (zlen_nonneg (concat ds)); lia).
  assert (EW : map (fun w => (cw_off w, cw_data w)) (evs 12 (ds ++ [cd_footer (if t then 1 else 0)]) ++ [mk_cwrite 0 (cd_header (off_of ds + 16)) true 12]) =
               dump_writes (cd_header (off_of ds + 16)) (ds ++ [cd_footer (if t then 1 else 0)])).
  { rewrite map_app, evs_sequence. reflexivity. }
  rewrite EW. assert (EI : image ds t = cd_header (off_of ds + 16) ++ concat (ds ++ [cd_footer (if t then 1 else 0)])) by (unfold image; rewrite concat_app; cbn [concat]; now rewrite app_nil_r).
  assert (LI : 12 + zlen (concat (ds ++ [cd_footer (if t then 1 else 0)])) = off_of ds + 16) by (rewrite <- IL, EI, zlen_app, header_len; reflexivity).
  destruct (dump_blocks W (zlen st) (fun _ => true) 12 ltac:(lia) HW HS HM ltac:(lia) (cd_header (off_of ds + 16)) (ds ++ [cd_footer (if t then 1 else 0)])
              (header_len _) ltac:(lia)) as (s & R & LG & _). rewrite <- EI, tried_all in R, LG. cbn [fst snd] in R, LG.
  exists s, (stored W (pl_erased pl) (zlen st) (image ds t)). split; [exact R|]. split; [rewrite LG; apply blocks_stored; lia|].
  pose proof (Z.mod_pos_bound (- zlen (image ds t)) W ltac:(lia)) as MB.
  assert (PB : zlen (image ds t) + (- zlen (image ds t)) mod W <= zlen st).
  { rewrite IL in *. pose proof (Z.div_mod (zlen st) W ltac:(lia)) as D1. pose proof (Z.div_mod (- (off_of ds + 16)) W ltac:(lia)) as D2.
    set (q := - (off_of ds + 16) / W) in *. set (p := zlen st / W) in *. assert (p + q >= 0) by nia. nia. }
  split; [unfold stored; rewrite !zlen_app, !zlen_fill by lia; lia|]. split; [unfold stored; apply valid_image; lia|].
  unfold stored. rewrite !take_app_exact by (now rewrite IL). reflexivity.
Qed.

(** ** Losing power *)
Lemma cut_offs W : 0 < W -> forall n off l, Forall (fun x => off <= fst x) (cut n W off l).
Proof.
  intros HW. induction n as [|n IH]; intros off l; [constructor|]. destruct l as [|x l]; [constructor|]. cbn [cut]. constructor; [cbn; lia|].
  specialize (IH (off + W) (drop W (x :: l))). revert IH. apply Forall_impl. intros (a & b) Hx. cbn [fst] in *. lia.
Qed.
Lemma apply_keeps W l : forall st st', Forall (fun b => W <= bw_off b) l -> 0 <= W -> in_storage st l = Some st' ->
  forall i, 0 <= i < W -> get st' i = get st i.
Proof.
  induction l as [|b l IH]; intros st st' F HW H i Hi; unfold in_storage in H; cbn [map cd_apply] in H; [injection H as <-; reflexivity|].
  binv H. unfold cd_apply1 in E. cbn [cw_off cw_data cw_done] in E. rewrite take_all in E by lia.
  match type of E with (if ?c then _ else _) = _ => destruct c eqn:EC; [|discriminate] end. rewrite andb_true_iff in EC.
  pose proof (Forall_inv F) as F1. cbn beta in F1. rewrite (IH _ _ (Forall_inv_tail F) HW H i Hi). rewrite splice_some in E by lia. injection E as <-.
  pose proof (zlen_nonneg (bw_data b)).   rewrite get_app1 by (rewrite zlen_take; lia). rewrite <- (take_drop (bw_off b) st) at 2. now rewrite (get_app1 (take (bw_off b) st)) by (rewrite zlen_take; lia).
Qed.
Theorem torn_block W e size img l off d r before c : 12 <= W <= size ->
  blocks_to_write W img = l ++ (off, d) :: r -> r <> [] ->
  in_storage (fill size e) (done l) = Some before -> mixed before (overwritten before (mk_cwrite off d true (zlen d))) c ->
  cd_has_valid true c = None.
Proof.
  intros HW EB HR HB HM. assert (F : Forall (fun x => W <= fst x) (l ++ [(off, d)])).
  { unfold blocks_to_write in EB. destruct (exists_last HR) as (r0 & y & ->). rewrite app_comm_cons, app_assoc in EB. apply app_inj_tail in EB. destruct EB as (EB & _).
    pose proof (cut_offs W ltac:(lia) (length (drop W img)) W (drop W img)) as F. unfold cut_up in EB. rewrite EB in F.
    change ((off, d) :: r0) with ([(off, d)] ++ r0) in F. rewrite app_assoc in F. now apply Forall_app in F. }
  apply Forall_app in F. destruct F as (F1 & F2). apply Forall_inv in F2. cbn [fst] in F2.
  assert (FD : Forall (fun b => W <= bw_off b) (done l)) by (unfold done; apply Forall_map; exact F1).
  assert (G : forall i x, 0 <= i < 12 -> get before i = Some x -> x = e).
  { intros i x Hi Hx. rewrite (apply_keeps W _ _ _ FD ltac:(lia) HB) in Hx by lia. eapply get_fill. exact Hx. }
  apply (erased_invalid e before (overwritten before (mk_cwrite off d true (zlen d)))); [exact G| |exact HM].
  pose proof (zlen_nonneg d). intros i x Hi Hx. apply (G i x Hi). unfold overwritten in Hx. cbn [cw_off cw_data] in Hx. destruct HM as (L & _ & _).
  destruct (Z_lt_ge_dec i (zlen before)) as [Y|Y].
  - rewrite get_app1 in Hx by (rewrite zlen_take; lia). rewrite <- (take_drop off before). rewrite get_app1 by (rewrite zlen_take; lia). exact Hx.
  - apply get_range in Hx. unfold overwritten in L. cbn [cw_off cw_data] in L. lia.
Qed.
