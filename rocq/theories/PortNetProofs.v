(** Proofs about the lwIP and Mbed TLS metrics. *)
From Verif Require Import Base PortMetrics PortMetricsProofs PortNet PortNetSpec.

(** ** lwIP *)
Lemma lw_collect_ok : forall prev c, Forall2 (fun p x => 0 <= x - p < 2^32) prev c ->
  lw_collect (map u32 prev) (map u32 c) = (map (fun x => snd x - fst x) (combine prev c), map u32 c).
Proof.
  intros prev c H. induction H as [|p x prev c H F IH]; [reflexivity|].
  cbn [map lw_collect combine]. unfold lw_count. rewrite IH. cbn [fst snd].
  assert (D : u32 (u32 x - u32 p) = x - p) by (unfold u32; rewrite <- Zminus_mod; apply Z.mod_small; exact H).
  rewrite D. do 2 f_equal. unfold u32. rewrite Zplus_mod_idemp_l. f_equal. lia.
Qed.
Lemma lw_run_ok : forall l prev, counting (2^32) prev l -> lw_run (map u32 prev) (map (map u32) l) = counts_expected prev l.
Proof.
  induction l as [|c l IH]; intros prev H; [reflexivity|]. destruct H as (H & S).
  cbn [map lw_run counts_expected]. rewrite (lw_collect_ok prev c H). rewrite (IH c S). reflexivity.
Qed.
Lemma lw_ok k l : counting (2^32) (repeat 0 k) l -> lw_run (repeat 0 k) (map (map u32) l) = counts_expected (repeat 0 k) l.
Proof.
  intros H. rewrite <- (lw_run_ok l (repeat 0 k) H). f_equal. clear. induction k; [reflexivity|]. cbn [repeat map]. now rewrite <- IHk.
Qed.
(** What is reported adds up to what was counted. *)
Lemma counts_sum i : forall l prev, counting (2^32) prev l -> forall last, last = fold_left (fun _ c => c) l prev ->
  fold_right (fun r n => nth i r 0 + n) 0 (counts_expected prev l) = nth i last 0 - nth i prev 0.
Proof.
  induction l as [|c l IH]; intros prev H last L; cbn [fold_left counts_expected fold_right] in *.
  - subst last. lia.
  - destruct H as (H & S). rewrite (IH c S last L).
    enough (nth i (map (fun x => snd x - fst x) (combine prev c)) 0 = nth i c 0 - nth i prev 0) by lia.
    clear -H. revert i. induction H as [|p x prev c H F IH]; intros [|i]; cbn [combine map nth fst snd]; auto.
Qed.

(** ** Mbed TLS *)
Definition real_of (ov : Z) (b : Z * Z) : Z * Z := (fst b - ov, snd b).

Record mb_inv (ov lim : Z) (h : held) (m : Z) (s : mb_state) : Prop := {
  mi_used : mb_used s = held_bytes h;
  mi_max : mb_max s = m;
  mi_le : held_bytes h <= m < lim;
  mi_meta : mb_meta s = map (real_of ov) h;
  mi_ok : Forall (fun b => ov < fst b < 2^32 /\ 0 <= snd b) h;
  mi_nodup : NoDup (map fst h)
}.

Lemma held_bytes_pos h : Forall (fun b => 0 <= snd b) h -> 0 <= held_bytes h.
Proof. induction 1; cbn [held_bytes fold_right]; [lia|]. unfold held_bytes in IHForall. lia. Qed.

Lemma held_in p (h : held) : In p (map fst h) -> exists v, In (p, v) h.
Proof. intros H. apply in_map_iff in H. destruct H as ([q v] & E & I). cbn in E. subst q. now exists v. Qed.

Lemma meta_found ov p v : forall h : held, NoDup (map fst h) -> In (p, v) h -> meta_at (p - ov) (map (real_of ov) h) = Some v.
Proof.
  induction h as [|[q w] h IH]; intros N I; [destruct I|]. cbn [map real_of fst snd meta_at] in *.
  inversion N as [|x y N1 N2]; subst. destruct I as [I|I].
  - injection I as -> ->. now rewrite Z.eqb_refl.
  - destruct (q - ov =? p - ov) eqn:E; [|auto]. apply Z.eqb_eq in E. assert (q = p) by lia. subst q.
    exfalso. apply N1. exact (in_map fst _ _ I).
Qed.
Lemma meta_dropped ov p : forall h : held, meta_drop (p - ov) (map (real_of ov) h) = map (real_of ov) (give_back p h).
Proof.
  induction h as [|[q w] h IH]; [reflexivity|]. cbn [map real_of fst snd meta_drop give_back].
  replace (q - ov =? p - ov) with (q =? p) by (destruct (q =? p) eqn:E; symmetry; [apply Z.eqb_eq in E; apply Z.eqb_eq; lia|apply Z.eqb_neq in E; apply Z.eqb_neq; lia]).
  destruct (q =? p); [reflexivity|]. cbn [map real_of fst snd]. now rewrite IH.
Qed.
Lemma give_back_bytes p v : forall h : held, NoDup (map fst h) -> In (p, v) h -> held_bytes (give_back p h) = held_bytes h - v.
Proof.
  induction h as [|[q w] h IH]; intros N I; [destruct I|]. cbn [map fst] in N.
  inversion N as [|x y N1 N2]; subst. cbn [give_back fst]. destruct I as [I|I].
  - injection I as -> ->. rewrite Z.eqb_refl. cbn [held_bytes fold_right snd]. unfold held_bytes. lia.
  - destruct (q =? p) eqn:E.
    + apply Z.eqb_eq in E. subst q. exfalso. apply N1. exact (in_map fst _ _ I).
    + cbn [held_bytes fold_right snd]. specialize (IH N2 I). unfold held_bytes in *. lia.
Qed.
Lemma give_back_incl p (h : held) b : In b (give_back p h) -> In b h.
Proof.
  induction h as [|q h IH]; cbn [give_back]; [auto|]. destruct (fst q =? p); intros H; [now right|].
  destruct H; [now left|right; auto].
Qed.
Lemma give_back_nodup p (h : held) : NoDup (map fst h) -> NoDup (map fst (give_back p h)).
Proof.
  induction h as [|q h IH]; cbn [give_back map]; intros N; [constructor|]. inversion N as [|x y N1 N2]; subst.
  destruct (fst q =? p); [exact N2|]. cbn [map]. constructor; [|auto].
  intros I. apply N1. apply in_map_iff in I. destruct I as (b & E & I). rewrite <- E. apply in_map. now apply (give_back_incl p).
Qed.
Lemma give_back_zero (h : held) : Forall (fun b => fst b <> 0) h -> give_back 0 h = h.
Proof.
  induction 1 as [|b h H F IH]; [reflexivity|]. cbn [give_back].
  replace (fst b =? 0) with false by (symmetry; now apply Z.eqb_neq). now rewrite IH.
Qed.

Lemma mb_step_ok ov lim h m s o l : 0 < ov -> lim <= 2^31 -> mb_inv ov lim h m s -> mb_legal ov lim h (o :: l) ->
  exists s', mb_step ov s o = Some (outs_expected ov o, s') /\
    mb_inv ov lim (after_op ov h o) (Z.max (held_bytes (after_op ov h o)) m) s'.
Proof.
  intros Ho Hl [U M L Q K N] (H & B & _).
  assert (P : 0 <= held_bytes h).
  { apply held_bytes_pos. eapply Forall_impl; [|exact K]. cbn. lia. }
  destruct o as [n size real|p]; cbn [mb_step outs_expected after_op] in *.
  - destruct H as (Hn & Hs & Hb & H). assert (0 <= n * size) by nia.
    rewrite (u32_small (n * size)) by lia. rewrite (u32_small (n * size + ov)) by lia.
    destruct (real =? 0) eqn:E.
    + eexists. split; [reflexivity|]. rewrite Z.max_r by lia. constructor; assumption.
    + apply Z.eqb_neq in E. destruct H as [H|(H1 & H2 & H3 & H4)]; [contradiction|].
      rewrite (u32_small (real + ov)) by lia. eexists. split; [reflexivity|].
      cbn [held_bytes fold_right snd] in B. fold (held_bytes h) in B.
      rewrite M, U. rewrite (s32_small m) by lia. rewrite s32_small by lia.
      constructor; cbn [mb_used mb_max mb_meta held_bytes fold_right snd]; fold (held_bytes h).
      * lia.
      * destruct (m <? held_bytes h + n * size) eqn:EM; [rewrite u32_small; lia|lia].
      * lia.
      * rewrite Q. cbn [map real_of fst snd]. unfold real_of at 2. cbn [fst snd]. replace (real + ov - ov) with real by lia. reflexivity.
      * constructor; [cbn; lia|exact K].
      * cbn [map fst]. constructor; [|exact N]. intros I. apply held_in in I. destruct I as (v & I).
        rewrite Forall_forall in H4. exact (H4 _ I eq_refl).
  - destruct (p =? 0) eqn:E.
    + apply Z.eqb_eq in E. subst p. eexists. split; [reflexivity|].
      rewrite give_back_zero by (eapply Forall_impl; [|exact K]; cbn; lia).
      rewrite Z.max_r by lia. constructor; assumption.
    + apply Z.eqb_neq in E. destruct H as [H|H]; [contradiction|].
      apply held_in in H. destruct H as (v & I).
      assert (KV : ov < p < 2^32 /\ 0 <= v) by (rewrite Forall_forall in K; exact (K _ I)).
      rewrite (u32_small (p - ov)) by lia.
      rewrite Q, (meta_found ov p v h N I). cbn [bind]. eexists. split; [reflexivity|].
      pose proof (give_back_bytes p v h N I) as GB.
      assert (P2 : 0 <= held_bytes (give_back p h)).
      { apply held_bytes_pos. rewrite Forall_forall in *. intros b Ib. apply give_back_incl in Ib. specialize (K b Ib). lia. }
      rewrite Z.max_r by lia.
      constructor; cbn [mb_used mb_max mb_meta].
      * rewrite U, s32_small by lia. lia.
      * exact M.
      * lia.
      * apply meta_dropped.
      * rewrite Forall_forall in *. intros b Ib. apply give_back_incl in Ib. exact (K b Ib).
      * now apply give_back_nodup.
Qed.

Lemma mb_run_ok ov lim : 0 < ov -> lim <= 2^31 -> forall l h m s, mb_inv ov lim h m s -> mb_legal ov lim h l ->
  exists s', mb_run ov s l = Some (map (outs_expected ov) l, s') /\
    mb_inv ov lim (fold_left (after_op ov) l h) (Z.max m (most (histories ov h l))) s'.
Proof.
  intros Ho Hl. induction l as [|o l IH]; intros h m s I L.
  - exists s. split; [reflexivity|]. cbn [fold_left histories most fold_right].
    assert (0 <= held_bytes h) by (destruct I; apply held_bytes_pos; eapply Forall_impl; [|eassumption]; cbn; lia).
    rewrite Z.max_l by (destruct I; lia). exact I.
  - destruct (mb_step_ok ov lim h m s o l Ho Hl I L) as (s1 & E1 & I1).
    destruct L as (_ & _ & L). destruct (IH _ _ s1 I1 L) as (s2 & E2 & I2).
    exists s2. cbn [mb_run map]. rewrite E1. cbn [bind snd fst]. rewrite E2. cbn [bind snd fst].
    split; [reflexivity|]. cbn [fold_left histories most fold_right].
    fold (most (histories ov (after_op ov h o) l)).
    replace (Z.max m (Z.max (held_bytes (after_op ov h o)) (most (histories ov (after_op ov h o) l))))
      with (Z.max (Z.max (held_bytes (after_op ov h o)) m) (most (histories ov (after_op ov h o) l))) by lia.
    exact I2.
Qed.

Lemma mb_ok ov l : 0 < ov -> mb_legal ov (2^31) [] l ->
  exists s, mb_run ov mb_init l = Some (map (outs_expected ov) l, s) /\
    mb_used s = held_bytes (held_after ov l) /\ mb_max s = most (histories ov [] l).
Proof.
  intros Ho L. destruct (mb_run_ok ov (2^31) Ho (Z.le_refl _) l [] 0 mb_init) as (s & E & I).
  - constructor; cbn; try reflexivity; try lia; constructor.
  - exact L.
  - exists s. split; [exact E|]. destruct I as [U M _ _ _ _]. split; [exact U|]. rewrite M.
    assert (0 <= most (histories ov [] l)); [|lia].
    generalize (histories ov [] l) as hs. induction hs; cbn [most fold_right]; [lia|]. unfold most in IHhs. lia.
Qed.
