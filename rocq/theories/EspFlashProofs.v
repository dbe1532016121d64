From Verif Require Import Base EspFlash EspFlashSpec.

Lemma get_in (l : list Z) i : 0 <= i < zlen l -> exists b, get l i = Some b.
Proof.
  intros H. unfold get. replace (i <? 0) with false by lia.
  destruct (nth_error l (Z.to_nat i)) eqn:E; [eauto|]. apply nth_error_None in E. unfold zlen in H. lia.
Qed.
Lemma get_out (l : list Z) i : ~ 0 <= i < zlen l -> get l i = None.
Proof.
  intros H. unfold get. destruct (i <? 0) eqn:E; [reflexivity|]. apply nth_error_None. unfold zlen in H. lia.
Qed.
Lemma written_nil prog f dest : written prog f f dest [].
Proof. intros x. change (zlen (@nil Z)) with 0. split; [lia|reflexivity]. Qed.
Lemma written_more prog f g dest d1 d2 : written prog f g dest d1 ->
  written prog f (program prog g (dest + zlen d1, d2)) dest (d1 ++ d2).
Proof.
  intros W x. destruct (W x) as [W1 W2]. unfold program. cbn [fst snd]. rewrite zlen_app.
  pose proof (zlen_nonneg d1). pose proof (zlen_nonneg d2). split; intros X.
  - destruct (Z_lt_dec x (dest + zlen d1)) as [L|L].
    + rewrite (get_out d2) by lia. destruct W1 as (b & B1 & B2); [lia|]. exists b. split; [|exact B2].
      rewrite get_app1 by lia. exact B1.
    + destruct (get_in d2 (x - (dest + zlen d1))) as [b B]; [lia|]. exists b. rewrite B. split.
      * rewrite get_app2 by lia. rewrite <- B. f_equal. lia.
      * f_equal. apply W2. lia.
  - rewrite (get_out d2) by lia. apply W2. lia.
Qed.

Section Loop.
Variables (prog : Z -> Z -> Z) (f : Z -> Z) (dest src : Z) (data : list Z).
Hypothesis S0 : 0 <= src.
Hypothesis S1 : src + zlen data <= 2 ^ 32 - 128.
Hypothesis D0 : 0 <= dest.
Hypothesis D1 : dest + zlen data <= 2 ^ 32.

Definition small (w : piece) : Prop := 1 <= zlen (snd w) <= 128.
(** After pieces up to [k]. *)
Definition upto (k : Z) (ws : list piece) : Prop :=
  0 <= k /\ k mod 128 = 0 /\ Forall small ws /\ written prog f (programs prog f ws) dest (take k data).

Lemma step fuel k errs ws : upto k ws -> k < zlen data ->
  exists ws', upto (k + 128) ws' /\
    vw_loop (S fuel) dest src (u32 (src + zlen data)) data (src + k) errs ws =
    let err := match errs with [] => 0 | e :: _ => e end in
    if negb (err =? 0) then Some (err, ws) else vw_loop fuel dest src (u32 (src + zlen data)) data (src + (k + 128)) (tl errs) ws'.
Proof.
  intros (K0 & K1 & FS & W) L. pose proof (zlen_nonneg data).
  assert (P : 2 ^ 32 = 4294967296) by reflexivity.
  exists (ws ++ [(dest + k, take (Z.min 128 (zlen data - k)) (drop k data))]). split.
  - split; [lia|]. split; [rewrite Z.add_mod, K1 by lia; reflexivity|]. split.
    + apply Forall_app. split; [exact FS|]. constructor; [|constructor]. unfold small. cbn [snd]. rewrite zlen_take, zlen_drop. lia.
    + unfold programs. rewrite fold_left_app. cbn [fold_left]. fold (programs prog f ws).
      rewrite take_plus by lia.
      replace (take 128 (drop k data)) with (take (Z.min 128 (zlen data - k)) (drop k data)).
      2:{ destruct (Z_le_dec 128 (zlen data - k)).
          - now rewrite Z.min_l by lia.
          - rewrite Z.min_r by lia. rewrite !take_all by (rewrite zlen_drop; lia). reflexivity. }
      replace (dest + k) with (dest + zlen (take k data)) by (rewrite zlen_take; lia).
      now apply written_more.
  - assert (E : u32 (src + zlen data) = src + zlen data) by (apply u32_id; unfold is_u32; lia).
    rewrite E. cbn [vw_loop]. replace (src + k <? src + zlen data) with true by lia.
    replace (u32 (src + zlen data - (src + k))) with (zlen data - k) by (rewrite u32_id; unfold is_u32; lia).
    unfold temp_size. rewrite read_at_some by lia. cbn [bind].
    replace (src + k - src) with k by lia. rewrite (u32_id k) by (unfold is_u32; lia).
    rewrite (u32_id (dest + k)) by (unfold is_u32; lia).
    rewrite (u32_id (src + k + 128)) by (unfold is_u32; lia). rewrite <- Z.add_assoc. reflexivity.
Qed.
Lemma loop_ends fuel k errs ws : upto k ws -> zlen data <= k -> (0 < fuel)%nat -> k < zlen data + 128 ->
  vw_loop fuel dest src (u32 (src + zlen data)) data (src + k) errs ws = Some (0, ws).
Proof.
  intros U L F K. destruct fuel; [lia|]. pose proof (zlen_nonneg data). cbn [vw_loop]. rewrite u32_id.
  - now replace (src + k <? src + zlen data) with false by lia.
  - assert (2 ^ 32 = 4294967296) by reflexivity. unfold is_u32. lia.
Qed.
Lemma loop_all : forall fuel k errs ws, upto k ws -> k < zlen data + 128 -> zlen data - k < Z.of_nat fuel -> (0 < fuel)%nat ->
  (forall i e, 0 <= i -> k + 128 * i < zlen data -> get errs i = Some e -> e = 0) ->
  exists ws', vw_loop fuel dest src (u32 (src + zlen data)) data (src + k) errs ws = Some (0, ws') /\
    Forall small ws' /\ written prog f (programs prog f ws') dest data.
Proof.
  induction fuel; intros k errs ws U K F F0 NE; [lia|].
  destruct (Z_lt_dec k (zlen data)) as [L|L].
  - destruct (step fuel k errs ws U L) as (ws' & U' & ->). cbv zeta.
    assert (E0 : match errs with [] => 0 | e :: _ => e end = 0).
    { destruct errs as [|e errs]; [reflexivity|]. apply (NE 0); [lia|lia|reflexivity]. }
    rewrite E0. cbn [negb Z.eqb].
    apply IHfuel; [exact U'|lia|lia|lia|].
    intros i e I0 I1 G. destruct errs as [|e0 errs]; [cbn [tl] in G; rewrite (get_out []) in G by (change (zlen (@nil Z)) with 0; lia); discriminate|].
    apply (NE (i + 1)); [lia|lia|]. cbn [tl] in G. change (e0 :: errs) with ([e0] ++ errs). rewrite get_app2 by (change (zlen [e0]) with 1; lia). rewrite <- G. f_equal. change (zlen [e0]) with 1. lia.
  - exists ws. split; [apply loop_ends; trivial; lia|]. destruct U as (_ & _ & FS & W).
    rewrite take_all in W by lia. split; assumption.
Qed.
Lemma loop_stops : forall pre fuel k e post ws, upto k ws -> zlen data - k < Z.of_nat fuel ->
  Forall (eq 0) pre -> e <> 0 -> k + 128 * zlen pre < zlen data ->
  exists ws', vw_loop fuel dest src (u32 (src + zlen data)) data (src + k) (pre ++ e :: post) ws = Some (e, ws') /\
    Forall small ws' /\ written prog f (programs prog f ws') dest (take (k + 128 * zlen pre) data).
Proof.
  induction pre as [|z pre IH]; intros fuel k e post ws U F P E L.
  - change (zlen (@nil Z)) with 0 in *. destruct fuel; [lia|]. destruct (step fuel k (e :: post) ws U) as (ws' & U' & X); [lia|].
    cbn [app]. rewrite X. cbv zeta. replace (e =? 0) with false by lia. cbn [negb]. exists ws. split; [reflexivity|].
    destruct U as (_ & _ & FS & W). split; [exact FS|]. now rewrite Z.mul_0_r, Z.add_0_r.
  - inversion P as [|? ? Z1 P1]; subst. rewrite zlen_cons in L. pose proof (zlen_nonneg pre). destruct fuel; [lia|].
    destruct (step fuel k ((0 :: pre) ++ e :: post) ws U) as (ws' & U' & X); [lia|]. rewrite X. cbn [app tl Z.eqb negb]. cbv zeta.
    destruct (IH fuel (k + 128) e post ws' U') as (ws2 & A & B & C); [lia|assumption|assumption|lia|].
    exists ws2. split; [exact A|]. split; [exact B|]. rewrite zlen_cons. replace (k + 128 * (1 + zlen pre)) with (k + 128 + 128 * zlen pre) by lia. exact C.
Qed.
End Loop.
Lemma upto_0 prog f dest data : upto prog f dest data 0 [].
Proof. split; [lia|]. split; [reflexivity|]. split; [constructor|]. apply written_nil. Qed.
