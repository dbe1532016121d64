From Verif Require Import Base PortSelfTest PortSelfTestSpec.

Lemma fr_paired l : paired l -> forall n, fold_left fr_step l n = n.
Proof.
  induction 1; intro n; [reflexivity| |].
  - cbn [fold_left]. rewrite fold_left_app, IHpaired. simpl. lia.
  - now rewrite fold_left_app, IHpaired1, IHpaired2.
Qed.
Lemma z_one l : one_by_one l -> forall s, z_locked (fold_left z_step l s) = z_locked s.
Proof. induction 1; intro s; [reflexivity|]. cbn [fold_left]. rewrite IHone_by_one. reflexivity. Qed.

Lemma get_cons {A} (c : A) l i : 0 < i -> get (c :: l) i = get l (i - 1).
Proof.
  intro H. unfold get. destruct (i <? 0) eqn:A1; [lia|]. destruct (i - 1 <? 0) eqn:A2; [lia|].
  replace (Z.to_nat i) with (S (Z.to_nat (i - 1))) by lia. reflexivity.
Qed.
Lemma get_0 {A} (c : A) l : get (c :: l) 0 = Some c.
Proof. reflexivity. Qed.
Lemma get_neg {A} (l : list A) i : i < 0 -> get l i = None.
Proof. intro H. unfold get. destruct (i <? 0) eqn:E; [reflexivity|lia]. Qed.
Lemma get_nil {A} i : get ([] : list A) i = None.
Proof. unfold get. destruct (i <? 0); [reflexivity|]. now destruct (Z.to_nat i). Qed.
Lemma others_get f me l : forall i k, 0 <= k -> get (others f me i l) k = option_map (fun c => if i + k =? me then c else f c) (get l k).
Proof.
  induction l as [|c l IH]; intros i k K; cbn [others].
  - now rewrite !get_nil.
  - destruct (Z.eq_dec k 0) as [->|NK].
    + rewrite !get_0. simpl. rewrite Z.add_0_r. now destruct (i =? me).
    + rewrite !get_cons by lia. rewrite IH by lia. replace (i + 1 + (k - 1)) with (i + k) by lia. reflexivity.
Qed.
Lemma others_len f me l : forall i, zlen (others f me i l) = zlen l.
Proof. induction l as [|c l IH]; intro i; [reflexivity|]. cbn [others]. unfold zlen in *. cbn [length]. rewrite !Nat2Z.inj_succ. now rewrite IH. Qed.
