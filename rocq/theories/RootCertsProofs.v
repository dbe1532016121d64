From Coq Require Import ZArith List Bool Lia.
From Verif Require Import Base RootCerts RootCertsSpec.
Import ListNotations.
Open Scope Z_scope.

Lemma c_text_ok t r : ~ In 0 t -> c_text (t ++ 0 :: r) = Some t.
Proof.
  induction t as [|b t IH]; intro N; [reflexivity|]. cbn [app c_text].
  destruct (b =? 0) eqn:E. { apply Z.eqb_eq in E. subst. exfalso. apply N. now left. }
  rewrite IH; [reflexivity|]. intro H. apply N. now right.
Qed.

Lemma op_err_at s o : ce_at (snd (op_err s o)) = ce_at s.
Proof. unfold op_err. now destruct (ce_errs s). Qed.

Lemma op_err_nil s o : ce_errs s = [] -> op_err s o = (0, mk_certs (ce_at s) (ce_ops s ++ [o]) []).
Proof. unfold op_err. now intros ->. Qed.

Lemma pem_read t cert : pem t cert -> read_at cert 0 (u32 (zlen cert - 1)) = Some t.
Proof.
  intros (-> & _ & W). rewrite zlen_app in *. change (zlen [0]) with 1 in *.
  replace (zlen t + 1 - 1) with (zlen t) by lia. unfold is_u32 in W.
  pose proof (zlen_nonneg t). rewrite u32_id by (unfold is_u32; lia).
  rewrite read_at_some by (rewrite ?zlen_app; change (zlen [0]) with 1; lia).
  f_equal. now apply (take_app_exact (zlen t) t [0]).
Qed.

Lemma nrf_add_ok t cert s id : pem t cert ->
  exists rv s', nrf_add s id cert (zlen cert) = Some (rv, s') /\
    (rv = 0 -> ce_at s' id = Some t) /\ (rv <> 0 -> ce_at s' id = ce_at s id) /\
    (forall j, j <> id -> ce_at s' j = ce_at s j) /\
    (ce_errs s = [] -> rv = 0 /\ ce_errs s' = []) /\
    (ce_errs s = [] -> ce_at s id = Some t -> ce_at s' = ce_at s /\
       ce_ops s' = ce_ops s ++ [OExists id; OCmp id t]).
Proof.
  intro P. pose proof (pem_read _ _ P) as R. destruct P as (C & N & _).
  assert (CT : c_text cert = Some t) by (rewrite C; now apply c_text_ok).
  unfold nrf_add, modem_exists.
  destruct (op_err s (OExists id)) as [e s1] eqn:E1.
  pose proof (op_err_at s (OExists id)) as A1. rewrite E1 in A1. cbn [snd] in A1.
  destruct (e =? 0) eqn:Ee; cbn [negb].
  2:{ exists e, s1. split; [reflexivity|]. apply Z.eqb_neq in Ee. rewrite A1.
      split; [congruence|]. split; [reflexivity|]. split; [reflexivity|].
      split; intros Z; rewrite (op_err_nil _ _ Z) in E1; inv E1; congruence. }
  assert (W : forall s2, ce_at s2 = ce_at s ->
     exists rv s', Some (modem_write s2 id t) = Some (rv, s') /\
       (rv = 0 -> ce_at s' id = Some t) /\ (rv <> 0 -> ce_at s' id = ce_at s id) /\
       (forall j, j <> id -> ce_at s' j = ce_at s j) /\
       (ce_errs s2 = [] -> rv = 0 /\ ce_errs s' = [])).
  { intros s2 A2. unfold modem_write. destruct (op_err s2 (OWrite id t)) as [e3 s3] eqn:E3.
    pose proof (op_err_at s2 (OWrite id t)) as A3. rewrite E3 in A3. cbn [snd] in A3.
    destruct (e3 =? 0) eqn:E; eexists _, _; (split; [reflexivity|]).
    - cbn [put_at ce_at ce_errs]. unfold set_at. rewrite Z.eqb_refl.
      split; [reflexivity|]. split; [congruence|].
      split. { intros j J. apply Z.eqb_neq in J. rewrite J. congruence. }
      intro Z. rewrite (op_err_nil _ _ Z) in E3. inv E3. now split.
    - apply Z.eqb_neq in E. split; [congruence|]. split; [congruence|].
      split; [congruence|]. intro Z. rewrite (op_err_nil _ _ Z) in E3. inv E3. congruence. }
  destruct (ce_at s id) as [d|] eqn:D.
  - rewrite R. cbn [bind]. unfold modem_cmp.
    destruct (op_err s1 (OCmp id t)) as [e2 s2] eqn:E2.
    pose proof (op_err_at s1 (OCmp id t)) as A2. rewrite E2 in A2. cbn [snd] in A2.
    rewrite A1, D.
    assert (Q : forall c : Z, (if c =? 0 then true else false) = (c =? 0)) by (intro c; now destruct (c =? 0)).
    destruct (e2 =? 0) eqn:Ee2.
    + destruct (list_eq_dec Z.eq_dec d t) as [->|NE]; cbn [bind]; cbn [Z.eqb].
      * exists 0, s2. split; [reflexivity|]. rewrite A2, A1, D.
        split; [reflexivity|]. split; [reflexivity|]. split; [reflexivity|].
        split.
        { intro Z. rewrite (op_err_nil _ _ Z) in E1. inv E1.
          rewrite op_err_nil in E2 by reflexivity. inv E2. now split. }
        intros Z _. rewrite (op_err_nil _ _ Z) in E1. inv E1.
        rewrite op_err_nil in E2 by reflexivity. inv E2. split; [reflexivity|].
        cbn [ce_ops]. rewrite <- app_assoc. reflexivity.
      * rewrite CT. cbn [bind]. destruct (W s2) as (rv & s' & B1 & B2 & B3 & B4 & B5); [congruence|].
        exists rv, s'. split; [exact B1|]. split; [exact B2|]. split; [exact B3|].
        split; [exact B4|]. split; [|congruence].
        intro Z. apply B5. rewrite (op_err_nil _ _ Z) in E1. inv E1.
        rewrite op_err_nil in E2 by reflexivity. now inv E2.
    + cbn [bind]. rewrite Ee2, CT. cbn [bind].
      destruct (W s2) as (rv & s' & B1 & B2 & B3 & B4 & B5); [congruence|].
      exists rv, s'. split; [exact B1|]. split; [exact B2|]. split; [exact B3|].
      split; [exact B4|].
      assert (X : ce_errs s = [] -> False).
      { intro Z. rewrite (op_err_nil _ _ Z) in E1. inv E1.
        rewrite op_err_nil in E2 by reflexivity. inv E2. discriminate. }
      split; intro Z; elim (X Z).
  - cbn [bind]. rewrite CT. cbn [bind].
    destruct (W s1 A1) as (rv & s' & B1 & B2 & B3 & B4 & B5).
    exists rv, s'. split; [exact B1|]. split; [exact B2|]. split; [exact B3|].
    split; [exact B4|]. split; [|discriminate].
    intro Z. apply B5. rewrite (op_err_nil _ _ Z) in E1. now inv E1.
Qed.

Lemma nrf_remove_ok s id :
  let s' := snd (nrf_remove s id) in
  (forall j, j <> id -> ce_at s' j = ce_at s j) /\
  (ce_at s' id = ce_at s id \/ ce_at s' id = None) /\
  (fst (nrf_remove s id) = 0 -> ce_at s' id = None) /\
  (ce_errs s = [] -> ce_at s' id = None /\ ce_errs s' = [] /\ fst (nrf_remove s id) = 0) /\
  (ce_errs s = [] -> ce_at s id = None -> ce_ops s' = ce_ops s ++ [OExists id]).
Proof.
  unfold nrf_remove, modem_exists.
  destruct (op_err s (OExists id)) as [e s1] eqn:E1.
  pose proof (op_err_at s (OExists id)) as A1. rewrite E1 in A1. cbn [snd] in A1.
  assert (Z1 : ce_errs s = [] -> e = 0 /\ ce_errs s1 = [] /\ ce_ops s1 = ce_ops s ++ [OExists id]).
  { intro Z. rewrite (op_err_nil _ _ Z) in E1. now inv E1. }
  destruct (e =? 0) eqn:Ee; cbn [negb fst snd].
  2:{ apply Z.eqb_neq in Ee. rewrite A1. split; [reflexivity|]. split; [now left|].
      split; [congruence|]. split; intro Z; destruct (Z1 Z); congruence. }
  destruct (ce_at s id) as [d|] eqn:D; cbn [negb fst snd].
  2:{ rewrite A1, D. split; [reflexivity|]. split; [now left|]. split; [reflexivity|].
      split; intro Z; destruct (Z1 Z) as (? & ? & ?); auto. }
  unfold modem_delete. destruct (op_err s1 (ODelete id)) as [e2 s2] eqn:E2.
  pose proof (op_err_at s1 (ODelete id)) as A2. rewrite E2 in A2. cbn [snd] in A2.
  destruct (e2 =? 0) eqn:Ee2; cbn [fst snd put_at ce_at ce_errs ce_ops].
  - unfold set_at. rewrite Z.eqb_refl. split.
    { intros j J. apply Z.eqb_neq in J. rewrite J. congruence. }
    split; [now right|]. split; [reflexivity|]. split; [|discriminate].
    intro Z. destruct (Z1 Z) as (_ & Z2 & _). rewrite (op_err_nil _ _ Z2) in E2. now inv E2.
  - apply Z.eqb_neq in Ee2. split; [congruence|]. split; [left; congruence|].
    split; [congruence|]. split; [|discriminate].
    intro Z. destruct (Z1 Z) as (_ & Z2 & _). rewrite (op_err_nil _ _ Z2) in E2. inv E2. congruence.
Qed.

Lemma tls_add_ok s id cert :
  exists rv s', tls_add s id cert (zlen cert) = Some (rv, s') /\
    (rv = 0 -> ce_at s id = None /\ ce_at s' id = Some cert) /\
    (rv <> 0 -> ce_at s' id = ce_at s id) /\
    (forall j, j <> id -> ce_at s' j = ce_at s j) /\
    (ce_errs s = [] -> ce_errs s' = [] /\ (ce_at s id = None -> rv = 0)).
Proof.
  assert (A : read_at cert 0 (zlen cert) = Some cert).
  { pose proof (zlen_nonneg cert). rewrite read_at_some by lia. f_equal. apply take_all.
    unfold drop. cbn [Z.to_nat skipn]. lia. }
  unfold tls_add. rewrite A. cbn [bind].
  destruct (op_err s (OAdd id cert)) as [e s1] eqn:E1.
  pose proof (op_err_at s (OAdd id cert)) as A1. rewrite E1 in A1. cbn [snd] in A1.
  destruct (e =? 0) eqn:Ee; cbn [negb].
  2:{ apply Z.eqb_neq in Ee. eexists _, _. split; [reflexivity|]. rewrite A1.
      split; [congruence|]. split; [reflexivity|]. split; [reflexivity|].
      intro Z. rewrite (op_err_nil _ _ Z) in E1. inv E1. congruence. }
  destruct (ce_at s id) as [d|] eqn:D; eexists _, _; (split; [reflexivity|]).
  - rewrite A1. split; [discriminate|]. split; [congruence|]. split; [reflexivity|].
    intro Z. rewrite (op_err_nil _ _ Z) in E1. inv E1. now split.
  - cbn [put_at ce_at ce_errs]. unfold set_at. rewrite Z.eqb_refl.
    split; [now split|]. split; [congruence|].
    split. { intros j J. apply Z.eqb_neq in J. rewrite J. congruence. }
    intro Z. rewrite (op_err_nil _ _ Z) in E1. now inv E1.
Qed.

Lemma remove_loop_eq rm s : remove_loop rm 10 s id_dep_first = snd (rm s 1004).
Proof. reflexivity. Qed.

(** Installing, for any storage whose [add] gives an error code. *)
Lemma install_eq add rm cs s :
  install_root_certs add rm cs s =
  (do a <- add (snd (rm s 1004)) 1001 (cs_g2 cs) (zlen (cs_g2 cs)) ;
   if negb (to_bool (fst a) =? 0) then Some (to_bool (fst a), snd a) else
   do b <- add (snd a) 1002 (cs_amazon cs) (zlen (cs_amazon cs)) ;
   if negb (to_bool (fst b) =? 0) then Some (to_bool (fst b), snd b) else
   do c <- add (snd b) 1003 (cs_ca cs) (zlen (cs_ca cs)) ;
   if negb (to_bool (fst c) =? 0) then Some (to_bool (fst c), snd c) else Some (0, snd c)).
Proof.
  unfold install_root_certs. rewrite remove_loop_eq.
  change (install_loop add cs 10 (snd (rm s 1004)) id_g2) with
   (do r <- (do r <- add (snd (rm s 1004)) 1001 (cs_g2 cs) (zlen (cs_g2 cs)) ; Some (to_bool (fst r), snd r)) ;
    if negb (fst r =? 0) then Some r else install_loop add cs 9 (snd r) 1002).
  destruct (add (snd (rm s 1004)) 1001 (cs_g2 cs) (zlen (cs_g2 cs))) as [a|]; [|reflexivity].
  cbn [bind fst snd].
  destruct (negb (to_bool (fst a) =? 0)); [reflexivity|].
  change (install_loop add cs 9 (snd a) 1002) with
   (do r <- (do r <- add (snd a) 1002 (cs_amazon cs) (zlen (cs_amazon cs)) ; Some (to_bool (fst r), snd r)) ;
    if negb (fst r =? 0) then Some r else install_loop add cs 8 (snd r) 1003).
  destruct (add (snd a) 1002 (cs_amazon cs) (zlen (cs_amazon cs))) as [b|]; [|reflexivity].
  cbn [bind fst snd].
  destruct (negb (to_bool (fst b) =? 0)); [reflexivity|].
  change (install_loop add cs 8 (snd b) 1003) with
   (do r <- (do r <- add (snd b) 1003 (cs_ca cs) (zlen (cs_ca cs)) ; Some (to_bool (fst r), snd r)) ;
    if negb (fst r =? 0) then Some r else install_loop add cs 7 (snd r) 1004).
  destruct (add (snd b) 1003 (cs_ca cs) (zlen (cs_ca cs))) as [c|]; [|reflexivity].
  cbn [bind fst snd].
  destruct (negb (to_bool (fst c) =? 0)); reflexivity.
Qed.

Lemma to_bool_0 z : (to_bool z =? 0) = (z =? 0).
Proof. unfold to_bool. now destruct (z =? 0). Qed.

Lemma to_bool_1 z : z <> 0 -> to_bool z = 1.
Proof. unfold to_bool. intro H. apply Z.eqb_neq in H. now rewrite H. Qed.

Lemma nrf_install g2 am ca cg ca' cc s : pem g2 cg -> pem am ca' -> pem ca cc ->
  exists rv s', install_root_certs nrf_add nrf_remove (mk_cert_set cg ca' cc) s = Some (rv, s') /\
    outcome (ce_at s) s' g2 am ca rv /\
    (forall j, ~ ours j -> j <> deprecated -> ce_at s' j = ce_at s j) /\
    ce_at s' 1004 = ce_at (snd (nrf_remove s 1004)) 1004 /\
    (ce_errs s = [] -> rv = 0 /\ ce_errs s' = []) /\
    (ce_errs s = [] -> holds_all s g2 am ca ->
       (forall j, j <> deprecated -> ce_at s' j = ce_at s j) /\
       ce_ops s' = ce_ops (snd (nrf_remove s 1004)) ++
         [OExists 1001; OCmp 1001 g2; OExists 1002; OCmp 1002 am; OExists 1003; OCmp 1003 ca]).
Proof.
  intros P1 P2 P3. rewrite install_eq. cbn [cs_g2 cs_amazon cs_ca].
  destruct (nrf_remove_ok s 1004) as (R1 & R2 & _ & R3 & _).
  set (s0 := snd (nrf_remove s 1004)) in *.
  destruct (nrf_add_ok g2 cg s0 1001 P1) as (r1 & s1 & A1 & A2 & A3 & A4 & A5 & A6).
  rewrite A1. cbn [bind fst snd]. rewrite to_bool_0.
  destruct (r1 =? 0) eqn:E1; cbn [negb].
  2:{ apply Z.eqb_neq in E1. exists (to_bool r1), s1. rewrite (to_bool_1 _ E1).
      split; [reflexivity|]. split.
      { right. split; [reflexivity|]. exists 1001. split; [unfold ours; lia|].
        split. { intros; lia. } intros id I. destruct (Z.eq_dec id 1001) as [->|N].
        - rewrite (A3 E1). apply R1. lia.
        - rewrite A4, R1 by lia. reflexivity. }
      split. { intros j J D. unfold ours, deprecated in *. rewrite A4, R1 by lia. reflexivity. }
      split. { apply A4. lia. }
      split; intro Z; destruct (R3 Z) as (_ & Z0 & _); destruct (A5 Z0); congruence. }
  apply Z.eqb_eq in E1. specialize (A2 E1).
  destruct (nrf_add_ok am ca' s1 1002 P2) as (r2 & s2 & B1 & B2 & B3 & B4 & B5 & B6).
  rewrite B1. cbn [bind fst snd]. rewrite to_bool_0.
  destruct (r2 =? 0) eqn:E2; cbn [negb].
  2:{ apply Z.eqb_neq in E2. exists (to_bool r2), s2. rewrite (to_bool_1 _ E2).
      split; [reflexivity|]. split.
      { right. split; [reflexivity|]. exists 1002. split; [unfold ours; lia|].
        split. { intros id I. replace id with 1001 by lia. rewrite B4 by lia. exact A2. }
        intros id I. destruct (Z.eq_dec id 1002) as [->|N].
        - rewrite (B3 E2), A4, R1 by lia. reflexivity.
        - rewrite B4, A4, R1 by lia. reflexivity. }
      split. { intros j J D. unfold ours, deprecated in *. rewrite B4, A4, R1 by lia. reflexivity. }
      split. { rewrite B4, A4 by lia. reflexivity. }
      split; intro Z; destruct (R3 Z) as (_ & Z0 & _); destruct (A5 Z0) as [_ Z1]; destruct (B5 Z1); congruence. }
  apply Z.eqb_eq in E2. specialize (B2 E2).
  destruct (nrf_add_ok ca cc s2 1003 P3) as (r3 & s3 & C1 & C2 & C3 & C4 & C5 & C6).
  rewrite C1. cbn [bind fst snd]. rewrite to_bool_0.
  destruct (r3 =? 0) eqn:E3; cbn [negb].
  2:{ apply Z.eqb_neq in E3. exists (to_bool r3), s3. rewrite (to_bool_1 _ E3).
      split; [reflexivity|]. split.
      { right. split; [reflexivity|]. exists 1003. split; [unfold ours; lia|].
        split. { intros id I. assert (id = 1001 \/ id = 1002) as [->| ->] by lia.
                 - rewrite C4, B4 by lia. exact A2.
                 - rewrite C4 by lia. exact B2. }
        intros id I. replace id with 1003 by lia.
        rewrite (C3 E3), B4, A4, R1 by lia. reflexivity. }
      split. { intros j J D. unfold ours, deprecated in *. rewrite C4, B4, A4, R1 by lia. reflexivity. }
      split. { rewrite C4, B4, A4 by lia. reflexivity. }
      split; intro Z; destruct (R3 Z) as (_ & Z0 & _); destruct (A5 Z0) as [_ Z1];
        destruct (B5 Z1) as [_ Z2]; destruct (C5 Z2); congruence. }
  apply Z.eqb_eq in E3. specialize (C2 E3). exists 0, s3. split; [reflexivity|]. split.
  { left. split; [reflexivity|]. unfold holds_all. rewrite C2. rewrite (C4 1001), (C4 1002), B2, (B4 1001), A2 by lia.
    auto. }
  split. { intros j J D. unfold ours, deprecated in *. rewrite C4, B4, A4, R1 by lia. reflexivity. }
  split. { rewrite C4, B4, A4 by lia. reflexivity. }
  split. { intro Z. destruct (R3 Z) as (_ & Z0 & _). destruct (A5 Z0) as [_ Z1].
           destruct (B5 Z1) as [_ Z2]. destruct (C5 Z2) as [_ Z3]. now split. }
  intros Z (H1 & H2 & H3).
  destruct (R3 Z) as (_ & Z0 & _). destruct (A5 Z0) as [_ Z1]. destruct (B5 Z1) as [_ Z2].
  destruct (A6 Z0) as [D1 O1]. { rewrite R1 by lia. exact H1. }
  destruct (B6 Z1) as [D2 O2]. { rewrite A4, R1 by lia. exact H2. }
  destruct (C6 Z2) as [D3 O3]. { rewrite B4, A4, R1 by lia. exact H3. }
  split.
  - intros j J. unfold deprecated in J. rewrite D3, D2, D1. now apply R1.
  - rewrite O3, O2, O1, <- !app_assoc. reflexivity.
Qed.

Lemma tls_install cs s :
  exists rv s', install_root_certs tls_add tls_remove cs s = Some (rv, s') /\
    outcome (ce_at s) s' (cs_g2 cs) (cs_amazon cs) (cs_ca cs) rv /\
    (rv = 0 -> forall id, ours id -> ce_at s id = None) /\
    (forall j, ~ ours j -> ce_at s' j = ce_at s j) /\
    (ce_errs s = [] -> (forall id, ours id -> ce_at s id = None) -> rv = 0).
Proof.
  rewrite install_eq. cbn [tls_remove snd].
  destruct (tls_add_ok s 1001 (cs_g2 cs)) as (r1 & s1 & A1 & A2 & A3 & A4 & A5).
  rewrite A1. cbn [bind fst snd]. rewrite to_bool_0.
  destruct (r1 =? 0) eqn:E1; cbn [negb].
  2:{ apply Z.eqb_neq in E1. exists (to_bool r1), s1. rewrite (to_bool_1 _ E1).
      split; [reflexivity|]. split.
      { right. split; [reflexivity|]. exists 1001. split; [unfold ours; lia|].
        split. { intros; lia. } intros id I. destruct (Z.eq_dec id 1001) as [->|N].
        - exact (A3 E1).
        - apply A4. lia. }
      split; [discriminate|]. split. { intros j J. unfold ours in J. apply A4. lia. }
      intros Z F. destruct (A5 Z) as [_ Z1]. elim E1. apply Z1, F. unfold ours. lia. }
  apply Z.eqb_eq in E1. destruct (A2 E1) as [F1 G1].
  destruct (tls_add_ok s1 1002 (cs_amazon cs)) as (r2 & s2 & B1 & B2 & B3 & B4 & B5).
  rewrite B1. cbn [bind fst snd]. rewrite to_bool_0.
  destruct (r2 =? 0) eqn:E2; cbn [negb].
  2:{ apply Z.eqb_neq in E2. exists (to_bool r2), s2. rewrite (to_bool_1 _ E2).
      split; [reflexivity|]. split.
      { right. split; [reflexivity|]. exists 1002. split; [unfold ours; lia|].
        split. { intros id I. replace id with 1001 by lia. rewrite B4 by lia. exact G1. }
        intros id I. destruct (Z.eq_dec id 1002) as [->|N].
        - rewrite (B3 E2). apply A4. lia.
        - rewrite B4, A4 by lia. reflexivity. }
      split; [discriminate|]. split. { intros j J. unfold ours in J. rewrite B4, A4 by lia. reflexivity. }
      intros Z F. destruct (A5 Z) as [Z1 _]. destruct (B5 Z1) as [_ Z2]. elim E2. apply Z2.
      rewrite A4 by lia. apply F. unfold ours. lia. }
  apply Z.eqb_eq in E2. destruct (B2 E2) as [F2 G2].
  destruct (tls_add_ok s2 1003 (cs_ca cs)) as (r3 & s3 & C1 & C2 & C3 & C4 & C5).
  rewrite C1. cbn [bind fst snd]. rewrite to_bool_0.
  destruct (r3 =? 0) eqn:E3; cbn [negb].
  2:{ apply Z.eqb_neq in E3. exists (to_bool r3), s3. rewrite (to_bool_1 _ E3).
      split; [reflexivity|]. split.
      { right. split; [reflexivity|]. exists 1003. split; [unfold ours; lia|].
        split. { intros id I. assert (id = 1001 \/ id = 1002) as [->| ->] by lia.
                 - rewrite C4, B4 by lia. exact G1.
                 - rewrite C4 by lia. exact G2. }
        intros id I. replace id with 1003 by lia. rewrite (C3 E3), B4, A4 by lia. reflexivity. }
      split; [discriminate|]. split. { intros j J. unfold ours in J. rewrite C4, B4, A4 by lia. reflexivity. }
      intros Z F. destruct (A5 Z) as [Z1 _]. destruct (B5 Z1) as [Z2 _]. destruct (C5 Z2) as [_ Z3].
      elim E3. apply Z3. rewrite B4, A4 by lia. apply F. unfold ours. lia. }
  apply Z.eqb_eq in E3. destruct (C2 E3) as [F3 G3]. exists 0, s3. split; [reflexivity|]. split.
  { left. split; [reflexivity|]. unfold holds_all.
    rewrite G3, (C4 1001), (C4 1002), G2, (B4 1001), G1 by lia. auto. }
  split. { intros _ id I. unfold ours in I.
           assert (id = 1001 \/ id = 1002 \/ id = 1003) as [->|[->| ->]] by lia.
           - exact F1.
           - rewrite A4 in F2 by lia. exact F2.
           - rewrite B4, A4 in F3 by lia. exact F3. }
  split; [|reflexivity]. intros j J. unfold ours in J. rewrite C4, B4, A4 by lia. reflexivity.
Qed.

Lemma configure_ok der host rcs rv opts : configure_tls der host rcs = (rv, opts) ->
  (rv = 0 -> secure host opts /\ (der = true -> In NoCopy opts)) /\
  (rv <> 0 -> exists n, nth_error rcs n = Some rv /\ length opts = S n /\
     forall m, (m < n)%nat -> nth_error rcs m = Some 0).
Proof.
  unfold configure_tls, set_opt.
  assert (T : forall id, In id [id_g2; id_amazon; id_ca] <-> ours id).
  { intro id. cbn [In]. unfold ours, id_g2, id_amazon, id_ca. lia. }
  assert (S4 : forall o, In (TagList [id_g2; id_amazon; id_ca]) o -> In (PeerVerify 2) o ->
     In (Hostname (host ++ [0])) o -> secure host o).
  { intros o H1 H2 H3. split; [|now split]. eexists; split; [exact H1|exact T]. }
  destruct rcs as [|a rcs]; cbn [negb Z.eqb app].
  { destruct der; cbn [negb Z.eqb app]; intro H; inv H; (split; [intros _|congruence]);
      (split; [apply S4; cbn [In]; auto|]); cbn [In]; auto; discriminate. }
  destruct (a =? 0) eqn:Ea; cbn [negb].
  2:{ intro H. inv H. apply Z.eqb_neq in Ea. split; [congruence|]. intros _. exists 0%nat.
      split; [reflexivity|]. split; [reflexivity|]. intros; lia. }
  apply Z.eqb_eq in Ea. subst a.
  destruct rcs as [|b rcs]; cbn [negb Z.eqb app].
  { destruct der; cbn [negb Z.eqb app]; intro H; inv H; (split; [intros _|congruence]);
      (split; [apply S4; cbn [In]; auto|]); cbn [In]; auto; discriminate. }
  destruct (b =? 0) eqn:Eb; cbn [negb].
  2:{ intro H. inv H. apply Z.eqb_neq in Eb. split; [congruence|]. intros _. exists 1%nat.
      split; [reflexivity|]. split; [reflexivity|]. intros m M. now destruct m as [|[|m]]; try lia. }
  apply Z.eqb_eq in Eb. subst b.
  destruct der.
  - destruct rcs as [|c rcs]; cbn [negb Z.eqb app].
    { intro H; inv H; (split; [intros _|congruence]);
        (split; [apply S4; cbn [In]; auto|]); cbn [In]; auto. }
    destruct (c =? 0) eqn:Ec; cbn [negb].
    2:{ intro H. inv H. apply Z.eqb_neq in Ec. split; [congruence|]. intros _. exists 2%nat.
        split; [reflexivity|]. split; [reflexivity|]. intros m M. now destruct m as [|[|[|m]]]; try lia. }
    apply Z.eqb_eq in Ec. subst c.
    destruct rcs as [|d rcs]; cbn [app]; intro H; inv H.
    { split; [intros _|congruence]. split; [apply S4; cbn [In]; auto|]. cbn [In]; auto. }
    split. { intros ->. split; [apply S4; cbn [In]; auto|]. cbn [In]; auto. }
    intros _. exists 3%nat. split; [reflexivity|]. split; [reflexivity|].
    intros m M. now destruct m as [|[|[|[|m]]]]; try lia.
  - cbn [negb Z.eqb]. destruct rcs as [|d rcs]; cbn [app]; intro H; inv H.
    { split; [intros _|congruence]. split; [apply S4; cbn [In]; auto|]. discriminate. }
    split. { intros ->. split; [apply S4; cbn [In]; auto|]. discriminate. }
    intros _. exists 2%nat. split; [reflexivity|]. split; [reflexivity|].
    intros m M. now destruct m as [|[|[|m]]]; try lia.
Qed.
