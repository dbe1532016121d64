(** Proofs about the commands of the demo command lines. *)
From Coq Require Import String.
From Verif Require Import Base Crc16Spec ChunkSpec ChunkDrain Packetizer PacketizerSpec PacketizerProofs DataExport DataExportSpec DataExportProofs CliCommands CliCommandsSpec.
Open Scope list_scope.
Open Scope Z_scope.

Lemma space_spec c : space c = true <-> c = 32 \/ 9 <= c <= 13.
Proof. unfold space. rewrite orb_true_iff, andb_true_iff, Z.eqb_eq, !Z.leb_le. tauto. Qed.
Lemma skip_blanks ws r : blanks ws -> match r with c :: _ => space c = false | [] => True end -> skip_space (ws ++ r) = r.
Proof.
  intros B R. induction B as [|c ws C B IH]; cbn [app skip_space].
  - destruct r as [|c r]; [reflexivity|]. cbn [skip_space]. rewrite R. reflexivity.
  - rewrite (proj2 (space_spec c) C). exact IH.
Qed.
Lemma digit10 c : 48 <= c <= 57 -> digit 10 c = Some (c - 48).
Proof. intros H. unfold digit. replace ((48 <=? c) && (c <=? 57)) with true by (symmetry; apply andb_true_iff; rewrite !Z.leb_le; lia). cbv zeta. destruct (Z.ltb_spec (c - 48) 10); [reflexivity|lia]. Qed.
Lemma digit10_none c : ~ (48 <= c <= 57) -> digit 10 c = None.
Proof.
  intros H. unfold digit. destruct ((48 <=? c) && (c <=? 57)) eqn:E1; [rewrite andb_true_iff, !Z.leb_le in E1; lia|].
  destruct ((97 <=? c) && (c <=? 122)) eqn:E2; [rewrite andb_true_iff, !Z.leb_le in E2; cbv zeta; destruct (Z.ltb_spec (c - 87) 10); [lia|reflexivity]|].
  destruct ((65 <=? c) && (c <=? 90)) eqn:E3; [rewrite andb_true_iff, !Z.leb_le in E3; cbv zeta; destruct (Z.ltb_spec (c - 55) 10); [lia|reflexivity]|reflexivity].
Qed.
Lemma number10 ds rest : Forall (fun d => 0 <= d <= 9) ds -> stops rest ->
  forall acc, number 10 acc (map (fun d => 48 + d) ds ++ rest) = fold_left (fun a d => 10 * a + d) ds acc.
Proof.
  intros F S. induction F as [|d ds D F IH]; intros acc; cbn [map app number fold_left].
  - destruct rest as [|c r]; [reflexivity|]. cbn [number]. rewrite digit10_none by exact S. reflexivity.
  - rewrite digit10 by lia. replace (48 + d - 48) with d by lia. apply IH.
Qed.
Lemma atoi_says s n : says s n -> -2147483648 <= n <= 2147483647 -> atoi s = Some n.
Proof.
  intros (ws & sg & ds & t & rest & B & (Dn & Dd & ->) & St & -> & V) R. unfold atoi.
  destruct ds as [|d ds]; [congruence|]. inversion Dd as [|? ? D1 D2]; subst.
  assert (N : number 10 0 (map (fun d => 48 + d) (d :: ds) ++ rest) = value 10 (d :: ds)) by (apply number10; assumption).
  rewrite skip_blanks; [|exact B|].
  2:{ destruct V as [([-> | ->] & _)|(-> & _)]; cbn [app map]; [|reflexivity|reflexivity].
      destruct (space (48 + d)) eqn:E; [apply space_spec in E; lia|reflexivity]. }
  assert (Sg : signed (sg ++ map (fun d => 48 + d) (d :: ds) ++ rest) = (match sg with 45 :: _ => true | _ => false end, map (fun d => 48 + d) (d :: ds) ++ rest)).
  { destruct V as [([-> | ->] & _)|(-> & _)]; cbn [app map signed]; [|reflexivity|reflexivity].
    destruct (Z.eqb_spec (48 + d) 45); [lia|]. destruct (Z.eqb_spec (48 + d) 43); [lia|]. reflexivity. }
  rewrite Sg, N. cbv zeta. destruct V as [([-> | ->] & E)|(-> & E)]; rewrite <- E;
  rewrite (proj2 (Z.leb_le _ _)) by lia; rewrite (proj2 (Z.leb_le n _)) by lia; reflexivity.
Qed.
Lemma atoi_none s : no_number s -> atoi s = Some 0.
Proof.
  intros (ws & rest & B & -> & R). unfold atoi. rewrite skip_blanks; [|exact B|].
  - destruct rest as [|c r]; [reflexivity|]. destruct R as (D & P & M & _). cbn [signed]. destruct (Z.eqb_spec c 45); [congruence|]. destruct (Z.eqb_spec c 43); [congruence|].
    cbn [number]. rewrite digit10_none by exact D. reflexivity.
  - destruct rest as [|c r]; [exact I|]. destruct (space c) eqn:E; [|reflexivity]. apply space_spec in E. lia.
Qed.
Lemma hex_digit d : 0 <= d <= 15 -> digit 16 (hex_char d) = Some d.
Proof. intros H. assert (C : In d [0;1;2;3;4;5;6;7;8;9;10;11;12;13;14;15]) by (cbn [In]; lia). cbn [In] in C. repeat destruct C as [<-|C]; try reflexivity. contradiction. Qed.
Lemma number16 ds : Forall (fun d => 0 <= d <= 15) ds -> forall acc, number 16 acc (map hex_char ds) = fold_left (fun a d => 16 * a + d) ds acc.
Proof. intros F. induction F as [|d ds D F IH]; intros acc; cbn [map number fold_left]; [reflexivity|]. rewrite hex_digit by exact D. apply IH. Qed.
Lemma strtoul_says s n : says_address s n -> 0 <= n <= 4294967295 -> strtoul s = n.
Proof.
  intros [(ds & Ne & F & -> & E)|(d & ds & D & F & -> & E)] R; unfold strtoul.
  - destruct ds as [|h ds]; [congruence|]. cbn [skip_space]. change (space 48) with false. cbv iota. cbn [signed]. change (48 =? 45) with false. change (48 =? 43) with false. cbv iota.
    cbn [map]. pose proof (Forall_inv F) as Dh. cbv beta in Dh. change (120 =? 120) with true. cbn [orb]. rewrite hex_digit by exact Dh. cbn [andb].
    pose proof (number16 (h :: ds) F 0) as N. cbn [map] in N. fold (value 16 (h :: ds)) in N. rewrite N, <- E.
    destruct (Z.ltb_spec 4294967295 n); [lia|]. apply u32_id. unfold is_u32. lia.
  - cbn [map skip_space]. destruct (space (48 + d)) eqn:S; [apply space_spec in S; lia|]. cbn [signed].
    destruct (Z.eqb_spec (48 + d) 45); [lia|]. destruct (Z.eqb_spec (48 + d) 43); [lia|].
    assert (N : number 10 0 ((48 + d) :: map (fun d => 48 + d) ds) = n).
    { pose proof (number10 (d :: ds) [] (Forall_cons _ (conj (Z.le_trans 0 1 d ltac:(lia) (proj1 D)) (proj2 D)) F) Logic.I 0) as N. rewrite app_nil_r in N. cbn [map] in N. rewrite N. symmetry. exact E. }
    assert (C : In d [1;2;3;4;5;6;7;8;9]) by (cbn [In]; lia). cbn [In] in C.
    assert (K : forall m, m = n -> (if 4294967295 <? m then 4294967295 else u32 m) = n).
    { intros m ->. destruct (Z.ltb_spec 4294967295 n); [lia|]. apply u32_id. unfold is_u32. lia. }
    cbv zeta. repeat destruct C as [<-|C]; try contradiction; apply K; exact N.
Qed.

(** ** Draining *)
Lemma drain_run cfg bufs last : Forall (fun b => 9 <= zlen b < 4294967296) bufs ->
  forall w st ss rs st' w', sim cfg w st ss -> single ss -> pk_run cfg w st (map PChunk bufs) = Some (rs, st', w') -> nothing_to_send w' (pk_mask st') ->
  drain cfg w st (bufs ++ [last]) = Some (chunks_of rs, st', w').
Proof.
  intros F. induction F as [|b bufs Fb F IH]; intros w st ss rs st' w' S A R N.
  - cbn [map pk_run] in R. injection R as <- <- <-. cbn [app drain]. destruct (nothing_false cfg w st ss last S N) as (cs & ->). reflexivity.
  - cbn [map pk_run pk_step] in R. destruct (chunk_step cfg w st ss b S A Fb) as (ok & out & st1 & w1 & cs & ss1 & E & S1 & A1 & D).
    rewrite E in R. cbn [bind] in R. destruct (pk_run cfg w1 st1 (map PChunk bufs)) as [[[rs1 st2] w2]|] eqn:R1; [|discriminate R].
    cbn [bind] in R. injection R as <- <- <-. cbn [app drain]. rewrite E. cbn [bind].
    destruct D as [(-> & Ne & Bo & Lo)|(-> & -> & -> & -> & Idle)]; cbn [negb].
    + rewrite (IH _ _ _ _ _ _ S1 A1 R1 N). cbn [bind]. destruct out; [congruence|reflexivity].
    + destruct (run_idle _ _ _ _ _ _ _ _ Idle R1) as (Z1 & -> & ->). change (chunks_of ((ResChunk false [], cs) :: rs1)) with (chunks_of rs1). rewrite Z1. reflexivity.
Qed.
Lemma drain_everything cfg w mask bufs : queues_ok cfg w -> is_u32 mask -> Forall (fun b => 9 <= zlen b < 4294967296) bufs ->
  work (backlog cfg mask w) < zlen bufs ->
  exists groups st w', drain cfg w (pk_set_active_sources pk_init mask) bufs = Some (concat groups, st, w') /\
    Forall2 (fun g p => exists crc, receive g = Some (p, crc) /\ is_crc 0 p crc) groups (backlog cfg mask w) /\
    (forall s, q_of w' s = if enabled mask s then [] else q_of w s).
Proof.
  intros Hq Hm F W. unfold pk_set_active_sources. rewrite u32_id by exact Hm. cbn [pk_cur pk_abort pk_reset].
  assert (Wn : 0 <= work (backlog cfg mask w)).
  { generalize (backlog cfg mask w). induction l as [|p l IHl]; cbn; [lia|]. fold (work l) in *. pose proof (zlen_nonneg p). cbn in *. lia. }
  destruct (exists_last (l := bufs)) as (front & last & ->).
  { intros ->. change (zlen (@nil (list Z))) with 0 in W. lia. }
  apply Forall_app in F as [F _]. rewrite zlen_app, zlen_cons in W. change (zlen (@nil (list Z))) with 0 in W.
  assert (S0 : sim cfg w (mk_pk None mask) (mk_ss w mask None)) by (constructor; cbn; auto).
  destruct (drain_all cfg front w (mk_pk None mask) (mk_ss w mask None) S0 I F) as (rs & st & w' & groups & sent & rest & R1 & R2 & R3 & R4 & R5 & R6).
  cbn [pk_mask] in *. destruct R6 as [-> N]; [unfold done_bytes; cbn [pk_cur]; lia|].
  pose proof (run_mask _ _ _ _ _ _ _ _ S0 I F R1) as Em. cbn [pk_mask] in Em.
  exists groups, st, w'. rewrite app_nil_r in R2. change (chunks_of rs = concat groups) in R2. split.
  - rewrite (drain_run cfg front last F _ _ _ _ _ _ S0 I R1) by (rewrite Em; exact N). rewrite R2. reflexivity.
  - rewrite (backlog_none _ _ _ N), app_nil_r in R4. split; [now rewrite R4|].
    intros s. destruct (enabled mask s) eqn:E; [|now apply R5]. destruct (N s); [congruence|assumption].
Qed.
