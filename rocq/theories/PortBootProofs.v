(** Reset reasons and reboot tracking together. *)
From Verif Require Import Base SerializerHelper Reboot RebootSpec RebootProofs PortReset PortResetSpec PortBootSpec PortResetProofs.

Lemma rv_app l1 : forall v l2 r1 v1 r2 v2, rv_run v l1 = Some (r1, v1) -> rv_run v1 l2 = Some (r2, v2) ->
  rv_run v (l1 ++ l2) = Some (r1 ++ r2, v2).
Proof.
  induction l1 as [|o l IH]; intros v l2 r1 v1 r2 v2 A B; cbn [rv_run app] in *.
  - inv A. exact B.
  - apply bind_inv in A as ([q w] & E & A). apply bind_inv in A as ([rs w'] & E2 & A). inv A. rewrite E. cbn [bind].
    rewrite (IH _ _ _ _ _ _ E2 B). reflexivity.
Qed.

(** A tracking state between rounds. *)
Definition idle (n : Z) (v : rview) : Prop :=
  r_up v = true /\ k_first (r_k v) = None /\ k_pc (r_k v) = 0 /\ k_lr (r_k v) = 0 /\ k_cd (r_k v) = false /\ k_crashes (r_k v) = n.
Lemma round_ok e n v : idle n v ->
  exists v', rv_run v (round e) = Some (read_back e, v') /\ idle (n + if unexpected_reason (effect e) then 1 else 0) v'.
Proof.
  destruct v as [up [fi pc lr cd reg cr act] bt]. intros (U & A & B & C & D & N). cbn in *. subst.
  destruct e as [[[[r pc] lr]|] t]; unfold read_back, round, effect, unexpected_reason; cbn [fst snd app];
    cbn -[Z.leb Z.eqb Z.add]; unfold crash; change 0x8000 with 32768.
  - destruct ((r =? 0) || (32768 <=? r)); cbn -[Z.add]; eexists; (split; [reflexivity|unfold idle; cbn; repeat split; lia]).
  - destruct ((t_reason t =? 0) || (32768 <=? t_reason t)); cbn -[Z.add]; eexists; (split; [reflexivity|unfold idle; cbn; repeat split; lia]).
Qed.

Lemma rounds_ok l : forall n v, idle n v ->
  exists v', rv_run v (flat_map round l) = Some (flat_map read_back l, v') /\ idle (n + crashes l) v'.
Proof.
  induction l as [|e l IH]; intros n v I.
  - exists v. split; [reflexivity|]. unfold crashes; cbn. now rewrite Z.add_0_r.
  - destruct (round_ok e n v I) as (v1 & R & I1). destruct (IH _ _ I1) as (v2 & R2 & I2). exists v2. split.
    + cbn [flat_map]. eapply rv_app; eauto.
    + replace (n + crashes (e :: l)) with (n + (if unexpected_reason (effect e) then 1 else 0) + crashes l); [exact I2|].
      unfold crashes. cbn [filter]. destruct (unexpected_reason (effect e)); rewrite ?zlen_cons; lia.
Qed.
Lemma first_boot_ok m t : exists v, rv_run (start m) (first_boot t) = Some ([TOk; TOk; TOk], v) /\ idle 0 v.
Proof. eexists. split; [reflexivity|]. cbn. unfold idle. cbn. auto 10. Qed.

Lemma round_op_ok e : match fst e with Some (r, _, _) => is_u16 r | None => True end -> is_u16 (t_reason (snd e)) -> Forall rt_op_ok (round e).
Proof.
  destruct e as [k t]. cbn [fst snd]. intros A B. unfold round. cbn [fst snd]. apply Forall_app. split; [|repeat (apply Forall_cons; [first [exact I | exact (conj I B)]|]); apply Forall_nil].
  destruct k as [[[r pc] lr]|]; [|constructor]. apply Forall_cons; [exact A|apply Forall_nil].
Qed.
Theorem tracked m t l : rinfo_ok m -> is_u16 (t_reason t) ->
  Forall (fun e => match fst e with Some (r, _, _) => is_u16 r | None => True end /\ is_u16 (t_reason (snd e))) l ->
  exists s', rt_run (mk_rt false m None) (first_boot t ++ flat_map round l ++ [TCount])
             = Some ([TOk; TOk; TOk] ++ flat_map read_back l ++ [TNum (crashes l mod 256)], s').
Proof.
  intros HM T F. destruct (first_boot_ok m t) as (v & R & I). destruct (rounds_ok l 0 v I) as (v2 & R2 & I2).
  assert (C : rv_run v2 [TCount] = Some ([TNum (crashes l mod 256)], v2)).
  { destruct I2 as (U & _ & _ & _ & _ & N). cbn. rewrite U, N. reflexivity. }
  pose proof (rv_app _ _ _ _ _ _ _ R (rv_app _ _ _ _ _ _ _ R2 C)) as RR.
  assert (FF : Forall rt_op_ok (first_boot t ++ flat_map round l ++ [TCount])).
  { apply Forall_app. split; [repeat (apply Forall_cons; [first [exact Logic.I | exact (conj Logic.I T)]|]); apply Forall_nil|]. apply Forall_app. split; [|repeat constructor].
  apply Forall_flat_map. eapply Forall_impl; [|exact F]. intros e [A B]. now apply round_op_ok. }
  destruct (rt_run_ok _ _ _ _ _ (init_sim m HM) FF RR) as (s' & E & _). eauto.
Qed.

Lemma says_u16 p c : is_u16 (says p c).
Proof. destruct p, c as [k i]; unfold says; cbn; destruct k; cbn; try (unfold is_u16; lia); repeat match goal with |- context [if ?b then _ else _] => destruct b end; unfold is_u16; cbn; lia. Qed.

Lemma tells_u16 q c : is_u16 (tells q c).
Proof. destruct q, c as [k i]; unfold tells; cbn; destruct k; cbn; unfold is_u16; lia. Qed.

(** The registers' reasons, through reboot tracking, over a history of single causes. *)
Theorem tracked_history p h s m t ms l : chip_ok p h -> tidy p h = true ->
  (forall c, In c (order p) -> sticky p = true -> hit h (rg s) c = false) -> (has_standby p = true -> sb s = false) ->
  Forall (fun e => In (fst (fst e)) (resets p) /\ raises p h (fst (fst e)) (snd (fst e)) /\ misreported p h (fst (fst e)) = false /\ stuck p (fst (fst e)) = false
     /\ set_ok p h (snd (fst e)) (snd e)) l ->
  rinfo_ok m -> is_u16 (t_reason t) -> marks_ok ms ->
  let found := combine ms (map (fun e => mk_told (says p (fst (fst e))) (Z.lor (bits p h (snd (fst e))) (other p (snd e)))) l) in
  exists s', rt_run (mk_rt false m None) (first_boot t ++ flat_map round (combine ms (boots p h s (map (fun e => (snd (fst e), snd e)) l))) ++ [TCount])
             = Some ([TOk; TOk; TOk] ++ flat_map read_back found ++ [TNum (crashes found mod 256)], s').
Proof.
  intros K T H B F HM HT M found. rewrite (boots_single p h s l K T H B F). fold found. apply tracked; try assumption.
  apply Forall_forall. intros [k d] I. unfold found in I. pose proof (in_combine_l _ _ _ _ I) as I1. pose proof (in_combine_r _ _ _ _ I) as I2.
  cbn [fst snd]. split.
  - unfold marks_ok in M. rewrite Forall_forall in M. exact (M _ I1).
  - apply in_map_iff in I2 as (e & <- & _). apply says_u16.
Qed.
