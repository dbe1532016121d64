(** C133: the commands of the Mynewt shell. *)
From Coq Require Import String.
From Verif Require Import Base MynewtShell MynewtShellSpec.
Open Scope string_scope. Open Scope list_scope. Open Scope Z_scope.

Lemma same_spec : forall a b, same a b = true <-> a = b.
Proof.
  induction a as [|x a IH]; destruct b as [|y b]; simpl; split; intro H; try discriminate; try reflexivity.
  - apply andb_true_iff in H as (E & H). apply Z.eqb_eq in E. apply IH in H. now subst.
  - injection H as -> ->. rewrite Z.eqb_refl. now apply IH.
Qed.
Lemma find_none a : forall l, find_cmd a l = None <-> ~ In a (map fst l).
Proof.
  induction l as [|(n, f) l IH]; simpl; [tauto|]. destruct (same a n) eqn:E.
  - apply same_spec in E. subst. split; [discriminate|tauto].
  - rewrite IH. assert (n <> a) by (intros ->; rewrite (proj2 (same_spec a a) eq_refl) in E; discriminate). tauto.
Qed.
Lemma names : map fst subcommands = help_names. Proof. reflexivity. Qed.

(** every command of the manual makes its calls, in order, and ends as it says, whatever follows its name; interrupts are
    afterwards as before *)
Theorem C133_commands : forall name acts o rest s, In (name, acts, o) manual ->
  shell_cmd (name :: rest) s = (mk_st (irqs s) (calls s ++ with_irqs (irqs s) acts), o).
Proof.
  intros name acts o rest (i, l) H. unfold manual in H. cbn [In] in H.
  repeat (destruct H as [H|H]; [injection H as <- <- <-; destruct i; lazy -[app]; rewrite <- ?app_assoc; try reflexivity; now rewrite app_nil_r|]). destruct H.
Qed.
Print Assumptions C133_commands.

(** without a name the help is shown, which has the names of the manual, each once, in order *)
Theorem C133_help : forall s, exists t, shell_cmd [] s = (mk_st (irqs s) (calls s ++ t), Ret 0) /\ said t = map (fun x => fst (fst x)) manual /\ NoDup (said t).
Proof.
  intros (i, l). unfold shell_cmd, help, EOK.
  assert (G : forall ns s, fold_left (fun s n => do_ (ASay n) s) ns s = mk_st (irqs s) (calls s ++ map (fun n => (ASay n, irqs s)) ns)).
  { induction ns as [|x ns IH]; intros (i', l'); cbn [fold_left]; [simpl; now rewrite app_nil_r|]. rewrite IH. simpl. now rewrite <- app_assoc. }
  rewrite G. exists (map (fun n => (ASay n, i)) help_names). cbn [irqs calls]. split; [reflexivity|].
  assert (E : said (map (fun n => (ASay n, i)) help_names) = help_names).
  { generalize help_names. induction l0 as [|x l0 IH]; [reflexivity|]. cbn. unfold said in IH. now rewrite IH. }
  rewrite E. split; [reflexivity|]. unfold help_names.
  assert (D : forall ns, (fix nd (l : list (list Z)) := match l with [] => true | x :: l => negb (existsb (same x) l) && nd l end) ns = true -> NoDup ns).
  { induction ns as [|x ns IH]; intro H; [constructor|]. apply andb_true_iff in H as (H1 & H2). constructor; [|now apply IH].
    intro I. apply negb_true_iff in H1. rewrite (proj2 (existsb_exists (same x) ns)) in H1; [discriminate|]. exists x. split; [exact I|now apply same_spec]. }
  apply D. vm_compute. reflexivity.
Qed.
Print Assumptions C133_help.

(** anything else is refused, and nothing is called *)
Theorem C133_unknown : forall a rest s, ~ In a (map (fun x => fst (fst x)) manual) -> shell_cmd (a :: rest) s = (s, Ret EINVAL) /\ EINVAL <> 0.
Proof.
  intros a rest s H. split; [|discriminate]. unfold shell_cmd. change (map (fun x => fst (fst x)) manual) with (map fst subcommands) in H.
  apply find_none in H. now rewrite H.
Qed.
Print Assumptions C133_unknown.

(** ** What does not hold: "Trigger a user initiated reboot and confirm reason is persisted" *)
Theorem C133_reboot_reason_refuted : ~ (forall rest s s' o, shell_cmd (str "reboot" :: rest) s = (s', o) -> exists i, In (AMarkReset, i) (calls s')).
Proof.
  intro H. destruct (H [] (mk_st true []) _ _ eq_refl) as (i & I). vm_compute in I. destruct I as [I|[]]. discriminate.
Qed.
Print Assumptions C133_reboot_reason_refuted.

(** ** Example *)
Example C133_case : shell_cmd [str "coredump_storage"; str "x"] (mk_st true []) = (mk_st true [(AStorageBegin, false); (AStorageFinish, true)], Ret 0)
  /\ shell_cmd [str "coredump"] (mk_st true []) = (mk_st true [], Ret (-2)).
Proof. split; reflexivity. Qed.
