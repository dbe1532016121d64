From Coq Require Import String Ascii.
From Verif Require Import Base GdbCoredump GdbTarget GdbUpload GdbUploadSpec.
Open Scope string_scope. Open Scope list_scope. Open Scope Z_scope.

Lemma ok2_spec s : ok2 s = true <-> 200 <= s < 300.
Proof. unfold ok2. destruct (Z.ltb_spec s 200), (Z.geb_spec s 300); simpl; split; intro; try discriminate; try reflexivity; lia. Qed.
Lemma given_spec o : given o = true <-> exists s, o = Some s /\ s <> "".
Proof.
  destruct o as [s|]; simpl; [destruct (String.eqb_spec s "") as [E|E]; simpl|]; split; intro H; try discriminate; eauto.
  - destruct H as (x & A & B). congruence.
  - destruct H as (x & A & B). discriminate.
Qed.
Lemma can_api_spec g : can_api g = true <-> logged_in (g_email g) (g_password g) (g_org g) (g_project g).
Proof.
  unfold can_api, logged_in. rewrite !andb_true_iff, !given_spec. split.
  - intros (((( e & A & A') & (p & B & B')) & (j & C & C')) & (o & D & D')). exists e, p, o, j. auto 10.
  - intros (e & p & o & j & A & B & C & D & A' & B' & C' & D'). repeat split; eauto.
Qed.

Ltac cbu := cbn -[data of_opt project_path version_path append ok2 truthy item getk].
Section P.
Variable n : net.
Variable split : string -> option (string * string).
Variables (g : config) (elf : list Z) (ty v : string).
Let auth := Some (fmt (g_email g), fmt (g_password g)).
Definition q_lookup := mk_req "GET" (g_api g) (version_path g ty v) auth None CNone.
Definition q_prep := mk_req "POST" (g_api g) (project_path g ++ "/upload") auth None CNone.
Definition q_put (b p : string) := mk_req "PUT" b p None None (CBytes elf).
Definition q_sym t := mk_req "POST" (g_api g) (project_path g ++ "/symbols") auth None (CSymbols t ty v).
Definition q_getkey := mk_req "GET" (g_api g) (project_path g ++ "/api_key") auth None CNone.

Definition gives (r : option resp) (t u : json) : Prop := answered_with (q_prep, r) "token" t /\ answered_with (q_prep, r) "upload_url" u.

Inductive sym_trace : list entry -> Prop :=
| st1 r : sym_trace [(q_lookup, r)]
| st2 r r2 : ~ says_has_symbols (q_lookup, r) -> sym_trace [(q_lookup, r); (q_prep, r2)]
| st3 r r2 r3 t u b p : ~ says_has_symbols (q_lookup, r) -> gives r2 t (JStr u) -> split u = Some (b, p) ->
    sym_trace [(q_lookup, r); (q_prep, r2); (q_put b p, r3)]
| st4 r r2 r3 r4 t u b p : ~ says_has_symbols (q_lookup, r) -> gives r2 t (JStr u) -> split u = Some (b, p) -> accepted (q_put b p, r3) ->
    sym_trace [(q_lookup, r); (q_prep, r2); (q_put b p, r3); (q_sym t, r4)].

Lemma item_inv k j x : item k j = Some x -> exists l, j = JObj l /\ look k l = Some x.
Proof. destruct j; simpl; intro H; try discriminate. eauto. Qed.
Lemma data_inv p l l' d : data p l = (l', Val d) -> l' = l /\ exists o, p_json p = Some (JObj o) /\ look "data" o = Some d.
Proof.
  unfold data, of_opt. destruct (p_json p) as [j|]; simpl; [|discriminate]. destruct (item "data" j) eqn:E; [|discriminate].
  intro H. injection H as <- <-. apply item_inv in E as (o & -> & E). eauto.
Qed.
Lemma data_log p l : exists r, data p l = (l, r) /\ r <> Api.
Proof. unfold data, of_opt. destruct (do j <- p_json p; item "data" j); eexists; split; try reflexivity; discriminate. Qed.

Lemma has_run l : exists r x, has_symbols n g ty v l = (l ++ [(q_lookup, r)], x) /\ x <> Api /\ (x = Val false -> ~ says_has_symbols (q_lookup, r))
  /\ (x = Val true -> says_has_symbols (q_lookup, r)).
Proof.
  unfold has_symbols, http_api, http, seq. cbn -[data of_opt version_path q_lookup].
  change (mk_req "GET" (g_api g) (version_path g ty v) (Some (fmt (g_email g), fmt (g_password g))) None CNone) with q_lookup.
  destruct (n l q_lookup) as [p|] eqn:N; cbn -[data of_opt project_path q_lookup q_prep q_getkey append ok2 truthy item getk].
  2:{ exists None, Exn. split; [reflexivity|split; [discriminate|split; discriminate]]. }
  destruct (ok2 (p_status p)) eqn:K; simpl.
  2:{ exists (Some p), (Val false). split; [reflexivity|split; [discriminate|split; [|discriminate]]]. intros _ (f & b & (p' & o & d & A & S & _) & _). simpl in A. injection A as <-.
      apply ok2_spec in S. congruence. }
  destruct (data p (l ++ [(q_lookup, Some p)])) as (l', x) eqn:D. destruct (data_log p (l ++ [(q_lookup, Some p)])) as (x' & D' & NA).
  rewrite D' in D. injection D as <- <-.
  destruct x' as [d| |]; [|congruence|].
  2:{ exists (Some p), Exn. split; [reflexivity|split; [discriminate|split; discriminate]]. }
  apply data_inv in D' as (_ & o & J & L).
  destruct (truthy d) eqn:T; simpl.
  2:{ exists (Some p), (Val false). split; [reflexivity|split; [discriminate|split; [|discriminate]]]. intros _ (f & b & (p' & o' & d' & A & S & J' & L' & X) & _). simpl in A. injection A as <-.
      rewrite J in J'. injection J' as <-. rewrite L in L'. injection L' as ->. destruct d'; [discriminate X|discriminate T]. }
  destruct (getk "symbol_file" d) as [f|] eqn:F; simpl.
  2:{ exists (Some p), Exn. split; [reflexivity|split; [discriminate|split; discriminate]]. }
  destruct d as [| | | | |dl]; try discriminate. cbn [getk] in F. injection F as F.
  destruct (truthy f) eqn:TF; simpl.
  2:{ exists (Some p), (Val false). split; [reflexivity|split; [discriminate|split; [|discriminate]]]. intros _ (f' & b & (p' & o' & d' & A & S & J' & L' & X) & Y & _). simpl in A. injection A as <-.
      rewrite J in J'. injection J' as <-. rewrite L in L'. injection L' as <-. rewrite X in F. subst f. destruct f'; [discriminate Y|discriminate TF]. }
  destruct (getk "downloadable" f) as [b|] eqn:B; simpl.
  2:{ exists (Some p), Exn. split; [reflexivity|split; [discriminate|split; discriminate]]. }
  destruct f as [| | | | |fl]; try discriminate. cbn [getk] in B. injection B as B.
  exists (Some p), (Val (truthy b)). split; [reflexivity|split; [discriminate|split]].
  - intros E. injection E as E. intros (f' & b' & (p' & o' & d' & A & S & J' & L' & X) & Y & Z0). simpl in A. injection A as <-.
    rewrite J in J'. injection J' as <-. rewrite L in L'. injection L' as <-. rewrite X in F. injection F as ->. rewrite Y in B. congruence.
  - intros E. injection E as E. exists fl, b. split; [|split; [|exact E]].
    + exists p, o, dl. repeat split; auto; try (apply ok2_spec in K; lia). destruct (look "symbol_file" dl); [congruence|discriminate].
    + destruct (look "downloadable" fl); [congruence|]. subst b. discriminate.
Qed.

Lemma upload_run l : exists t x, upload_symbol_file n split g elf ty v l = (l ++ t, x) /\
  forall r, ~ says_has_symbols (q_lookup, r) -> sym_trace ((q_lookup, r) :: t).
Proof.
  unfold upload_symbol_file, upload_file, prepared, http_api, http, seq, check. cbu.
  change (mk_req "POST" (g_api g) (project_path g ++ "/upload") (Some (fmt (g_email g), fmt (g_password g))) None CNone) with q_prep.
  destruct (n l q_prep) as [p|] eqn:N; cbu.
  2:{ exists [(q_prep, None)], Exn. split; [reflexivity|]. intros. now constructor. }
  destruct (ok2 (p_status p)) eqn:K; cbu.
  2:{ exists [(q_prep, Some p)], Api. split; [reflexivity|]. intros. now constructor. }
  destruct (data_log p (l ++ [(q_prep, Some p)])) as (x & D & NA). rewrite D.
  destruct x as [d| |]; [|congruence|].
  2:{ exists [(q_prep, Some p)], Exn. split; [reflexivity|]. intros. now constructor. }
  apply data_inv in D as (_ & o & J & L).
  destruct (item "token" d) as [t|] eqn:T; cbn [of_opt ret raise]; cbu.
  2:{ exists [(q_prep, Some p)], Exn. split; [reflexivity|]. intros. now constructor. }
  destruct (item "upload_url" d) as [u|] eqn:U; cbn [of_opt ret raise]; cbu.
  2:{ exists [(q_prep, Some p)], Exn. split; [reflexivity|]. intros. now constructor. }
  destruct (match u with JStr u => split u | _ => None end) as [(b, pa)|] eqn:SP; cbn [of_opt ret raise]; cbu.
  2:{ exists [(q_prep, Some p)], Exn. split; [reflexivity|]. intros. now constructor. }
  destruct u as [| | |u| |]; try discriminate.
  assert (G : gives (Some p) t (JStr u)).
  { apply item_inv in T as (dl & -> & T). simpl in U. apply ok2_spec in K. split; exists p, o, dl; auto 10. }
  change (mk_req "PUT" b pa None None (CBytes elf)) with (q_put b pa).
  destruct (n (l ++ [(q_prep, Some p)]) (q_put b pa)) as [p3|] eqn:N3; cbu.
  2:{ exists [(q_prep, Some p); (q_put b pa, None)], Exn. rewrite <- app_assoc. split; [reflexivity|]. intros. eapply st3; eauto. }
  destruct (ok2 (p_status p3)) eqn:K3; cbu.
  2:{ exists [(q_prep, Some p); (q_put b pa, Some p3)], Api. rewrite <- app_assoc. split; [reflexivity|]. intros. eapply st3; eauto. }
  change (mk_req "POST" (g_api g) (project_path g ++ "/symbols") (Some (fmt (g_email g), fmt (g_password g))) None (CSymbols t ty v)) with (q_sym t).
  assert (AC : accepted (q_put b pa, Some p3)) by (exists p3; apply ok2_spec in K3; auto).
  assert (W : forall r4 x, exists t0 x0, (((l ++ [(q_prep, Some p)]) ++ [(q_put b pa, Some p3)]) ++ [(q_sym t, r4)], x : res unit) = (l ++ t0, x0) /\
     (forall r, ~ says_has_symbols (q_lookup, r) -> sym_trace ((q_lookup, r) :: t0))).
  { intros r4 x. exists [(q_prep, Some p); (q_put b pa, Some p3); (q_sym t, r4)], x. rewrite <- !app_assoc. split; [reflexivity|]. intros. eapply st4; eauto. }
  destruct (n ((l ++ [(q_prep, Some p)]) ++ [(q_put b pa, Some p3)]) (q_sym t)) as [p4|] eqn:N4; cbu; [|apply W].
  destruct (ok2 (p_status p4)); cbu; apply W.
Qed.

Lemma symbols_run l : exists t x, upload_symbols n split g elf ty v l = (l ++ t, x) /\ sym_trace t /\ x <> Api.
Proof.
  unfold upload_symbols, seq. destruct (has_run l) as (r & x & E & NA & F & T). rewrite E. destruct x as [[|]| |]; [| |congruence|].
  - exists [(q_lookup, r)], (Val tt). repeat split; [constructor|discriminate].
  - destruct (upload_run (l ++ [(q_lookup, r)])) as (t & x & U & S). rewrite U. exists ((q_lookup, r) :: t). rewrite <- app_assoc.
    destruct x; eexists; repeat split; try discriminate; apply S, F; reflexivity.
  - exists [(q_lookup, r)], Exn. repeat split; [constructor|discriminate].
Qed.

Lemma key_run l : exists r x, project_key n g l = (l ++ [(q_getkey, r)], x) /\ x <> Api /\
  forall k, x = Val (Some k) -> k <> "" /\ answered_with (q_getkey, r) "api_key" (JStr k).
Proof.
  unfold project_key, http_api, http, seq. cbn -[data of_opt project_path q_getkey append].
  change (mk_req "GET" (g_api g) (project_path g ++ "/api_key") (Some (fmt (g_email g), fmt (g_password g))) None CNone) with q_getkey.
  destruct (n l q_getkey) as [p|] eqn:N; cbn -[data of_opt project_path q_lookup q_prep q_getkey append ok2 truthy item getk].
  2:{ exists None, Exn. repeat split; discriminate. }
  destruct (ok2 (p_status p)) eqn:K; cbn [of_opt ret raise negb]; cbu.
  2:{ exists (Some p), (Val None). repeat split; discriminate. }
  destruct (data_log p (l ++ [(q_getkey, Some p)])) as (x & D & NA). rewrite D.
  destruct x as [d| |]; [|congruence|].
  2:{ exists (Some p), Exn. repeat split; discriminate. }
  apply data_inv in D as (_ & o & J & L).
  destruct (item "api_key" d) as [k|] eqn:A; cbn [of_opt ret raise negb]; cbu.
  2:{ exists (Some p), Exn. repeat split; discriminate. }
  destruct (truthy k) eqn:T; cbn [of_opt ret raise negb]; cbu.
  2:{ exists (Some p), (Val None). repeat split; discriminate. }
  apply item_inv in A as (dl & -> & A). apply ok2_spec in K.
  destruct k; try (exists (Some p), Exn; repeat split; discriminate).
  exists (Some p), (Val (Some s)). split; [reflexivity|]. split; [discriminate|]. intros k E. injection E as <-. split.
  - intros ->. discriminate.
  - exists p, o, dl. auto 10.
Qed.
End P.

(** ** the parts of a run *)
Section R.
Variables (n : net) (md5 : list Z -> string) (split : string -> option (string * string)) (j : job) (g : config).
Definition q_core b k := mk_req "POST" (g_ingress g) "/api/v0/upload/coredump" None (Some k) (CBytes b).
Inductive core_trace (k : option string) : list entry -> Prop :=
| ct0 : core_trace k []
| ct1 k' b r : k = Some k' -> j_core j (full_version md5 j) = Some b -> core_trace k [(q_core b k', r)].
Inductive run_trace : list entry -> Prop :=
| rt0 : run_trace []
| rt_intro a b c k : (a = [] \/ (j_no_symbols j = false /\ can_api g = true /\ sym_trace split g (j_elf j) (j_type j) (full_version md5 j) a)) ->
    (b = [] /\ (k = None \/ given (j_key j) = true /\ k = j_key j) \/
     exists r, given (j_key j) = false /\ can_api g = true /\ b = [(q_getkey g, r)] /\
               forall k', k = Some k' -> k' <> "" /\ answered_with (q_getkey g, r) "api_key" (JStr k')) ->
    core_trace k c -> run_trace (a ++ b ++ c).

Lemma send_run : exists t x, send n md5 split j g [] = (t, x) /\ run_trace t.
Proof.
  unfold send. cbv zeta. destruct (negb (can_api g) && negb (given (j_key j))) eqn:E1.
  { exists [], (Val None). split; [reflexivity|constructor]. }
  destruct (j_captured j) eqn:CP; cbn [negb].
  2:{ exists [], (Val None). split; [reflexivity|constructor]. }
  assert (S1 : exists a x, (if j_no_symbols j then ret tt else if can_api g then upload_symbols n split g (j_elf j) (j_type j) (full_version md5 j) else ret tt) [] = (a, x)
    /\ x <> Api /\ (a = [] \/ (j_no_symbols j = false /\ can_api g = true /\ sym_trace split g (j_elf j) (j_type j) (full_version md5 j) a))).
  { destruct (j_no_symbols j) eqn:NS; [exists [], (Val tt); repeat split; [discriminate|now left]|].
    destruct (can_api g) eqn:CA; [|exists [], (Val tt); repeat split; [discriminate|now left]].
    destruct (symbols_run n split g (j_elf j) (j_type j) (full_version md5 j) []) as (t & x & U & S & NA). rewrite U. exists t, x. repeat split; auto. }
  destruct S1 as (a & x & S1 & NA & SA). cbn [negb]; unfold seq at 1; cbv beta iota; rewrite S1. destruct x as [[]| |]; [|congruence|].
  2:{ exists a, Exn. split; [reflexivity|]. rewrite <- (app_nil_r a). apply (rt_intro a [] [] None); auto using ct0. }
  assert (S2 : exists b x, (if given (j_key j) then ret (j_key j) else project_key n g) a = (a ++ b, x) /\ x <> Api /\
     forall k, (x = Val k \/ x = Exn /\ k = None) -> (b = [] /\ (k = None \/ given (j_key j) = true /\ k = j_key j) \/
     exists r, given (j_key j) = false /\ can_api g = true /\ b = [(q_getkey g, r)] /\
               forall k', k = Some k' -> k' <> "" /\ answered_with (q_getkey g, r) "api_key" (JStr k'))).
  { destruct (given (j_key j)) eqn:GK.
    - exists [], (Val (j_key j)). rewrite app_nil_r. split; [reflexivity|split; [discriminate|]]. intros k [E|[E _]]; [injection E as <-|discriminate]. auto.
    - destruct (key_run n g a) as (r & x & K & NA' & KK). exists [(q_getkey g, r)], x. split; [exact K|split; [exact NA'|]]. intros k E. right. exists r.
      apply andb_false_iff in E1 as [E1|E1]; [|discriminate]. apply negb_false_iff in E1. split; [reflexivity|split; [exact E1|split; [reflexivity|]]]. intros k' ->. split.
      + destruct E as [E|[_ E]]; [|discriminate]. exact (proj1 (KK k' E)).
      + destruct E as [E|[_ E]]; [|discriminate]. exact (proj2 (KK k' E)). }
  destruct S2 as (b & x & S2 & NB & SB). unfold seq at 1. rewrite S2. destruct x as [k| |]; [|congruence|].
  2:{ exists (a ++ b), Exn. split; [reflexivity|]. rewrite <- (app_nil_r b). apply (rt_intro a b [] None); auto using ct0. }
  destruct k as [k|].
  2:{ exists (a ++ b), (Val None). split; [reflexivity|]. rewrite <- (app_nil_r b). apply (rt_intro a b [] None); auto using ct0. }
  unfold seq at 1. unfold of_opt. destruct (j_core j (full_version md5 j)) as [body|] eqn:C.
  2:{ exists (a ++ b), Exn. split; [reflexivity|]. rewrite <- (app_nil_r b). apply (rt_intro a b [] (Some k)); auto using ct0. }
  unfold post_coredump, seq, http, ret. fold (q_core body k).
  exists ((a ++ b) ++ [(q_core body k, n (a ++ b) (q_core body k))]).
  destruct (n (a ++ b) (q_core body k)) as [p|]; eexists; (split; [reflexivity|]); rewrite <- app_assoc; eapply rt_intro; eauto; now constructor.
Qed.
End R.

Lemma split_cons {A} (x e : A) l pre post : x :: l = pre ++ e :: post -> pre = [] /\ e = x /\ post = l \/ exists pre', pre = x :: pre' /\ l = pre' ++ e :: post.
Proof. destruct pre as [|y pre]; simpl; intro H; injection H as -> H; [left; auto|right; eauto]. Qed.
