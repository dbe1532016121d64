(** C131: what the GDB script sends of a coredump and its symbols, when, and where to. *)
From Coq Require Import String Ascii.
From Verif Require Import Base GdbCoredump GdbTarget GdbUpload GdbUploadSpec GdbUploadProofs.
Open Scope string_scope. Open Scope list_scope. Open Scope Z_scope.

Lemma populate_run n o g l : populate n o g l = (l, Val (effective o g)).
Proof.
  unfold populate. cbn [g_email]. replace (same_text (over (o_email o) (g_email g)) (over (o_email o) (g_email g))) with true; [reflexivity|].
  unfold same_text. destruct (over (o_email o) (g_email g)); [now rewrite String.eqb_refl|reflexivity].
Qed.
Lemma coredump_run n md5 split stored a o j g : exists t x, coredump n md5 split stored a o j g [] = (t, x) /\
  (t = [] \/ run_trace md5 split j (effective o g) t).
Proof.
  unfold coredump. destruct (fst (permission stored a)); cbn [negb].
  2:{ exists [], (Val (None, g)). split; [reflexivity|now left]. }
  unfold seq at 1; cbv beta; rewrite populate_run. destruct (send_run n md5 split j (effective o g)) as (t & x & S & R). unfold seq. rewrite S.
  destruct x; eexists; eexists; (split; [reflexivity|]); now right.
Qed.

(** nothing is sent before permission is given *)
Theorem C131_permission : forall n md5 split a o j g l, ~ In 121 a -> ~ In 89 a ->
  coredump n md5 split false a o j g l = (l, Val (None, g)).
Proof.
  intros n md5 split a o j g l L U. unfold coredump, permission, upper_has_y.
  destruct (existsb _ a) eqn:E; [|reflexivity]. apply existsb_exists in E as (c & C & E). apply orb_true_iff in E as [E|E]; apply Z.eqb_eq in E; subst; contradiction.
Qed.
Print Assumptions C131_permission.

Ltac peel := repeat match goal with
  | H : _ :: _ = _ ++ _ :: _ |- _ => apply split_cons in H as [(-> & -> & ->)|(? & -> & H)]
  | H : [] = ?p ++ _ :: _ |- _ => destruct p; discriminate H
  end.
Ltac shape H := inversion H as [|sa sb sc sk SA SB SC HT]; clear H; subst; [|
    destruct SA as [->|(NS & CA & SA)]; [|inversion SA; subst; clear SA]; destruct SB as [(-> & SB)|(rk & GK & CK & -> & SB)]; inversion SC; subst; clear SC]; cbn [app] in *.

(** the coredump is the last thing sent, once, to the address for uploads, with the key given or the one the server gave, without
    the password; it is the one written for the version that has the hash of the file of symbols in it *)
Theorem C131_coredump : forall n md5 split stored a o j g t x, coredump n md5 split stored a o j g [] = (t, x) ->
  forall pre e post, t = pre ++ e :: post -> q_key (fst e) <> None ->
    post = [] /\ exists b k, fst e = mk_req "POST" (chosen (o_ingress o) (g_ingress g)) "/api/v0/upload/coredump" None (Some k) (CBytes b) /\
    j_core j (j_version j ++ "-md5+" ++ substring 0 8 (md5 (j_elf j))) = Some b /\ k <> "" /\
    (j_key j = Some k \/ (j_key j = None \/ j_key j = Some "") /\ in_project (effective o g) /\ exists e', In e' pre /\ answered_with e' "api_key" (JStr k)).
Proof.
  intros n md5 split stored a o j g t x H pre e post E K. destruct (coredump_run n md5 split stored a o j g) as (t' & x' & H' & R).
  rewrite H in H'. injection H' as <- <-; clear H; destruct R as [->|R]; [destruct pre; discriminate|].
  assert (GK' : forall j, given (j_key j) = false -> j_key j = None \/ j_key j = Some "").
  { intros j0 G. destruct (j_key j0) as [s|]; [|auto]. simpl in G. apply negb_false_iff, String.eqb_eq in G. subst. auto. }
  shape R; peel; cbn [fst q_key q_lookup q_prep q_put q_sym q_getkey q_core] in K; try congruence;
  (split; [reflexivity|]); do 2 eexists; (split; [reflexivity|]); (split; [eassumption|]);
  (destruct SB as [SB|(GK & SB)]; [discriminate|symmetry in SB; pose proof GK as GK2; rewrite SB in GK2; apply given_spec in GK2 as (? & GK2 & ?); injection GK2 as <-; split; [assumption|left; assumption]])
  || (destruct (SB _ eq_refl) as (NE & AN); split; [exact NE|]; right; split; [auto|]; split; [apply can_api_spec, CK|]; eexists; split; [|exact AN]; cbn; auto 10).
Qed.
Print Assumptions C131_coredump.

(** the file of symbols is sent only when logged in and not turned off, after the server did not say it has it, to the address the
    server gave and without password or key *)
Theorem C131_symbols : forall n md5 split stored a o j g t x, coredump n md5 split stored a o j g [] = (t, x) ->
  forall pre e post, t = pre ++ e :: post -> q_method (fst e) = "PUT" ->
    exists b p, fst e = mk_req "PUT" b p None None (CBytes (j_elf j)) /\ j_no_symbols j = false /\ in_project (effective o g) /\
    exists e1 e2 u tok, pre = [e1; e2] /\ ~ says_has_symbols e1 /\ answered_with e2 "token" tok /\ answered_with e2 "upload_url" (JStr u) /\ split u = Some (b, p).
Proof.
  intros n md5 split stored a o j g t x H pre e post E K. destruct (coredump_run n md5 split stored a o j g) as (t' & x' & H' & R).
  rewrite H in H'. injection H' as <- <-; clear H; destruct R as [->|R]; [destruct pre; discriminate|].
  shape R; peel; cbn [fst q_method q_lookup q_prep q_put q_sym q_getkey q_core] in K; try discriminate;
  do 2 eexists; (split; [reflexivity|]); (split; [assumption|]); (split; [apply can_api_spec, CA|]);
  match goal with G : gives _ _ _ _ |- _ => destruct G as (G1 & G2); do 4 eexists; split; [reflexivity|]; split; [eassumption|]; split; [exact G1|]; split; [exact G2|assumption] end.
Qed.
Print Assumptions C131_symbols.

(** symbols are registered only once their file is accepted, under the token it was sent for and the version of the coredump *)
Theorem C131_registered : forall n md5 split stored a o j g t x, coredump n md5 split stored a o j g [] = (t, x) ->
  forall pre e post tok ty v, t = pre ++ e :: post -> q_body (fst e) = CSymbols tok ty v ->
    ty = j_type j /\ v = (j_version j ++ "-md5+" ++ substring 0 8 (md5 (j_elf j)))%string /\
    exists e1 e2 e3, pre = [e1; e2; e3] /\ answered_with e2 "token" tok /\ q_body (fst e3) = CBytes (j_elf j) /\ accepted e3.
Proof.
  intros n md5 split stored a o j g t x H pre e post tok ty v E K. destruct (coredump_run n md5 split stored a o j g) as (t' & x' & H' & R).
  rewrite H in H'. injection H' as <- <-; clear H; destruct R as [->|R]; [destruct pre; discriminate|].
  shape R; peel; cbn [fst q_body q_lookup q_prep q_put q_sym q_getkey q_core] in K; try discriminate;
  injection K as <- <- <-; (split; [reflexivity|]); (split; [reflexivity|]); do 3 eexists; (split; [reflexivity|]);
  match goal with G : gives _ _ _ _ |- _ => destruct G as (G1 & G2); split; [exact G1|]; split; [reflexivity|assumption] end.
Qed.
Print Assumptions C131_registered.

(** the password goes to the address for requests and nowhere else, and no request with it holds memory or symbols *)
Theorem C131_password : forall n md5 split stored a o j g t x, coredump n md5 split stored a o j g [] = (t, x) ->
  forall e, In e t -> q_auth (fst e) <> None -> q_base (fst e) = chosen (o_api o) (g_api g) /\ q_key (fst e) = None /\
    (forall b, q_body (fst e) <> CBytes b) /\ in_project (effective o g).
Proof.
  intros n md5 split stored a o j g t x H e E K. destruct (coredump_run n md5 split stored a o j g) as (t' & x' & H' & R).
  rewrite H in H'. injection H' as <- <-; clear H; destruct R as [->|R]; [destruct E|].
  shape R; cbn [In] in E;
  repeat (destruct E as [<-|E]; [cbn [fst q_auth q_lookup q_prep q_put q_sym q_getkey q_core] in K; try (exfalso; apply K; reflexivity);
    (split; [reflexivity|]); (split; [reflexivity|]); (split; [intros ? ?; discriminate|]); apply can_api_spec; assumption|]); destruct E.
Qed.
Print Assumptions C131_password.

(** logging in: one request; the settings change when it is answered with success, and are then the ones given *)
Theorem C131_login : forall n api ingress email password org project g l t x, login n api ingress email password org project g l = (t, x) ->
  exists r, t = l ++ [(mk_req "GET" api "/auth/me" (Some (email, password)) None CNone, r)] /\
  forall g', x = Val g' -> exists p, r = Some p /\
    ((~ success p /\ g' = g) \/
     (success p /\ exists id, g' = mk_config ingress api (Some email) (Some password) org project id)).
Proof.
  intros n api ingress email password org project g l t x H. unfold login, auth_me, http, seq in H. cbn [fmt] in H.
  set (q := mk_req "GET" api "/auth/me" (Some (email, password)) None CNone) in *.
  destruct (n l q) as [p|] eqn:N.
  2:{ injection H as <- <-. exists None. split; [reflexivity|]. discriminate. }
  destruct (ok2 (p_status p)) eqn:K.
  - apply ok2_spec in K. unfold of_opt in H. destruct (do j <- p_json p; item "id" j) as [id|]; injection H as <- <-; exists (Some p); (split; [reflexivity|]).
    + intros g' E. injection E as <-. exists p. split; [reflexivity|]. right. split; [exact K|eauto].
    + discriminate.
  - injection H as <- <-. exists (Some p). split; [reflexivity|]. intros g' E. injection E as <-. exists p. split; [reflexivity|]. left. split; [|reflexivity].
    intro S. apply ok2_spec in S. congruence.
Qed.
Print Assumptions C131_login.

Lemma wf_has split n g ty v l : well_formed split n -> exists r b, has_symbols n g ty v l = (l ++ [(q_lookup g ty v, r)], Val b).
Proof.
  intro W. destruct (W l (q_lookup g ty v)) as (p & N & G). unfold has_symbols, http_api, http, seq. cbu.
  change (mk_req "GET" (g_api g) (version_path g ty v) (Some (fmt (g_email g), fmt (g_password g))) None CNone) with (q_lookup g ty v).
  rewrite N. cbu. destruct (ok2 (p_status p)) eqn:K; [|do 2 eexists; reflexivity]. cbn [negb]. apply ok2_spec in K.
  destruct (G K) as (o & d & J & D & _ & SF); [discriminate|]. unfold data. rewrite J. cbn [bind]. cbn [item]. rewrite D. cbn [of_opt ret].
  destruct (truthy (JObj d)); cbn [negb]; [|do 2 eexists; reflexivity]. cbn [getk].
  destruct SF as [->|[->|(f & ->)]]; cbn [of_opt ret]; [do 2 eexists; reflexivity..|].
  destruct (truthy (JObj f)); cbn [negb]; [|do 2 eexists; reflexivity]. cbn [getk of_opt ret]. do 2 eexists. reflexivity.
Qed.
Lemma wf_upload split n g elf ty v l : well_formed split n -> exists t x, upload_symbol_file n split g elf ty v l = (l ++ t, x) /\ x <> Exn.
Proof.
  intro W. unfold upload_symbol_file, upload_file, prepared, http_api, http, seq, check. cbu.
  change (mk_req "POST" (g_api g) (project_path g ++ "/upload") (Some (fmt (g_email g), fmt (g_password g))) None CNone) with (q_prep g).
  destruct (W l (q_prep g)) as (p & N & G). rewrite N. cbu.
  destruct (ok2 (p_status p)) eqn:K; cbu.
  2:{ eexists; eexists; split; [reflexivity|discriminate]. }
  apply ok2_spec in K. destruct (G K) as (o & d & J & D & (t & u & (b, pa) & T & U & S) & _); [discriminate|].
  unfold data. rewrite J. cbn [bind item]. rewrite D. cbn [of_opt ret item]. rewrite T. cbn [of_opt ret item]. rewrite U. cbn [of_opt ret item snd]. rewrite S. cbu.
  cbn [of_opt ret fst snd].
  match goal with |- context [n ?l ?q] => destruct (W l q) as (p3 & N3 & _); rewrite N3 end. cbu.
  destruct (ok2 (p_status p3)); cbu.
  2:{ eexists; eexists; split; [rewrite <- app_assoc; reflexivity|discriminate]. }
  match goal with |- context [n ?l ?q] => destruct (W l q) as (p4 & N4 & _); rewrite N4 end. cbu.
  destruct (ok2 (p_status p4)); cbu; eexists; eexists; (split; [rewrite <- !app_assoc; reflexivity|discriminate]).
Qed.
(** whatever becomes of the symbols, the coredump is sent, the answers being in their form *)
Theorem C131_survives : forall n md5 split stored o j g k b, well_formed split n -> stored = true -> j_key j = Some k -> k <> "" -> j_captured j = true ->
  j_core j (j_version j ++ "-md5+" ++ substring 0 8 (md5 (j_elf j)))%string = Some b ->
  exists pre r s, coredump n md5 split stored [] o j g [] =
    (pre ++ [(mk_req "POST" (chosen (o_ingress o) (g_ingress g)) "/api/v0/upload/coredump" None (Some k) (CBytes b), Some r)], Val (Some s, effective o g)).
Proof.
  intros n md5 split stored o j g k b W -> KK NE CP CO. unfold coredump. cbn [permission fst negb]. unfold seq at 1. rewrite populate_run. unfold seq at 1, send.
  rewrite CP, KK. assert (GK : given (Some k) = true) by (apply given_spec; eauto). rewrite GK. cbn [negb]. rewrite andb_false_r. cbv zeta.
  assert (S1 : exists a, (if j_no_symbols j then ret tt else if can_api (effective o g)
      then upload_symbols n split (effective o g) (j_elf j) (j_type j) (full_version md5 j) else ret tt) [] = (a, Val tt)).
  { destruct (j_no_symbols j); [eexists; reflexivity|]. destruct (can_api _); [|eexists; reflexivity].
    unfold upload_symbols, seq. destruct (wf_has split n (effective o g) (j_type j) (full_version md5 j) [] W) as (r & h & H). rewrite H.
    destruct h; [eexists; reflexivity|]. match goal with |- context [upload_symbol_file n split ?g' ?f ?y ?w ?l] => destruct (wf_upload split n g' f y w l W) as (t & x & U & NX) end.
    rewrite U. destruct x; [eexists; reflexivity..|congruence]. }
  destruct S1 as (pre & S1). unfold seq at 1. rewrite S1. unfold seq at 1. cbn [ret]. unfold seq at 1, of_opt, full_version. rewrite CO. cbn [ret].
  unfold post_coredump, seq, http. match goal with |- context [n ?l ?q] => destruct (W l q) as (p & N & _); rewrite N end.
  cbn [ret]. exists pre, p, (p_status p). reflexivity.
Qed.
Print Assumptions C131_survives.

(** the link shown leads to the project, for the address that is set at first *)
Theorem C131_link : forall api e p o j u, issues_url (mk_config "https://ingress.memfault.com" api e p (Some o) (Some j) u) =
  Some ("https://app.memfault.com/organizations/" ++ o ++ "/projects/" ++ j ++ "/issues?live")%string.
Proof. intros. reflexivity. Qed.
Print Assumptions C131_link.

(** ** What does not hold *)

Definition no_opts := mk_opts None None None None None None.
Definition as_user e := mk_opts (Some e) None None None None None.
Definition alice := mk_config "https://ingress.memfault.com" "https://api.memfault.com" (Some "alice@x") (Some "pw") (Some "org") (Some "proj") (JNum 1).
Definition nobody := mk_config "https://ingress.memfault.com" "https://api.memfault.com" None None None None JNull.
Definition accept_all : net := fun _ _ => Some (mk_resp 202 None).
Definition a_job k := mk_job k true "main" "1.0.0" [1;2;3] true (fun _ => Some [9;9]).
Definition a_md5 (l : list Z) : string := "0123456789abcdef".
Definition no_split (u : string) : option (string * string) := None.

(** "If the user overrides the email, we need to re-auth to get the new user ID" *)
Theorem C131_new_user_refuted : ~ (forall n md5 split a o j g t x, coredump n md5 split true a o j g [] = (t, x) ->
  o_email o <> None -> o_email o <> g_email g -> exists e, In e t /\ q_path (fst e) = "/auth/me").
Proof.
  intro H. destruct (H accept_all a_md5 no_split [] (as_user "bob@x") (a_job (Some "key")) alice _ _ eq_refl) as (e & E & P); [discriminate|discriminate|].
  vm_compute in E. destruct E as [<-|[]]. discriminate.
Qed.
Print Assumptions C131_new_user_refuted.

(** an option given to one command holds for that command *)
Theorem C131_options_pass_refuted : ~ (forall n md5 split a o j g t s g', coredump n md5 split true a o j g [] = (t, Val (s, g')) -> g' = g).
Proof. intro H. specialize (H accept_all a_md5 no_split [] (as_user "bob@x") (a_job (Some "key")) alice _ _ _ eq_refl). discriminate. Qed.
Print Assumptions C131_options_pass_refuted.

(** the path under which a version is looked up has the version as its last part *)
Theorem C131_version_path_refuted : ~ (forall g ty v, version_arg v = true -> no_slash (fmt (g_org g)) -> no_slash (fmt (g_project g)) -> no_slash ty ->
  parts (version_path g ty v) "" = [""; "api"; "v0"; "organizations"; fmt (g_org g); "projects"; fmt (g_project g); "software_types"; ty; "software_versions"; v]).
Proof. intro H. specialize (H alice "main" "1/2" eq_refl eq_refl eq_refl eq_refl). vm_compute in H. discriminate. Qed.
Print Assumptions C131_version_path_refuted.

(** after an upload the link leads to a project *)
Theorem C131_link_refuted : ~ (forall n md5 split j g t s u, send n md5 split j g [] = (t, Val (Some s)) -> ok2 s = true -> issues_url g = Some u -> g_project g <> None).
Proof. intro H. exact (H accept_all a_md5 no_split (a_job (Some "key")) nobody _ _ _ eq_refl eq_refl eq_refl eq_refl). Qed.
Print Assumptions C131_link_refuted.

(** an answer without its JSON keeps the coredump from being sent *)
Theorem C131_survives_refuted : ~ (forall n md5 split j g t x, (forall l q, n l q <> None) -> given (j_key j) = true -> j_captured j = true ->
  (forall v, j_core j v <> None) -> send n md5 split j g [] = (t, x) -> exists e, In e t /\ q_key (fst e) <> None).
Proof.
  intro H. specialize (H accept_all a_md5 no_split (mk_job (Some "key") false "main" "1.0.0" [1;2;3] true (fun _ => Some [9;9])) alice).
  destruct (send accept_all a_md5 no_split (mk_job (Some "key") false "main" "1.0.0" [1;2;3] true (fun _ => Some [9;9])) alice []) as (t, x) eqn:S.
  destruct (H t x) as (e & E & K); [discriminate|reflexivity|reflexivity|discriminate|reflexivity|]. vm_compute in S. injection S as <- <-.
  destruct E as [<-|[]]. apply K. reflexivity.
Qed.
Print Assumptions C131_survives_refuted.

(** ** Examples *)
Definition obj1 k v := JObj [(k, v)].
Definition server : net := fun _ q =>
  if (q_method q =? "PUT")%string then Some (mk_resp 200 None)
  else if (q_path q =? "/api/v0/organizations/org/projects/proj/upload")%string then
    Some (mk_resp 200 (Some (obj1 "data" (JObj [("token", JStr "T1"); ("upload_url", JStr "https://store/x")]))))
  else if (q_path q =? "/api/v0/organizations/org/projects/proj/api_key")%string then Some (mk_resp 200 (Some (obj1 "data" (obj1 "api_key" (JStr "K1")))))
  else if (q_path q =? "/api/v0/organizations/org/projects/proj/symbols")%string then Some (mk_resp 200 None)
  else if (q_path q =? "/api/v0/upload/coredump")%string then Some (mk_resp 202 None)
  else Some (mk_resp 404 None).
Definition full_job := mk_job None false "main" "1.0.0" [1;2;3] true (fun _ => Some [9;9]).
Definition store (u : string) := Some ("https://store", "/x").
(** logged in, no symbols there: looked up, address asked for, file put, registered, key asked for, coredump sent *)
Example C131_case : (let (t, x) := coredump server a_md5 store false [121] no_opts full_job alice [] in
    (map (fun e => (q_method (fst e), q_path (fst e), q_key (fst e))) t, x)) =
  ([("GET", "/api/v0/organizations/org/projects/proj/software_types/main/software_versions/1.0.0-md5+01234567", None);
    ("POST", "/api/v0/organizations/org/projects/proj/upload", None);
    ("PUT", "/x", None);
    ("POST", "/api/v0/organizations/org/projects/proj/symbols", None);
    ("GET", "/api/v0/organizations/org/projects/proj/api_key", None);
    ("POST", "/api/v0/upload/coredump", Some "K1")], Val (Some 202, alice)).
Proof. vm_compute. reflexivity. Qed.
(** symbols already there, and a key given: looked up, coredump sent *)
Example C131_case_there : (let (t, x) := send (fun _ q => Some (mk_resp 200 (Some (obj1 "data" (obj1 "symbol_file" (obj1 "downloadable" (JBool true)))))))
      a_md5 store (mk_job (Some "K2") false "main" "1.0.0" [1] true (fun _ => Some [9])) alice [] in (map (fun e => (q_method (fst e), q_key (fst e))) t, x)) =
  ([("GET", None); ("POST", Some "K2")], Val (Some 200)).
Proof. vm_compute. reflexivity. Qed.
Example C131_case_login : snd (login (fun _ _ => Some (mk_resp 200 (Some (obj1 "id" (JNum 7))))) "https://a" "https://i" "e" "p" None (Some "pr") nobody []) =
  Val (mk_config "https://i" "https://a" (Some "e") (Some "p") None (Some "pr") (JNum 7)).
Proof. reflexivity. Qed.
