From Coq Require Import String.
From Verif Require Import Base HttpUtils HttpUtilsSpec HttpUtilsProofs HttpUriProofs HttpRequest HttpRequestSpec.

(** A run of messages from [ms]: what was sent and whether all were accepted. *)
Definition sent_of (ok : nat -> bool) (sent ms : list (list Z)) (r : bool * list (list Z)) : Prop :=
  exists ms', snd r = sent ++ ms' /\
    (fst r = true -> ms' = ms /\ forall i, (length sent <= i < length (sent ++ ms'))%nat -> ok i = true) /\
    (fst r = false -> (exists tail, ms = ms' ++ tail) /\ exists i, (length sent <= i < length (sent ++ ms'))%nat /\ ok i = false).

Lemma writes_ok ok ms : forall sent, sent_of ok sent ms (writes ok sent ms).
Proof.
  induction ms as [|m r IH]; intros sent; cbn [writes].
  - exists []. cbn. rewrite app_nil_r. split; [easy|]. split; [|easy]. intros _. split; [easy|]. intros i H. lia.
  - destruct (ok (length sent)) eqn:E.
    + destruct (IH (sent ++ [m])) as [ms' [E1 [E2 E3]]]. exists (m :: ms').
      rewrite E1, <- app_assoc. split; [easy|].
      assert (LN : length (sent ++ m :: ms') = length ((sent ++ [m]) ++ ms')) by (rewrite <- app_assoc; easy).
      rewrite LN. rewrite (app_length sent [m]) in E2, E3. cbn [length] in E2, E3.
      split.
      * intros T. destruct (E2 T) as [-> H]. split; [easy|]. intros i HI.
        destruct (Nat.eq_dec i (length sent)) as [->|]; [easy|]. apply H. lia.
      * intros F. destruct (E3 F) as [[tail ->] [i [HI OI]]]. split; [exists tail; easy|]. exists i. split; [lia|easy].
    + exists [m]. cbn [fst snd]. split; [easy|]. split; [easy|]. intros _. split; [exists r; easy|].
      exists (length sent). split; [rewrite app_length; cbn; lia|easy].
Qed.
Lemma sent_and ok sent ms1 ms2 a k : sent_of ok sent ms1 a ->
  (forall s, s = sent ++ ms1 -> sent_of ok s ms2 (k s)) -> sent_of ok sent (ms1 ++ ms2) (w_and a k).
Proof.
  intros [m1 [E1 [E2 E3]]] K. destruct a as [b s]. cbn [fst snd w_and] in *. subst s. destruct b.
  - destruct (E2 eq_refl) as [-> H]. destruct (K _ eq_refl) as [m2 [F1 [F2 F3]]]. exists (ms1 ++ m2).
    rewrite F1, <- app_assoc. split; [easy|].
    rewrite <- app_assoc in F2, F3. split.
    + intros T. destruct (F2 T) as [-> G]. split; [easy|]. intros i HI.
      destruct (Nat.lt_ge_cases i (length (sent ++ ms1))) as [L|L]; [apply H; lia|apply G; lia].
    + intros F. destruct (F3 F) as [[tail ->] [i [HI OI]]]. split; [exists tail; rewrite <- app_assoc; easy|].
      exists i. split; [|easy]. rewrite app_length in HI. rewrite app_length in *. lia.
  - destruct (E3 eq_refl) as [[tail ->] [i [HI OI]]]. exists m1. cbn [fst snd]. split; [easy|]. split; [easy|]. intros _. split; [exists (tail ++ ms2); rewrite <- app_assoc; easy|]. eauto.
Qed.
Lemma sent_sends ok ms r : sent_of ok [] ms r -> sends ok (concat ms) r.
Proof.
  intros [m [E [A B]]]. destruct r as [b s]. cbn [fst snd app length] in *. subst s. unfold sends. split.
  - intros T. destruct (A T) as [-> H]. split; [easy|]. intros i L. apply H. lia.
  - intros F. destruct (B F) as [[tail ->] [i [HI OI]]]. split; [exists (concat tail); apply concat_app|]. exists i. split; [lia|easy].
Qed.

(** ** Decimal numbers *)
Lemma dec_value_app ds c : dec_value (ds ++ [c]) = dec_value ds * 10 + (c - 48).
Proof. unfold dec_value. rewrite fold_left_app. easy. Qed.
Lemma print_dec_ok f v : 0 <= v < 10 ^ Z.of_nat f -> (0 < f)%nat -> decimal_text v (print_dec f v) /\ zlen (print_dec f v) <= Z.of_nat f.
Proof.
  revert v. induction f as [|f IH]; intros v V F; [lia|]. cbn [print_dec].
  destruct (Z.ltb_spec v 10) as [L|L].
  - split; [|change (zlen [48 + v]) with 1; lia]. split; [constructor; [lia|constructor]|].
    split; [unfold dec_value; cbn; lia|]. destruct (Z.eq_dec v 0) as [->|N]; [left; easy|right; exists (48 + v), []; split; [easy|lia]].
  - assert (F1 : (0 < f)%nat).
    { destruct f; [|lia]. change (10 ^ Z.of_nat 1) with 10 in V. lia. }
    rewrite Nat2Z.inj_succ, Z.pow_succ_r in V by lia.
    destruct (IH (v / 10)) as [[D [E N]] LN].
    + split; [apply Z.div_pos; lia|apply Z.div_lt_upper_bound; lia].
    + easy.
    + pose proof (Z.mod_pos_bound v 10 ltac:(lia)) as M. pose proof (Z.div_mod v 10 ltac:(lia)) as DM.
      split; [|rewrite zlen_app; change (zlen [48 + v mod 10]) with 1; lia]. split; [apply Forall_app; split; [exact D|constructor; [lia|constructor]]|].
      split; [rewrite dec_value_app, E; lia|]. right.
      destruct N as [N|[c [r [N NC]]]]; [|exists c, (r ++ [48 + v mod 10]); rewrite N; easy].
      exfalso. rewrite N in E. unfold dec_value in E. cbn in E. pose proof (Z.div_le_lower_bound v 10 1 ltac:(lia) ltac:(lia)). lia.
Qed.

Lemma post_ok ok serial host key len : 0 <= len < 2 ^ 31 ->
  (zlen serial <= 68 -> exists ds, decimal_text len ds /\ sends ok (post_request serial host key ds) (start_chunk_post ok serial host key len)) /\
  (68 < zlen serial -> start_chunk_post ok serial host key len = (false, [])).
Proof.
  change (2 ^ 31) with 2147483648. intros L. unfold start_chunk_post, write_msg.
  assert (ZM : zlen (str "POST /api/v0/chunks/" ++ serial ++ str " HTTP/1.1" ++ s_crlf) = 31 + zlen serial).
  { rewrite !zlen_app. change (zlen (str "POST /api/v0/chunks/")) with 20. change (zlen (str " HTTP/1.1")) with 9. change (zlen s_crlf) with 2. lia. }
  split.
  - intros S. rewrite s32_in by lia. unfold print_int. replace (len <? 0) with false by (symmetry; apply Z.ltb_ge; lia).
    destruct (print_dec_ok 10 len) as [D LD]; [change (10 ^ Z.of_nat 10) with 10000000000; lia|lia|].
    set (ds := print_dec 10 len) in *. exists ds. split; [exact D|].
    rewrite ZM. replace (100 <=? 31 + zlen serial) with false by (symmetry; apply Z.leb_gt; lia).
    assert (ZC : zlen (str "Content-Length:" ++ ds ++ s_crlf) = 17 + zlen ds).
    { rewrite !zlen_app. change (zlen (str "Content-Length:")) with 15. change (zlen s_crlf) with 2. lia. }
    rewrite ZC. replace (100 <=? 17 + zlen ds) with false by (symmetry; apply Z.leb_gt; lia).
    match goal with |- sends _ ?q ?r =>
      assert (X : exists ms, sent_of ok [] ms r /\ concat ms = q) end.
    { eexists. split; [apply sent_and; [apply writes_ok|]; intros s1 _; apply sent_and; [apply writes_ok|]; intros s2 _;
        apply sent_and; [apply writes_ok|]; intros s3 _; apply writes_ok|].
      unfold host_hdr, user_agent_hdr, project_key_hdr, post_request, agent, eol, s_crlf.
      rewrite !concat_app. cbn [concat app]. rewrite ?app_nil_r, <- ?app_assoc. cbn [app]. reflexivity. }
    destruct X as [ms [X <-]]. apply sent_sends. exact X.
  - intros S. rewrite ZM. replace (100 <=? 31 + zlen serial) with true by (symmetry; apply Z.leb_le; lia). easy.
Qed.

Lemma cstr_app e rest : Forall (fun c => plain c = true \/ c = 37) e -> cstr (e ++ 0 :: rest) = e.
Proof.
  induction 1 as [|c e C E IH]; cbn; [easy|]. destruct (Z.eqb_spec c 0) as [->|N]; [|rewrite IH; easy].
  exfalso. destruct C as [C|C]; [vm_compute in C; discriminate C|discriminate C].
Qed.
Lemma qparam_ok junk v : zlen junk = 48 -> bytes v ->
  exists rv buf, urlencode v junk = Some (rv, buf) /\
    (param_fits v -> rv = 0 /\ escaped v (cstr buf)) /\ (~ param_fits v -> rv <> 0).
Proof.
  intros J B. destruct (urlencode_ok v junk B) as [rv [out [E [_ [F [_ G]]]]]]. exists rv, out. split; [exact E|].
  unfold param_fits. rewrite J in F. split.
  - intros [A C]. assert (rv = 0) by (apply F; split; [easy|lia]). split; [easy|]. destruct (G H) as [e [-> [_ [D [P _]]]]].
    rewrite cstr_app by easy. split; easy.
  - intros N Z0. apply N. apply F in Z0. split; [easy|lia].
Qed.

Definition qmsgs (ps : list (list Z * list Z)) (es : list (list Z)) : list (list Z) :=
  concat (map (fun x => [[38]; fst (fst x); [61]; snd x]) (combine ps es)).
Lemma qparams_ok ok junk ps : zlen junk = 48 -> Forall (fun p => bytes (snd p)) ps -> forall sent,
  exists r, write_qparams ok sent junk ps = Some r /\
    (Forall (fun p => param_fits (snd p)) ps -> exists es, Forall2 (fun p e => escaped (snd p) e) ps es /\ sent_of ok sent (qmsgs ps es) r) /\
    (~ Forall (fun p => param_fits (snd p)) ps -> fst r = false).
Proof.
  intros J B. induction B as [|[name v] ps Bv B IH]; intros sent; cbn [write_qparams].
  - exists (true, sent). split; [easy|]. split; [|intros N; exfalso; apply N; constructor]. intros _. exists []. split; [constructor|].
    exact (writes_ok ok [] sent).
  - cbn [snd] in Bv. destruct (qparam_ok junk v J Bv) as [rv [buf [E [F1 F2]]]]. rewrite E. cbn [bind].
    destruct (Z.eqb_spec rv 0) as [R|R]; cbn [negb].
    + assert (PF : param_fits v).
      { destruct (list_eq_dec Z.eq_dec v []) as [->|N]; [|].
        - exfalso. apply F2; [|easy]. intros [X _]. easy.
        - destruct (Z.le_gt_cases (encoded_len v) 47); [split; easy|]. exfalso. apply F2; [|easy]. intros [_ X]. lia. }
      destruct (F1 PF) as [_ ES].
      pose proof (writes_ok ok [[38]; name; [61]; cstr buf] sent) as W.
      destruct (writes ok sent [[38]; name; [61]; cstr buf]) as [b s] eqn:EW.
      destruct b.
      * destruct (IH s) as [r [E1 [E2 E3]]]. exists r. split; [exact E1|]. split.
        -- intros A. inv A. destruct (E2 H2) as [es [H3 H4]]. exists (cstr buf :: es). split; [constructor; easy|].
           pose proof (sent_and ok sent [[38]; name; [61]; cstr buf] (qmsgs ps es) (true, s) (fun _ => r) W) as SA.
           cbn [w_and] in SA. apply SA. intros s' ->. destruct W as [ms' [W1 [W2 _]]]. cbn [fst snd] in *.
           destruct (W2 eq_refl) as [-> _]. subst s. exact H4.
        -- intros N. apply E3. intros A. apply N. constructor; easy.
      * exists (false, s). split; [easy|]. split; [|easy]. intros A. inv A.
        assert (ES2 : exists es, Forall2 (fun p e => escaped (snd p) e) ps es).
        { clear - H2 B J. induction B as [|[n w] ps Bw B IH]; [exists []; constructor|]. inv H2. destruct (IH H3) as [es H].
          destruct (qparam_ok junk w J Bw) as [rv [buf [_ [F _]]]]. destruct (F H1) as [_ X]. exists (cstr buf :: es). constructor; easy. }
        destruct ES2 as [es ES2]. exists (cstr buf :: es). split; [constructor; easy|].
        pose proof (sent_and ok sent [[38]; name; [61]; cstr buf] (qmsgs ps es) (false, s) (fun s => writes ok s (qmsgs ps es)) W) as SA.
        apply SA. intros s' _. apply writes_ok.
    + exists (false, sent). split; [easy|]. split; [|easy]. intros A. inv A. cbn [snd] in H1. destruct (F1 H1) as [X _]. easy.
Qed.

Lemma latest_ok ok junk serial hwver swtype swver host key : zlen junk = 48 ->
  bytes serial -> bytes hwver -> bytes swtype -> bytes swver ->
  exists r, get_latest_url ok junk serial hwver swtype swver host key = Some r /\
    (Forall param_fits [serial; hwver; swtype; swver] ->
       exists e1 e2 e3 e4, escaped serial e1 /\ escaped hwver e2 /\ escaped swtype e3 /\ escaped swver e4 /\
         sends ok (latest_request e1 e2 e3 e4 host key) r) /\
    (~ Forall param_fits [serial; hwver; swtype; swver] -> fst r = false).
Proof.
  intros J B1 B2 B3 B4. unfold get_latest_url.
  set (ps := [(str "device_serial", serial); (str "hardware_version", hwver); (str "software_type", swtype); (str "current_version", swver)]).
  set (req1 := [str "GET /api/v0/releases/latest/url?"]).
  assert (BP : Forall (fun p : list Z * list Z => bytes (snd p)) ps) by (repeat (constructor; [easy|]); constructor).
  assert (FP : Forall (fun p : list Z * list Z => param_fits (snd p)) ps <-> Forall param_fits [serial; hwver; swtype; swver]).
  { unfold ps. split; intros H.
    - inv H. inv H3. inv H4. inv H5. cbn [snd] in *. repeat (constructor; [easy|]). constructor.
    - inv H. inv H3. inv H4. inv H5. repeat (constructor; [cbn [snd]; easy|]). constructor. }
  set (tail := [str " HTTP/1.1" ++ s_crlf] ++ host_hdr host ++ user_agent_hdr ++ project_key_hdr key ++ [s_crlf]).
  assert (REQ : forall es, Forall2 (fun p e => escaped (snd p) e) ps es ->
     exists e1 e2 e3 e4, escaped serial e1 /\ escaped hwver e2 /\ escaped swtype e3 /\ escaped swver e4 /\
       concat (req1 ++ qmsgs ps es ++ tail) = latest_request e1 e2 e3 e4 host key).
  { intros es H. inv H. inv H4. inv H5. inv H6. inv H7. exists y, y0, y1, y2. cbn [snd] in *.
    split; [easy|]. split; [easy|]. split; [easy|]. split; [easy|].
    unfold ps, qmsgs, req1, tail, host_hdr, user_agent_hdr, project_key_hdr, latest_request, agent, eol, s_crlf.
    cbn [combine map concat fst snd app]. rewrite ?concat_app. cbn [concat app]. rewrite ?app_nil_r, <- ?app_assoc. cbn [app]. reflexivity. }
  pose proof (writes_ok ok req1 []) as W. destruct (writes ok [] req1) as [b s] eqn:EW. destruct b; cbn [negb].
  - destruct (qparams_ok ok junk ps J BP s) as [r [E [F1 F2]]]. rewrite E. cbn [bind]. eexists. split; [reflexivity|]. split.
    + intros A. apply FP in A. destruct (F1 A) as [es [H1 H2]]. destruct (REQ es H1) as [e1 [e2 [e3 [e4 [R1 [R2 [R3 [R4 R]]]]]]]].
      exists e1, e2, e3, e4. do 4 (split; [easy|]). rewrite <- R. apply sent_sends.
      assert (ES : s = req1).
      { destruct W as [ms' [W1 [W2 _]]]. cbn [fst snd app] in *. destruct (W2 eq_refl) as [-> _]. easy. }
      pose proof (sent_and ok [] req1 (qmsgs ps es ++ tail) (true, s) (fun s => w_and r (fun sent => writes ok sent tail)) W) as SA.
      cbn [w_and] in SA. apply SA. intros s' ->. apply sent_and; [|intros; apply writes_ok]. cbn [app]. rewrite <- ES. exact H2.
    + intros N. rewrite <- FP in N. apply F2 in N. destruct r as [b s']. cbn [fst] in N. subst b. easy.
  - eexists. split; [reflexivity|]. split; [|easy]. intros A. apply FP in A.
    assert (ES2 : exists es, Forall2 (fun p e => escaped (snd p) e) ps es).
    { destruct (qparams_ok (fun _ => true) junk ps J BP []) as [r [_ [F _]]]. destruct (F A) as [es [H _]]. eauto. }
    destruct ES2 as [es H1]. destruct (REQ es H1) as [e1 [e2 [e3 [e4 [R1 [R2 [R3 [R4 R]]]]]]]].
    exists e1, e2, e3, e4. do 4 (split; [easy|]). rewrite <- R. apply sent_sends.
    pose proof (sent_and ok [] req1 (qmsgs ps es ++ tail) (false, s) (fun s => writes ok s (qmsgs ps es ++ tail)) W) as SA.
    apply SA. intros. apply writes_ok.
Qed.

Lemma ota_ok ok url : bytes url -> zlen url < 2 ^ 31 -> ~ bare_scheme url ->
  exists r, get_ota_payload ok url = Some r /\
    (forall i, uri_text url i -> sends ok (ota_request (uri_path url i) (uri_host url i)) r) /\
    ((forall i, ~ uri_text url i) -> r = (false, [])).
Proof.
  intros B L NB. unfold get_ota_payload. destruct (parse_uri_ok url B L NB) as [o [E1 E2]]. rewrite E1. cbn [bind].
  destruct o as [i|].
  2:{ exists (false, []). split; [easy|]. split; [|easy]. intros i H. apply E2 in H. discriminate H. }
  pose proof (proj1 (E2 i) eq_refl) as T. pose proof T as (s & u & a & host & path & d & E & S & P & NS & U & UA & HN & H1 & H2 & HP).
  assert (LH : zlen host <= zlen a).
  { destruct HP as [(-> & _)|(p & ds & -> & _)]; [lia|]. rewrite zlen_app. pose proof (zlen_nonneg (58 :: p)). lia. }
  assert (RH : read_at url (u_host i) (u_host_len i) = Some (uri_host url i)).
  { apply read_at_some; rewrite ?H1, ?H2; try apply zlen_nonneg. rewrite E, !zlen_app. pose proof (zlen_nonneg path). lia. }
  rewrite RH. cbn [bind].
  assert (RP : match u_path i with Some (off, n) => read_at url off n | None => Some [47] end = Some (uri_path url i)).
  { unfold uri_path. destruct P as [[_ ->]|[r [-> ->]]]; [easy|]. apply read_at_some; try apply zlen_nonneg. rewrite E, !zlen_app. lia. }
  rewrite RP. cbn [bind]. eexists. split; [reflexivity|]. split.
  - intros i' T'. apply E2 in T'. injection T' as <-.
    match goal with |- sends _ ?q (writes _ _ ?ms) => assert (X : concat ms = q) end.
    { unfold host_hdr, user_agent_hdr, ota_request, agent, eol, s_crlf.
      rewrite !concat_app. cbn [concat app]. rewrite ?app_nil_r, <- ?app_assoc. cbn [app]. reflexivity. }
    rewrite <- X. apply sent_sends. apply writes_ok.
  - intros N. exfalso. apply (N i). easy.
Qed.
