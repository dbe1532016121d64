From Coq Require Import String.
From Verif Require Import Base HttpUtils HttpUtilsSpec HttpUtilsProofs HttpRequest HttpRequestSpec HttpRequestProofs EspHttp EspHttpSpec EspHttpProofs EspOta EspOtaSpec.

Lemma fill_split n m b : 0 <= n -> 0 <= m -> fill (n + m) b = fill n b ++ fill m b.
Proof. intros A B. unfold fill. rewrite Z2Nat.inj_add by lia. apply repeat_app. Qed.
Lemma text_cstr l : text_of l (cstr l).
Proof. induction l as [|c l IH]; cbn [cstr]; [constructor|]. destruct (Z.eqb_spec c 0) as [->|N]; constructor; assumption. Qed.
Lemma cstr_nul l : cstr (l ++ [0]) = cstr l.
Proof. induction l as [|c l IH]; cbn [cstr Datatypes.app]; [reflexivity|]. destruct (c =? 0); [reflexivity|now rewrite IH]. Qed.

(* ------------------------------------------------------------ the body of the response *)
Lemma read_body_ok fuel : forall reads pre len, zlen pre <= len ->
  match read_body fuel reads (pre ++ fill (len + 1 - zlen pre) 0) len (zlen pre) with
  | None => False
  | Some None => (length reads < fuel)%nat -> zlen pre + zlen (served reads) < len /\ ~ fails reads
  | Some (Some (rv, b)) =>
      rv = 0 /\ (exists rest, served reads = take (len - zlen pre) (served reads) ++ rest) /\ len - zlen pre <= zlen (served reads) /\ b = pre ++ take (len - zlen pre) (served reads) ++ [0] \/
      (exists e, In (RdErr e) reads /\ rv = platform_error e) /\ zlen pre + zlen (served reads) < len
  end.
Proof.
  induction fuel as [|fuel IH]; intros reads pre len L; pose proof (zlen_nonneg pre); pose proof (zlen_nonneg (served reads));
    cbn [read_body]; destruct (Z.eqb_spec (zlen pre) len) as [E|E].
  1,3: left; split; [reflexivity|]; split; [exists (drop (len - zlen pre) (served reads)); symmetry; apply take_drop|]; split; [lia|];
       rewrite E, Z.sub_diag; change (take 0 (served reads)) with (@nil Z); replace (len + 1 - len) with 1 by lia; reflexivity.
  - intros X. lia.
  - destruct reads as [|[e|d] r].
    + specialize (IH [] pre len L). destruct (read_body fuel [] (pre ++ fill (len + 1 - zlen pre) 0) len (zlen pre)) as [[[rv b]|]|]; [|..].
      * exact IH.
      * intros _. split; [change (zlen (served [])) with 0; lia|intros (e & [])].
      * exact IH.
    + right. split; [exists e; split; [now left|reflexivity]|]. change (zlen (served (RdErr e :: r))) with 0. lia.
    + set (room := len - zlen pre). set (d1 := take room d). pose proof (zlen_nonneg d).
      assert (Ld : zlen d1 = Z.min room (zlen d)) by (unfold d1; rewrite zlen_take; lia).
      assert (Sp : splice (pre ++ fill (len + 1 - zlen pre) 0) (zlen pre) d1 = Some ((pre ++ d1) ++ fill (len + 1 - zlen (pre ++ d1)) 0)).
      { rewrite zlen_app. rewrite (splice_app_pre pre (fill (len + 1 - zlen pre) 0) (zlen pre) d1 eq_refl) by (rewrite zlen_fill by lia; lia).
        rewrite <- app_assoc. do 3 f_equal. replace (len + 1 - zlen pre) with (zlen d1 + (len + 1 - (zlen pre + zlen d1))) by lia.
        rewrite fill_split by (pose proof (zlen_nonneg d1); lia). apply drop_app_exact. pose proof (zlen_nonneg d1). rewrite zlen_fill by lia. lia. }
      rewrite Sp. cbn [bind]. destruct (Z.ltb_spec room (zlen d)) as [G|G].
      * assert (El : zlen pre + zlen d1 = len) by lia. rewrite zlen_app.
        replace (read_body fuel (RdData (drop room d) :: r) ((pre ++ d1) ++ fill (len + 1 - (zlen pre + zlen d1)) 0) len (zlen pre + zlen d1)) with (Some (Some (0, (pre ++ d1) ++ fill (len + 1 - (zlen pre + zlen d1)) 0)))
          by (rewrite El; destruct fuel; cbn [read_body]; rewrite Z.eqb_refl; reflexivity).
        left. split; [reflexivity|]. split; [eexists; symmetry; apply take_drop|]. cbn [served]. rewrite zlen_app. pose proof (zlen_nonneg (served r)). split; [lia|].
        rewrite El. replace (len + 1 - len) with 1 by lia. rewrite <- app_assoc. f_equal. f_equal. unfold d1. symmetry. fold room. rewrite take_app_le by lia. reflexivity.
      * assert (E1 : d1 = d) by (unfold d1; apply take_all; lia). rewrite E1 in *. rewrite <- zlen_app. specialize (IH r (pre ++ d) len ltac:(rewrite zlen_app; lia)).
        destruct (read_body fuel r _ len (zlen (pre ++ d))) as [[[rv b]|]|]; [| |exact IH]; rewrite zlen_app in IH; cbn [served]; rewrite zlen_app.
        -- destruct IH as [(I1 & I2 & I3 & I4)|((e & I1 & I2) & I3)].
           ++ left. split; [exact I1|]. split; [eexists; symmetry; apply take_drop|]. split; [lia|]. rewrite I4, <- app_assoc. f_equal. rewrite (take_app_ge (len - zlen pre)) by lia. rewrite <- app_assoc. do 2 f_equal. f_equal. lia.
           ++ right. split; [exists e; split; [now right|exact I2]|]. lia.
        -- intros X. cbn [length] in X. destruct (IH ltac:(lia)) as (I1 & I2). split; [lia|]. intros (e & [X2|X2]); [discriminate|]. apply I2. exists e. exact X2.
Qed.

(* ------------------------------------------------------------ the query *)
Lemma needs_escape_ok l : bytes l -> (needs_escape l = false <-> all_plain l).
Proof.
  intros B. unfold needs_escape, all_plain. induction B as [|c l C B IH]; cbn [existsb]; [split; [constructor|reflexivity]|].
  rewrite (unreserved_plain c C). destruct (plain c) eqn:P; cbn [negb orb].
  - rewrite IH. split; intros H; [constructor; assumption|now inv H].
  - split; [discriminate|]. intros H. inv H. congruence.
Qed.
Lemma release_url_ok pl host i junk n : info_ok i -> zlen junk = 48 ->
  exists rv u, release_url pl host i junk n = Some (rv, u) /\
    (queryable i /\ (exists v, escaped (in_swver i) v /\ rv = zlen (latest_url pl host i v) /\ (n <> 0 -> u = take (n - 1) (latest_url pl host i v))) \/
     ~ queryable i /\ rv = -1).
Proof.
  intros (B1 & B2 & B3 & B4) J. unfold release_url, info_needs_escape, queryable.
  pose proof (needs_escape_ok _ B1) as P1. pose proof (needs_escape_ok _ B2) as P2. pose proof (needs_escape_ok _ B3) as P3.
  destruct (needs_escape (in_serial i)); cbn [orb]; [exists (-1), []; split; [reflexivity|right; split; [intros (X & _); apply P1 in X; discriminate|reflexivity]]|].
  destruct (needs_escape (in_hwver i)); cbn [orb]; [exists (-1), []; split; [reflexivity|right; split; [intros (_ & X & _); apply P2 in X; discriminate|reflexivity]]|].
  destruct (needs_escape (in_swtype i)); cbn [orb]; [exists (-1), []; split; [reflexivity|right; split; [intros (_ & _ & X & _); apply P3 in X; discriminate|reflexivity]]|].
  destruct (qparam_ok junk (in_swver i) J B4) as (rv & enc & E & F1 & F2). rewrite E. cbn [bind].
  destruct (Z.eqb_spec rv 0) as [Z0|N]; cbn [negb].
  - eexists _, _. split; [reflexivity|]. left.
    assert (Pf : param_fits (in_swver i)).
    { destruct (list_eq_dec Z.eq_dec (in_swver i) []) as [X|X]; [exfalso; apply F2; [intros (Y & _); contradiction|exact Z0]|].
      destruct (Z.le_gt_cases (encoded_len (in_swver i)) 47); [split; assumption|]. exfalso. apply F2; [intros (_ & Y); lia|exact Z0]. }
    split; [split; [now apply P1|split; [now apply P2|split; [now apply P3|exact Pf]]]|]. exists (cstr enc). split; [apply F1, Pf|].
    assert (Eu : (if pl then str "http" else str "https") ++ str "://" ++ host ++ str "/api/v0/releases/latest/url?device_serial=" ++ in_serial i ++ str "&hardware_version=" ++ in_hwver i ++
               str "&software_type=" ++ in_swtype i ++ str "&current_version=" ++ cstr enc = latest_url pl host i (cstr enc)) by (unfold latest_url; destruct pl; reflexivity).
    rewrite Eu. split; [reflexivity|]. intros Nn. destruct (Z.eqb_spec n 0); [contradiction|reflexivity].
  - exists (-1), []. split; [reflexivity|]. right. split; [|reflexivity]. intros (_ & _ & _ & X). apply N, (F1 X).
Qed.

Lemma platform_neg e : err_ok e -> platform_error e < 0.
Proof. intros H. rewrite platform_error_ok by exact H. lia. Qed.

Section Query.
Variables (fuel : nat) (pl : bool) (host : list Z) (i1 i2 : info) (junk : list Z).
Hypotheses (I1 : info_ok i1) (I2 : info_ok i2) (J : zlen junk = 48).

Definition url_left (u : option (option (list Z))) : Z := match u with Some (Some _) => 1 | _ => 0 end.
Lemma query_ok e : q_ok e ->
  match get_release_url fuel pl host i1 i2 junk e with
  | None => False
  | Some None => (length (qe_reads e) < fuel)%nat -> zlen (served (qe_reads e)) < qe_len e /\ ~ fails (qe_reads e)
  | Some (Some q) => outcome e (qo_rv q) (qo_url q) /\ left_after (qo_evs q) 0 0 = Some (url_left (qo_url q), 0) /\
      (asked (qo_evs q) = [] \/ queryable i2 /\ exists v, escaped (in_swver i2) v /\ asked (qo_evs q) = [latest_url pl host i2 v]) /\
      (qo_rv q = 0 -> asked (qo_evs q) <> []) /\
      (queryable i1 -> i2 = i1 -> qe_init e = true -> qe_mem1 e = true -> asked (qo_evs q) <> [])
  end.
Proof.
  intros (Q1 & Q2 & Q3 & Q4). unfold get_release_url. destruct (qe_init e) eqn:Ei; cbn [negb].
  2:{ split; [apply O_failed; [cbn; lia|cbn; rewrite Ei; tauto|auto]|]. split; [reflexivity|]. split; [now left|]. split; [discriminate|discriminate]. }
  destruct (release_url_ok pl host i1 junk 0 I1 J) as (n1 & u1 & E1 & C1). rewrite E1. cbn [bind].
  destruct C1 as [(Y1 & v1 & V1 & -> & _)|(N1 & ->)].
  2:{ change (-1 <? 0) with true. cbv iota. split; [apply O_failed; [cbn; lia|rewrite Ei; split; discriminate|auto]|]. split; [reflexivity|]. split; [now left|]. split; [discriminate|]. intros X. contradiction. }
  set (U1 := latest_url pl host i1 v1) in *. pose proof (zlen_nonneg U1). destruct (Z.ltb_spec (zlen U1) 0); [lia|].
  destruct (qe_mem1 e) eqn:Em; cbn [negb].
  2:{ split; [apply O_failed; [cbn; lia|rewrite Ei; split; discriminate|auto]|]. split; [reflexivity|]. split; [now left|]. split; [discriminate|discriminate]. }
  destruct (release_url_ok pl host i2 junk (zlen U1 + 1) I2 J) as (n2 & u2 & E2 & C2). rewrite E2. cbn [bind].
  assert (Same : i2 = i1 -> n2 = zlen U1).
  { intros ->. destruct (release_url_ok pl host i1 junk 0 I1 J) as (m & u & X & _). clear X m u. unfold release_url in E1, E2. destruct (info_needs_escape i1); [injection E1 as E1 _; injection E2 as <- _; exact E1|].
    apply bind_inv in E1 as ([r1 b1] & X1 & E1). rewrite X1 in E2. cbn [bind] in E2. destruct (r1 =? 0); cbn [negb] in *; injection E1 as E1 _; injection E2 as <- _; exact E1. }
  destruct (Z.eqb_spec n2 (zlen U1)) as [Es|Ns]; cbn [negb].
  2:{ split; [apply O_failed; [cbn; lia|rewrite Ei; split; discriminate|auto]|]. split; [reflexivity|]. split; [now left|]. split; [discriminate|]. intros _ X. exfalso. apply Ns, Same, X. }
  destruct C2 as [(Y2 & v2 & V2 & L2 & T2)|(N2 & X)]; [|lia]. specialize (T2 ltac:(lia)).
  assert (Tu : u2 = latest_url pl host i2 v2) by (rewrite T2; apply take_all; lia). clear T2. subst u2.
  set (U2 := latest_url pl host i2 v2) in *.
  assert (Ask : queryable i2 /\ exists v, escaped (in_swver i2) v /\ [U2] = [latest_url pl host i2 v]) by (split; [exact Y2|]; exists v2; split; [exact V2|reflexivity]).
  destruct (Z.eqb_spec (qe_open e) 0) as [Eo|No]; cbn [negb].
  2:{ pose proof (platform_neg _ Q1). split; [apply O_failed; [cbn; lia|rewrite Ei; split; discriminate|auto]|]. split; [reflexivity|]. split; [right; exact Ask|]. split; [discriminate|discriminate]. }
  destruct (Z.ltb_spec (qe_len e) 0) as [Ll|Ll].
  { pose proof (platform_neg _ (Q2 Ll)). split; [apply O_failed; [cbn; lia|rewrite Ei; split; discriminate|auto]|]. split; [reflexivity|]. split; [right; exact Ask|]. split; [discriminate|discriminate]. }
  destruct (qe_mem2 e) eqn:Em2; cbn [negb].
  2:{ split; [apply O_failed; [cbn; lia|rewrite Ei; split; discriminate|auto]|]. split; [reflexivity|]. split; [right; exact Ask|]. split; [discriminate|discriminate]. }
  pose proof (read_body_ok fuel (qe_reads e) [] (qe_len e) Ll) as Rb. change (zlen (@nil Z)) with 0 in Rb. rewrite Z.sub_0_r in Rb. cbn [Datatypes.app] in Rb. rewrite ?Z.sub_0_r in Rb.
  destruct (read_body fuel (qe_reads e) (fill (qe_len e + 1) 0) (qe_len e) 0) as [[[rv buf]|]|]; cbn [bind]; [| |exact Rb].
  2:{ intros X. destruct (Rb X). split; [lia|assumption]. }
  destruct Rb as [(-> & (rest & R1) & R2 & ->)|((x & X1 & ->) & R2)].
  - change (0 =? 0) with true. cbn [negb].
    destruct (Z.eqb_spec (qe_status e) 200) as [S1|S1]; cbn [negb andb].
    + split; [|split; [reflexivity|split; [right; exact Ask|split; discriminate]]]. cbn [qo_rv qo_url]. rewrite cstr_nul. eapply O_release; [exact S1| |eexists; exact R1|apply text_cstr]. rewrite zlen_take. lia.
    + destruct (Z.eqb_spec (qe_status e) 204) as [S2|S2]; cbn [negb].
      * split; [apply O_none; exact S2|split; [reflexivity|split; [right; exact Ask|split; discriminate]]].
      * split; [apply O_failed; [cbn; lia|rewrite Ei; split; discriminate|auto]|]. split; [reflexivity|]. split; [right; exact Ask|]. split; discriminate.
  - rewrite Forall_forall in Q4. specialize (Q4 _ X1). cbn beta iota in Q4. pose proof (platform_neg _ (proj2 Q4)). destruct (Z.eqb_spec (platform_error x) 0); [lia|]. cbn [negb].
    split; [apply O_failed; [cbn; lia|rewrite Ei; split; discriminate|auto]|]. split; [reflexivity|]. split; [right; exact Ask|]. split; [cbn; lia|discriminate].
Qed.

Lemma left_then l r : forall b k b' k', left_after l b k = Some (b', k') -> left_after (l ++ r) b k = left_after r b' k'.
Proof.
  induction l as [|x l IH]; intros b k b' k' H; cbn [left_after Datatypes.app] in *; [now injection H as <- <-|].
  destruct x; auto; destruct (_ =? _); try discriminate; auto.
Qed.

Lemma update_ok h ota e av co : ha_avail h = Some av -> ha_complete h = Some co -> err_ok ota -> q_ok e ->
  match esp_ota_update fuel pl host i1 i2 junk (Some h) ota e with
  | None => False
  | Some None => (length (qe_reads e) < fuel)%nat -> zlen (served (qe_reads e)) < qe_len e /\ ~ fails (qe_reads e)
  | Some (Some u) => exists q calls, get_release_url fuel pl host i1 i2 junk e = Some (Some q) /\
      told h ota (match qo_url q with Some x => x | None => None end) (qo_rv q) (uo_rv u) calls /\
      uo_calls u = calls ++ (if ha_done h then [CDone (uo_rv u)] else []) /\ left_after (uo_evs u) 0 0 = Some (0, 0)
  end.
Proof.
  intros Ha Hc Eo Qe. unfold esp_ota_update. destruct h as [a c d]. cbn [ha_avail ha_complete ha_done] in *. subst a c.
  pose proof (query_ok e Qe) as Q. destruct (get_release_url fuel pl host i1 i2 junk e) as [[q|]|]; cbn [bind]; [| |exact Q].
  2:{ exact Q. }
  destruct Q as (Qo & Ql & _).
  assert (Fin : forall u rv calls, (u = None <-> match qo_url q with Some (Some _) => False | _ => True end) ->
    told (mk_ha (Some av) (Some co) d) ota (match qo_url q with Some x => x | None => None end) (qo_rv q) rv calls ->
    match finish (Some (mk_ha (Some av) (Some co) d)) u rv calls (qo_evs q) with
    | None => False
    | Some None => (length (qe_reads e) < fuel)%nat -> zlen (served (qe_reads e)) < qe_len e /\ ~ fails (qe_reads e)
    | Some (Some u) => exists q0 calls, Some (Some q) = Some (Some q0) /\
      told (mk_ha (Some av) (Some co) d) ota (match qo_url q0 with Some x => x | None => None end) (qo_rv q0) (uo_rv u) calls /\
      uo_calls u = calls ++ (if d then [CDone (uo_rv u)] else []) /\ left_after (uo_evs u) 0 0 = Some (0, 0)
    end).
  { intros u rv calls Hu Ht. unfold finish. cbn [ha_done]. exists q, calls. split; [reflexivity|]. cbn [uo_rv uo_calls uo_evs]. split; [exact Ht|]. split; [destruct d; [reflexivity|now rewrite app_nil_r]|].
    unfold url_left in Ql. destruct (qo_url q) as [[x|]|].
    - destruct u as [u|]; [|destruct (proj1 Hu eq_refl)]. rewrite (left_then _ _ _ _ _ _ Ql). reflexivity.
    - destruct u as [u|]; [discriminate (proj2 Hu I)|exact Ql].
    - destruct u as [u|]; [discriminate (proj2 Hu I)|exact Ql]. }
  destruct (qo_url q) as [[x|]|] eqn:Eq.
  - assert (Z0 : qo_rv q = 0) by (inv Qo; [reflexivity|]; match goal with X : _ \/ _ |- _ => destruct X; congruence end).
    rewrite Z0 in *. change (0 =? 0) with true. cbn [negb]. destruct av; cbn [negb].
    + destruct (Z.eqb_spec ota 0) as [->|No]; cbn [negb].
      * destruct co; apply Fin; try (split; [discriminate|intros []]); [apply TO_installed|apply TO_refused]; reflexivity.
      * apply Fin; [split; [discriminate|intros []]|]. apply TO_failed; [reflexivity|exact No|apply platform_neg, Eo].
    + apply Fin; [split; [discriminate|intros []]|]. apply TO_declined. reflexivity.
  - apply Fin; [tauto|constructor].
  - apply Fin; [tauto|constructor].
Qed.
End Query.
