(** Proofs about the sockets and the OTA update. *)
From Verif Require Import Base HttpUtils HttpUtilsSpec HttpUtilsProofs HttpUriProofs HttpResponseProofs HttpRequest HttpRequestSpec HttpRequestProofs ZephyrHttp ZephyrHttpSpec ZephyrHttpProofs
  ZephyrOta ZephyrOtaSpec ZephyrOtaProofs ZephyrSock ZephyrSockSpec.

Lemma after_app a b : forall s, after s (a ++ b) = match after s a with Some s => after s b | None => None end.
Proof. induction a as [|e a IH]; intros s; cbn [Datatypes.app after]; [reflexivity|]. destruct (after1 s e); [apply IH|reflexivity]. Qed.
Lemma holding_none s : holding (mk_hc (-1) false) s = s.
Proof. destruct s. unfold holding. cbn. now rewrite Z.add_0_r. Qed.
Lemma cleanup_ok c s : 0 <= d_addrs s -> after (holding c s) (cleanup (hc_fd c) (hc_res c)) = Some s.
Proof.
  intros A. destruct c as [fd res], s as [fds ad me]. unfold holding, cleanup. cbn [hc_fd hc_res d_fds d_addrs d_mem] in *.
  destruct (0 <=? fd); destruct res; cbn [Datatypes.app after after1 d_fds d_addrs d_mem remove_one option_map]; rewrite ?Z.eqb_refl; cbn [option_map d_fds d_addrs d_mem];
    rewrite ?Z.add_0_r; try reflexivity; replace (ad + 1 <=? 0) with false by lia; do 2 f_equal; lia.
Qed.
Lemma close_ok c l c' l' s : http_close c l = (c', l') -> 0 <= d_addrs s ->
  c' = mk_hc (-1) false /\ exists d, l' = l ++ d /\ after (holding c s) d = Some s.
Proof.
  unfold http_close. intros E A. injection E as <- <-. split; [reflexivity|]. eexists. split; [reflexivity|]. apply cleanup_ok. exact A.
Qed.
Lemma create_ok o l fd res l' s : addr_errors o -> create_sock o l false = (fd, res, l') ->
  exists d, l' = l ++ d /\ after s d = Some (holding (mk_hc fd res) s).
Proof.
  intros Ae. specialize (Ae l). unfold create_sock. destruct s as [fds ad me]. unfold holding. cbn [hc_fd hc_res d_fds d_addrs d_mem].
  destruct (Z.eqb_spec (os_addr o l) 0) as [E|E]; cbn [negb]; intros H; injection H as <- <- <-.
  - eexists. split; [rewrite <- app_assoc; reflexivity|]. rewrite E. cbn [Datatypes.app after after1]. change (0 =? 0) with true. cbn [d_fds d_addrs d_mem].
    destruct (0 <=? _); reflexivity.
  - eexists. split; [reflexivity|]. cbn [after after1]. replace (os_addr o l =? 0) with false by lia. replace (0 <=? os_addr o l) with false by lia. now rewrite Z.add_0_r.
Qed.
Lemma remove_head fd l : remove_one fd (fd :: l) = Some l. Proof. cbn. now rewrite Z.eqb_refl. Qed.
Lemma open_ok o l fd res l' s : addr_errors o -> open_sock o l false = (fd, res, l') ->
  exists d, l' = l ++ d /\ after s d = Some (holding (mk_hc fd res) s).
Proof.
  intros Ae. unfold open_sock. destruct (create_sock o l false) as [[f r] l1] eqn:E. destruct (create_ok _ _ _ _ _ s Ae E) as (d & -> & D).
  unfold holding in *. cbn [hc_fd hc_res] in *. destruct (Z.ltb_spec f 0) as [N|N].
  - intros H. injection H as <- <- <-. exists d. split; [reflexivity|]. rewrite D. replace (0 <=? f) with false by lia. reflexivity.
  - replace (0 <=? f) with true in D by lia. unfold conf_sock. destruct (Z.ltb_spec (os_conf o (l ++ d)) 0) as [C|C].
    + intros H. injection H as <- <- <-. eexists. split; [rewrite <- !app_assoc; reflexivity|]. rewrite after_app, D. cbn [Datatypes.app after after1 d_fds]. rewrite remove_head. reflexivity.
    + unfold conn_sock. destruct (Z.ltb_spec (os_conn o ((l ++ d) ++ [EConf f (os_conf o (l ++ d))])) 0) as [K|K]; intros H; injection H as <- <- <-.
      * eexists. split; [rewrite <- !app_assoc; reflexivity|]. rewrite after_app, D. cbn [Datatypes.app after after1 d_fds]. rewrite remove_head. reflexivity.
      * eexists. split; [rewrite <- !app_assoc; reflexivity|]. rewrite after_app, D. cbn [Datatypes.app after after1]. replace (0 <=? f) with true by lia. reflexivity.
Qed.

(* ------------------------------------------------------------ histories *)
Lemma s_step_ok o op c l rv c' l' : addr_errors o -> s_step o op c l = (rv, c', l') ->
  (op = SConnect -> 0 <= os_conn o l) ->
  exists d, l' = l ++ d /\ forall s, 0 <= d_addrs s -> after (holding c s) d = Some (holding c' s).
Proof.
  intros Ae E Cn. destruct op; cbn [s_step] in E.
  - unfold http_open in E. destruct (http_close c l) as [c1 l1] eqn:Ec. unfold http_close in Ec. injection Ec as <- <-. cbn [hc_res] in E.
    match type of E with context [open_sock o ?L false] => destruct (open_sock o L false) as [[fd res] l2] eqn:Eo end.
    destruct (fd <? 0) eqn:F.
    + injection E as <- <- <-. destruct (open_ok _ _ _ _ _ (mk_held [] 0 0) Ae Eo) as (d & -> & _). eexists. split; [rewrite <- !app_assoc; reflexivity|]. intros s A.
      destruct (open_ok _ _ _ _ _ s Ae Eo) as (d' & Q & D). apply app_inv_head in Q as <-. pose proof (cleanup_ok c s A) as C1. unfold cleanup in C1.
      rewrite app_assoc, after_app, C1, after_app, D. rewrite holding_none. exact (cleanup_ok (mk_hc fd res) s A).
    + injection E as <- <- <-. destruct (open_ok _ _ _ _ _ (mk_held [] 0 0) Ae Eo) as (d & -> & _). eexists. split; [rewrite <- !app_assoc; reflexivity|]. intros s A.
      destruct (open_ok _ _ _ _ _ s Ae Eo) as (d' & Q & D). apply app_inv_head in Q as <-. pose proof (cleanup_ok c s A) as C1. unfold cleanup in C1.
      rewrite app_assoc, after_app, C1. exact D.
  - unfold http_create in E. destruct (http_close c l) as [c1 l1] eqn:Ec. unfold http_close in Ec. injection Ec as <- <-. cbn [hc_res] in E.
    match type of E with context [create_sock o ?L false] => destruct (create_sock o L false) as [[fd res] l2] eqn:Eo end.
    destruct (fd <? 0) eqn:F.
    + injection E as <- <- <-. destruct (create_ok _ _ _ _ _ (mk_held [] 0 0) Ae Eo) as (d & -> & _). eexists. split; [rewrite <- !app_assoc; reflexivity|]. intros s A.
      destruct (create_ok _ _ _ _ _ s Ae Eo) as (d' & Q & D). apply app_inv_head in Q as <-. pose proof (cleanup_ok c s A) as C1. unfold cleanup in C1.
      rewrite app_assoc, after_app, C1, after_app, D. rewrite holding_none. exact (cleanup_ok (mk_hc fd res) s A).
    + injection E as <- <- <-. destruct (create_ok _ _ _ _ _ (mk_held [] 0 0) Ae Eo) as (d & -> & _). eexists. split; [rewrite <- !app_assoc; reflexivity|]. intros s A.
      destruct (create_ok _ _ _ _ _ s Ae Eo) as (d' & Q & D). apply app_inv_head in Q as <-. pose proof (cleanup_ok c s A) as C1. unfold cleanup in C1.
      rewrite app_assoc, after_app, C1. exact D.
  - unfold http_configure, conf_sock in E. destruct (_ <? 0).
    + unfold http_close in E. injection E as <- <- <-. eexists. split; [rewrite <- app_assoc; reflexivity|]. intros s A. cbn [Datatypes.app after after1]. rewrite holding_none. exact (cleanup_ok c s A).
    + injection E as <- <- <-. eexists. split; [reflexivity|]. intros s A. reflexivity.
  - unfold http_connect, conn_sock in E. specialize (Cn eq_refl). replace (os_conn o l <? 0) with false in E by lia. injection E as <- <- <-. eexists. split; [reflexivity|]. intros s A. reflexivity.
  - unfold http_close in E. injection E as <- <- <-. eexists. split; [reflexivity|]. intros s A. rewrite holding_none. exact (cleanup_ok c s A).
Qed.
Theorem s_run_ok o : addr_errors o -> forall ops c l rvs c' l', s_run o ops c l = (rvs, c', l') ->
  (forall l, 0 <= os_conn o l) \/ ~ In SConnect ops ->
  exists d, l' = l ++ d /\ forall s, 0 <= d_addrs s -> after (holding c s) d = Some (holding c' s).
Proof.
  intros Ae. induction ops as [|op ops IH]; intros c l rvs c' l' E Cn; cbn [s_run] in E.
  - injection E as <- <- <-. exists []. split; [now rewrite app_nil_r|]. reflexivity.
  - destruct (s_step o op c l) as [[rv c1] l1] eqn:E1. destruct (s_run o ops c1 l1) as [[rvs1 c2] l2] eqn:E2. injection E as <- <- <-.
    destruct (s_step_ok _ _ _ _ _ _ _ Ae E1) as (d1 & -> & D1). { intros ->. destruct Cn as [Cn|Cn]; [apply Cn|]. exfalso. apply Cn. left. reflexivity. }
    destruct (IH _ _ _ _ _ E2) as (d2 & -> & D2). { destruct Cn as [Cn|Cn]; [auto|]. right. intros X. apply Cn. right. exact X. }
    exists (d1 ++ d2). split; [now rewrite app_assoc|]. intros s A. rewrite after_app, D1 by exact A. auto.
Qed.

(* ------------------------------------------------------------ uploads *)
Lemma post_data_ok o avail up l rv l' : addr_errors o -> post_data o avail up l = (rv, l') -> fst up = 0 \/ fst up = -1 -> 0 <= snd up ->
  exists d, l' = l ++ d /\
    (avail = false /\ rv = 0 /\ d = [] \/
     avail = true /\ fst up = 0 /\ rv = snd up /\ balanced d \/
     avail = true /\ rv = -1 /\ (balanced d \/ fst up = -1 /\ exists fd, 0 <= fd /\ forall s, 0 <= d_addrs s -> after s d = Some (holding (mk_hc fd true) s))).
Proof.
  intros Ae E Hu Hb. unfold post_data in E. destruct avail; cbn [negb] in E; [|injection E as <- <-; exists []; rewrite app_nil_r; auto].
  destruct (http_open o (mk_hc (-1) false) l) as [[r c] l1] eqn:Eo.
  assert (So : s_step o SOpen (mk_hc (-1) false) l = (r, c, l1)) by exact Eo.
  destruct (s_step_ok _ _ _ _ _ _ _ Ae So) as (d & -> & D); [discriminate|].
  assert (Cs : r = 0 /\ 0 <= hc_fd c /\ hc_res c = true \/ r = -1 /\ c = mk_hc (-1) false).
  { unfold http_open in Eo. unfold http_close in Eo. cbn [hc_fd hc_res] in Eo. change (0 <=? -1) with false in Eo. cbn [Datatypes.app] in Eo. rewrite app_nil_r in Eo.
    destruct (open_sock o l false) as [[fd res] l2] eqn:E2. destruct (Z.ltb_spec fd 0) as [N|N]; injection Eo as <- <- _; [auto|left]. split; [reflexivity|]. split; [exact N|]. cbn.
    unfold open_sock, create_sock in E2. destruct (Z.eqb_spec (os_addr o l) 0) as [Z0|Z0]; cbn [negb] in E2.
    - destruct (_ <? 0) in E2; [injection E2 as _ <- _; reflexivity|]. unfold conf_sock in E2. destruct (_ <? 0) in E2; [injection E2 as _ <- _; reflexivity|]. unfold conn_sock in E2. destruct (_ <? 0) in E2; injection E2 as _ <- _; reflexivity.
    - specialize (Ae l). replace (os_addr o l <? 0) with true in E2 by lia. injection E2 as <- _ _. lia. }
  destruct Cs as [(-> & Cf & Cr)|(-> & ->)].
  - change (0 =? 0) with true in E. cbv iota in E. destruct Hu as [Hu|Hu]; rewrite Hu in E.
    + change (0 =? 0) with true in E. cbv iota in E. cbn [http_close snd] in E. injection E as <- <-. eexists. split; [rewrite <- app_assoc; reflexivity|]. right. left.
      split; [reflexivity|]. split; [exact Hu|]. split; [reflexivity|]. intros s A M. rewrite after_app. specialize (D s A). rewrite holding_none in D. rewrite D. exact (cleanup_ok c s A).
    + change (-1 =? 0) with false in E. cbv iota in E. injection E as <- <-. exists d. split; [reflexivity|]. right. right. split; [reflexivity|]. split; [reflexivity|]. right.
      split; [exact Hu|]. exists (hc_fd c). split; [exact Cf|]. intros s A. specialize (D s A). rewrite holding_none in D. rewrite D. destruct c as [f re]. cbn in *. rewrite Cr. reflexivity.
  - change (-1 =? 0) with false in E. cbv iota in E. change (-1 =? 0) with false in E. cbv iota in E. injection E as <- <-. exists d. split; [reflexivity|]. right. right. split; [reflexivity|]. split; [reflexivity|]. left.
    intros s A M. specialize (D s A). rewrite holding_none in D. exact D.
Qed.

(* ------------------------------------------------------------ the OTA update *)
Lemma check_ok o oc junk n l ok url sent l' : addr_errors o -> check_ota o oc junk n l = Some (ok, url, sent, l') ->
  (ok = false -> url = None) /\
  exists d, l' = l ++ d /\ forall s, 0 <= d_addrs s -> 0 <= d_mem s -> after s d = Some (mk_held (d_fds s) (d_addrs s) (d_mem s + match url with Some _ => 1 | None => 0 end)).
Proof.
  intros Ae E. assert (Sr : forall s, mk_held (d_fds s) (d_addrs s) (d_mem s + 0) = s) by (intros [? ? ?]; cbn; now rewrite Z.add_0_r).
  unfold check_ota in E. destruct (open_sock o l false) as [[fd res] l1] eqn:Eo. destruct (open_ok _ _ _ _ _ (mk_held [] 0 0) Ae Eo) as (d & Hd & _).
  assert (D : forall s, after s d = Some (holding (mk_hc fd res) s)).
  { intros s. destruct (open_ok _ _ _ _ _ s Ae Eo) as (d' & Q & D). rewrite Hd in Q. apply app_inv_head in Q as <-. exact D. }
  clear Eo. subst l1. destruct (fd <? 0).
  - injection E as <- <- <- <-. split; [reflexivity|]. eexists. split; [rewrite <- app_assoc; reflexivity|]. intros s A M. rewrite after_app, D, Sr. exact (cleanup_ok (mk_hc fd res) s A).
  - apply bind_inv in E as (q & _ & E). destruct (send_request (n_tx n) q) as [b sn]. destruct b; cbn [negb] in E.
    + apply bind_inv in E as ([u asked] & Eu & E). pose proof (url_asked _ _ _ _ Eu) as P. injection E as <- <- <- <-. split; [destruct u; congruence|].
      eexists. split; [rewrite <- !app_assoc; reflexivity|]. intros s A M. rewrite after_app, D. destruct s as [fds ad me]. unfold holding. cbn [hc_fd hc_res d_fds d_addrs d_mem] in *.
      pose proof (cleanup_ok (mk_hc fd res) (mk_held fds ad (me + 1)) A) as C1. pose proof (cleanup_ok (mk_hc fd res) (mk_held fds ad me) A) as C0.
      unfold holding in C0, C1. cbn [hc_fd hc_res d_fds d_addrs d_mem] in C0, C1. rewrite after_app. destruct u as [| |m].
      * destruct asked as [k|]; [|cbn [after]; rewrite Z.add_0_r; exact C0]. destruct (os_alloc o (l ++ d) k); cbn [after after1 d_mem d_fds d_addrs].
        -- replace (me + 1 <=? 0) with false by lia. replace (me + 1 - 1) with me by lia. rewrite Z.add_0_r. exact C0.
        -- rewrite Z.add_0_r. exact C0.
      * rewrite P. cbn [after]. rewrite Z.add_0_r. exact C0.
      * destruct P as (k & -> & Al). rewrite Al. cbn [after after1 d_mem d_fds d_addrs]. exact C1.
    + injection E as <- <- <- <-. split; [reflexivity|]. eexists. split; [rewrite <- app_assoc; reflexivity|]. intros s A M. rewrite after_app, D, Sr. exact (cleanup_ok (mk_hc fd res) s A).
Qed.
Lemma fetch_ok o ans cap n url l ok sent log l' : addr_errors o -> fetch_ota o ans cap n url l = Some (ok, sent, log, l') ->
  exists d, l' = l ++ d /\ balanced d.
Proof.
  intros Ae E. unfold fetch_ota in E. apply bind_inv in E as (i & _ & E). destruct i as [i|]; [|injection E as <- <- <- <-; exists []; split; [now rewrite app_nil_r|intros s _ _; reflexivity]].
  apply bind_inv in E as (host & _ & E). destruct (open_sock o l false) as [[fd res] l1] eqn:Eo. destruct (open_ok _ _ _ _ _ (mk_held [] 0 0) Ae Eo) as (d & Hd & _).
  assert (D : balanced (d ++ cleanup fd res)).
  { intros s A M. destruct (open_ok _ _ _ _ _ s Ae Eo) as (d' & Q & D). rewrite Hd in Q. apply app_inv_head in Q as <-. rewrite after_app, D. exact (cleanup_ok (mk_hc fd res) s A). }
  subst l1. assert (Fin : l' = (l ++ d) ++ cleanup fd res -> exists d, l' = l ++ d /\ balanced d) by (intros ->; eexists; split; [rewrite <- app_assoc; reflexivity|exact D]).
  destruct (fd <? 0); [injection E as <- <- <- <-; auto|]. apply bind_inv in E as (q & _ & E). destruct (send_request (n_tx n) q) as [b sn]. destruct b; cbn [negb] in E; [|injection E as <- <- <- <-; auto].
  apply bind_inv in E as ([[k lg] r] & _ & E). injection E as <- <- <- <-. auto.
Qed.
Theorem ota_balanced o oc junk ans cap n1 n2 l rv sent log l' : addr_errors o -> ota_update o oc junk ans cap n1 n2 l = Some (rv, sent, log, l') ->
  exists d, l' = l ++ d /\ balanced d.
Proof.
  intros Ae E. unfold ota_update in E. apply bind_inv in E as ([[[ok url] s1] l1] & Ec & E). destruct (check_ok _ _ _ _ _ _ _ _ _ Ae Ec) as (P & d1 & -> & D1).
  assert (Sr : forall s, mk_held (d_fds s) (d_addrs s) (d_mem s + 0) = s) by (intros [? ? ?]; cbn; now rewrite Z.add_0_r).
  destruct ok; cbn [negb] in E.
  - destruct url as [mem|].
    + apply bind_inv in E as ([[[ok s2] lg] l2] & Ef & E). destruct (fetch_ok _ _ _ _ _ _ _ _ _ _ Ae Ef) as (d2 & -> & D2). injection E as <- <- <- <-.
      eexists. split; [rewrite <- !app_assoc; reflexivity|]. intros s A M. rewrite after_app, D1 by assumption. rewrite after_app, D2 by (cbn; lia). cbn [after after1 d_mem d_fds d_addrs].
      replace (d_mem s + 1 <=? 0) with false by lia. destruct s; cbn. do 2 f_equal. lia.
    + injection E as <- <- <- <-. exists d1. split; [reflexivity|]. intros s A M. rewrite D1, Sr by assumption. reflexivity.
  - rewrite (P eq_refl) in *. injection E as <- <- <- <-. exists d1. split; [reflexivity|]. intros s A M. rewrite D1, Sr by assumption. reflexivity.
Qed.
Theorem url_balanced o oc junk n l rv url sent l' : addr_errors o -> get_download_url o oc junk n l = Some (rv, url, sent, l') ->
  exists d, release_download_url url l' = l ++ d /\ balanced d /\ (rv = 1 <-> url <> None) /\ (rv = -1 \/ rv = 0 \/ rv = 1).
Proof.
  intros Ae E. unfold get_download_url in E. apply bind_inv in E as ([[[ok u] s1] l1] & Ec & E). destruct (check_ok _ _ _ _ _ _ _ _ _ Ae Ec) as (P & d1 & -> & D1). injection E as <- <- <- <-.
  destruct u as [m|]; cbn [release_download_url].
  - eexists. split; [rewrite <- app_assoc; reflexivity|]. split; [|destruct ok; cbn [negb]; [split; [split; [discriminate|reflexivity]|auto]|specialize (P eq_refl); discriminate]].
    intros s A M. rewrite after_app, D1 by assumption. cbn [after after1 d_mem d_fds d_addrs]. replace (d_mem s + 1 <=? 0) with false by lia. destruct s; cbn. do 2 f_equal. lia.
  - exists d1. split; [reflexivity|]. split.
    + intros s A M. rewrite D1 by assumption. destruct s; cbn. now rewrite Z.add_0_r.
    + destruct ok; cbn [negb]; (split; [split; [discriminate|congruence]|auto]).
Qed.

(* ------------------------------------------------------------ what the update does *)
Lemma send_request_ok t q b s : send_request t q = (b, s) -> b = true -> fst q = true /\ s = concat (snd q).
Proof.
  unfold send_request. destruct q as [b1 ms]. destruct (send_msgs t ms) as [[ok s1] t1] eqn:E. intros H. injection H as <- <-. intros X.
  apply andb_prop in X as [-> ->]. split; [reflexivity|]. now apply (send_msgs_ok _ _ _ _ _ E).
Qed.
Lemma cstr_text u : ~ In 0 u -> cstr (u ++ [0]) = u.
Proof.
  induction u as [|c u IH]; intros N; [reflexivity|]. cbn. destruct (Z.eqb_spec c 0) as [->|_]; [exfalso; apply N; now left|].
  f_equal. apply IH. intros X. apply N. now right.
Qed.
Theorem ota_whole o oc junk ans cap n1 n2 l hd1 code1 url missing1 hd2 code2 payload missing2 :
  zlen junk = 48 -> bytes (oc_serial oc) -> bytes (oc_hwver oc) -> bytes (oc_swtype oc) -> bytes (oc_swver oc) ->
  Forall param_fits [oc_serial oc; oc_hwver oc; oc_swtype oc; oc_swver oc] -> 0 < cap ->
  bytes hd1 -> response_head hd1 code1 (zlen url) -> url <> [] -> serves (n_rx n1) hd1 url missing1 ->
  bytes url -> ~ In 0 url -> ~ bare_scheme url ->
  bytes hd2 -> response_head hd2 code2 (zlen payload) -> payload <> [] -> serves (n_rx n2) hd2 payload missing2 ->
  exists rv s1 s2 log l', ota_update o oc junk ans cap n1 n2 l = Some (rv, (s1, s2), log, l') /\
    handled ans cap (zlen payload) payload (rv =? 1) log /\
    (rv = -1 \/ rv = 0 /\ code1 < 400 /\ code1 <> 200 /\ log = [] \/ rv = 1 /\ code1 = 200 /\ code2 < 400) /\
    (rv <> -1 -> exists e1 e2 e3 e4, escaped (oc_serial oc) e1 /\ escaped (oc_hwver oc) e2 /\ escaped (oc_swtype oc) e3 /\ escaped (oc_swver oc) e4 /\
       s1 = latest_request e1 e2 e3 e4 (oc_host oc) (oc_key oc)) /\
    (log <> [] -> exists i, uri_text url i /\ s2 = ota_request (uri_path url i) (uri_host url i)).
Proof.
  intros J B1 B2 B3 B4 Pf Cp Bh1 R1 N1 S1 Bu Nu Nb Bh2 R2 N2 S2.
  assert (Z1 : zlen url <> 0) by (intros X; apply zlen_0_nil in X; contradiction). assert (Z2 : zlen payload <> 0) by (intros X; apply zlen_0_nil in X; contradiction).
  destruct (head_fed hd1 code1 (zlen url) [] true Bh1 R1) as [Lu _].
  assert (Hno : forall b, b = false -> handled ans cap (zlen payload) payload b []) by (intros b ->; left; auto).
  unfold ota_update, check_ota. destruct (open_sock o l false) as [[fd res] l1]. destruct (fd <? 0).
  { cbn [bind negb]. eexists _, _, _, _, _. split; [reflexivity|]. split; [apply Hno; reflexivity|]. split; [auto|]. split; congruence. }
  destruct (latest_ok (fun _ => true) junk (oc_serial oc) (oc_hwver oc) (oc_swtype oc) (oc_swver oc) (oc_host oc) (oc_key oc) J B1 B2 B3 B4) as (q & Eq & Q1 & _).
  rewrite Eq. cbn [bind]. destruct (send_request (n_tx n1) q) as [b s1] eqn:Es. destruct b; cbn [negb].
  2:{ cbn [bind negb]. eexists _, _, _, _, _. split; [reflexivity|]. split; [apply Hno; reflexivity|]. split; [auto|]. split; congruence. }
  assert (Rq : exists e1 e2 e3 e4, escaped (oc_serial oc) e1 /\ escaped (oc_hwver oc) e2 /\ escaped (oc_swtype oc) e3 /\ escaped (oc_swver oc) e4 /\
       s1 = latest_request e1 e2 e3 e4 (oc_host oc) (oc_key oc)).
  { destruct (send_request_ok _ _ _ _ Es eq_refl) as [Q2 ->]. destruct (Q1 Pf) as (e1 & e2 & e3 & e4 & X1 & X2 & X3 & X4 & X5). exists e1, e2, e3, e4. do 4 (split; [assumption|]).
    destruct q as [b ms]. cbn [fst snd] in *. subst b. exact (proj1 (proj1 X5 eq_refl)). }
  destruct (url_good hd1 url code1 (zlen url) Bh1 R1 eq_refl Z1 (os_alloc o l1) (n_rx n1) missing1 S1) as (u & asked & Eu & U). rewrite Eu. cbn [bind].
  destruct u as [| |mem]; cbn [bind negb].
  - eexists _, _, _, _, _. split; [reflexivity|]. split; [apply Hno; reflexivity|]. split; [auto|]. split; congruence.
  - eexists _, _, _, _, _. split; [reflexivity|]. split; [apply Hno; reflexivity|]. split; [right; left; tauto|]. split; [intros _; exact Rq|congruence].
  - destruct U as [C1 ->]. rewrite (cstr_text url Nu). unfold fetch_ota.
    destruct (ota_ok (fun _ => true) url Bu ltac:(lia) Nb) as (q2 & Eq2 & O1 & O2).
    destruct (parse_uri_ok url Bu ltac:(lia) Nb) as (i & Ei & Pi). rewrite Ei. cbn [bind]. destruct i as [i|].
    2:{ cbn [bind]. eexists _, _, _, _, _. split; [reflexivity|]. split; [apply Hno; reflexivity|]. split; [auto|]. split; congruence. }
    assert (Rh : exists host, read_at url (u_host i) (u_host_len i) = Some host).
    { unfold get_ota_payload in Eq2. rewrite Ei in Eq2. cbn [bind] in Eq2. apply bind_inv in Eq2 as (host & X & _). eauto. }
    destruct Rh as [host Rh]. rewrite Rh. cbn [bind]. match goal with |- context [open_sock o ?L false] => destruct (open_sock o L false) as [[fd2 res2] l3] end.
    destruct (fd2 <? 0).
    { cbn [bind]. eexists _, _, _, _, _. split; [reflexivity|]. split; [apply Hno; reflexivity|]. split; [auto|]. split; congruence. }
    rewrite Eq2. cbn [bind]. destruct (send_request (n_tx n2) q2) as [b s2] eqn:Es2. destruct b; cbn [negb].
    2:{ cbn [bind]. eexists _, _, _, _, _. split; [reflexivity|]. split; [apply Hno; reflexivity|]. split; [auto|]. split; congruence. }
    assert (Rq2 : s2 = ota_request (uri_path url i) (uri_host url i)).
    { destruct (send_request_ok _ _ _ _ Es2 eq_refl) as [Q2 ->]. specialize (O1 i (proj1 (Pi i) eq_refl)). destruct q2 as [b ms]. cbn [fst snd] in *. subst b. exact (proj1 (proj1 O1 eq_refl)). }
    destruct (install_good hd2 payload code2 (zlen payload) Bh2 R2 eq_refl Z2 ans cap (n_rx n2) missing2 Cp S2) as (b & log & r & Ein & H1 & H2 & _). rewrite Ein. cbn [bind].
    eexists _, _, _, _, _. split; [reflexivity|]. split; [destruct b; exact H1|]. split.
    + destruct b; [right; right|auto]. split; [reflexivity|]. split; [exact C1|]. destruct (Z_lt_ge_dec code2 400) as [|G]; [assumption|]. exfalso. rewrite H2 in H1 by lia.
      destruct H1 as [[_ X]|(ps & fin & rest & X & _)]; discriminate.
    + split; [intros _; exact Rq|]. intros _. exists i. split; [apply Pi; reflexivity|exact Rq2].
Qed.
