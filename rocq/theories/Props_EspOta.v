(** C87: OTA updates with the ESP-IDF port. *)
From Coq Require Import String.
From Verif Require Import Base HttpUtils HttpUtilsSpec HttpUtilsProofs HttpRequest HttpRequestSpec HttpRequestProofs EspHttp EspHttpSpec EspHttpProofs EspOta EspOtaSpec EspOtaProofs.

(** The query for the latest release, however the server's response is split up, whatever fails, and whatever
    the device information is at the two times it is asked for: no buffer is overrun; at most one request is
    made, for the whole URL with the version escaped, and none with reserved characters elsewhere; the result
    is the text of the response (200), no release (204) or an error; one block is left, if and only if a text
    is returned, and no client.  It can only go on forever if the connection ends, without an error, before
    the body does. *)
Theorem C87_query : forall fuel pl host i1 i2 junk, info_ok i1 -> info_ok i2 -> zlen junk = 48 -> forall e, q_ok e ->
  match get_release_url fuel pl host i1 i2 junk e with
  | None => False
  | Some None => (length (qe_reads e) < fuel)%nat -> zlen (served (qe_reads e)) < qe_len e /\ ~ fails (qe_reads e)
  | Some (Some q) => outcome e (qo_rv q) (qo_url q) /\
      left_after (qo_evs q) 0 0 = Some (match qo_url q with Some (Some _) => 1 | _ => 0 end, 0) /\
      (asked (qo_evs q) = [] \/ queryable i2 /\ exists v, escaped (in_swver i2) v /\ asked (qo_evs q) = [latest_url pl host i2 v]) /\
      (qo_rv q = 0 -> asked (qo_evs q) <> []) /\
      (queryable i1 -> i2 = i1 -> qe_init e = true -> qe_mem1 e = true -> asked (qo_evs q) <> [])
  end.
Proof. exact query_ok. Qed.
Print Assumptions C87_query.

(** An update, with a handler that has the callbacks it must have: what is installed is the link the query
    gave; the application is asked first, and told after; nothing stays allocated. *)
Theorem C87_update : forall fuel pl host i1 i2 junk, info_ok i1 -> info_ok i2 -> zlen junk = 48 ->
  forall h ota e av co, ha_avail h = Some av -> ha_complete h = Some co -> err_ok ota -> q_ok e ->
  match esp_ota_update fuel pl host i1 i2 junk (Some h) ota e with
  | None => False
  | Some None => (length (qe_reads e) < fuel)%nat -> zlen (served (qe_reads e)) < qe_len e /\ ~ fails (qe_reads e)
  | Some (Some u) => exists q calls, get_release_url fuel pl host i1 i2 junk e = Some (Some q) /\
      told h ota (match qo_url q with Some x => x | None => None end) (qo_rv q) (uo_rv u) calls /\
      uo_calls u = calls ++ (if ha_done h then [CDone (uo_rv u)] else []) /\ left_after (uo_evs u) 0 0 = Some (0, 0)
  end.
Proof. exact update_ok. Qed.
Print Assumptions C87_update.

(** A handler without one of the callbacks is refused, before anything is done. *)
Theorem C87_handler_checked : forall fuel pl host i1 i2 junk h ota e, ha_avail h = None \/ ha_complete h = None ->
  esp_ota_update fuel pl host i1 i2 junk (Some h) ota e = Some (Some (mk_uo (-2) (if ha_done h then [CDone (-2)] else []) [])).
Proof. intros fuel pl host i1 i2 junk [a c d] ota e [H|H]; cbn in H; subst; unfold esp_ota_update, finish; cbn; [|destruct a]; destruct d; reflexivity. Qed.
Print Assumptions C87_handler_checked.

Definition c87_info : info := mk_in (str "DEV-1") (str "evt") (str "app") (str "1.0+a").
Definition c87_link : list Z := str "https://ota.memfault.com/r/1".
Definition c87_junk : list Z := fill 48 0xAA.
Definition c87_env (len : Z) (reads : list rd) (status : Z) : q_env := mk_qe true true 0 len true reads status.
Definition c87_query := get_release_url 20 false (str "device.memfault.com") c87_info c87_info c87_junk.

(** The code checks for a NULL handler (:321), then uses it (:377). *)
Theorem C87_null_handler_refused_refuted : exists e, q_ok e /\ esp_ota_update 20 false (str "device.memfault.com") c87_info c87_info c87_junk None 0 e = None.
Proof. exists (c87_env 0 [] 204). split; [|reflexivity]. split; [vm_compute; reflexivity|]. split; [cbn; lia|]. split; [vm_compute; reflexivity|constructor]. Qed.
Print Assumptions C87_null_handler_refused_refuted.

(** A connection closed before the end of the body: esp_http_client_read() returns 0 from then on, and the
    loop never ends (:284-291). *)
Theorem C87_query_ends_refuted : exists e, q_ok e /\ forall fuel, get_release_url fuel false (str "device.memfault.com") c87_info c87_info c87_junk e = Some None.
Proof.
  exists (c87_env 28 [RdData (str "https://ota")] 200). split.
  - split; [vm_compute; reflexivity|]. split; [cbn; lia|]. split; [vm_compute; reflexivity|]. constructor; [exact I|constructor].
  - assert (N : forall fuel b g, g <> 28 -> read_body fuel [] b 28 g = Some None).
    { induction fuel as [|fuel IH]; intros b g H; cbn [read_body]; destruct (Z.eqb_spec g 28); try contradiction; [reflexivity|apply IH, H]. }
    assert (M : forall fuel, read_body fuel [RdData (str "https://ota")] (fill 29 0) 28 0 = Some None).
    { intros [|fuel]; [reflexivity|]. cbn [read_body]. change (0 =? 28) with false. cbv iota zeta.
      change (take (28 - 0) (str "https://ota")) with (str "https://ota").
      destruct (splice (fill 29 0) 0 (str "https://ota")) as [b|] eqn:E; [|vm_compute in E; discriminate]. cbn [bind]. change (28 - 0 <? zlen (str "https://ota")) with false. cbv iota.
      apply N. vm_compute. discriminate. }
    intros fuel. specialize (M fuel).
    destruct (release_url false (str "device.memfault.com") c87_info c87_junk 0) as [[n u]|] eqn:E1; [|vm_compute in E1; discriminate].
    destruct (release_url false (str "device.memfault.com") c87_info c87_junk (n + 1)) as [[n2 u2]|] eqn:E2; [|vm_compute in E1; injection E1 as <- <-; vm_compute in E2; discriminate].
    assert (X : n2 = n /\ 0 <= n) by (vm_compute in E1; injection E1 as <- <-; vm_compute in E2; injection E2 as <- <-; split; [reflexivity|lia]).
    unfold get_release_url, c87_env. cbn [qe_init qe_mem1 qe_open qe_len qe_mem2 qe_reads qe_status negb]. rewrite E1. cbn [bind]. destruct X as (-> & P). destruct (Z.ltb_spec n 0); [lia|].
    rewrite E2. cbn [bind]. rewrite Z.eqb_refl. cbn [negb]. change (0 =? 0) with true. change (28 <? 0) with false. cbn [negb]. change (28 + 1) with 29. rewrite M. reflexivity.
Qed.
Print Assumptions C87_query_ends_refuted.

(** A response without a content length (sent in chunks) has length 0 for the client: an empty link is
    installed. *)
Theorem C87_link_not_empty_refuted : exists e u, q_ok e /\ served (qe_reads e) = c87_link /\
  esp_ota_update 20 false (str "device.memfault.com") c87_info c87_info c87_junk (Some (mk_ha (Some true) (Some true) false)) 0 e = Some (Some u) /\ In (CInstall []) (uo_calls u).
Proof.
  destruct (esp_ota_update 20 false (str "device.memfault.com") c87_info c87_info c87_junk (Some (mk_ha (Some true) (Some true) false)) 0 (c87_env 0 [RdData c87_link] 200)) as [[u|]|] eqn:E;
    [|vm_compute in E; discriminate|vm_compute in E; discriminate].
  exists (c87_env 0 [RdData c87_link] 200), u. split; [split; [vm_compute; reflexivity|split; [cbn; lia|split; [vm_compute; reflexivity|constructor; [exact I|constructor]]]]|].
  split; [reflexivity|]. split; [exact E|]. vm_compute in E. injection E as <-. right. now left.
Qed.
Print Assumptions C87_link_not_empty_refuted.

(** memfault/esp_port/http_client.h:55-56: the result given to handle_ota_done is 0 for a success.  It is 1
    if an update was installed, and 0 if there was none. *)
Theorem C87_done_says_success_refuted : exists e u, q_ok e /\
  esp_ota_update 20 false (str "device.memfault.com") c87_info c87_info c87_junk (Some (mk_ha (Some true) (Some true) true)) 0 e = Some (Some u) /\
  uo_calls u = [CAvailable; CInstall c87_link; CComplete; CDone 1].
Proof.
  destruct (esp_ota_update 20 false (str "device.memfault.com") c87_info c87_info c87_junk (Some (mk_ha (Some true) (Some true) true)) 0 (c87_env 28 [RdData c87_link] 200)) as [[u|]|] eqn:E;
    [|vm_compute in E; discriminate|vm_compute in E; discriminate].
  exists (c87_env 28 [RdData c87_link] 200), u. split; [split; [vm_compute; reflexivity|split; [cbn; lia|split; [vm_compute; reflexivity|constructor; [exact I|constructor]]]]|].
  split; [exact E|]. vm_compute in E. injection E as <-. vm_compute. reflexivity.
Qed.
Print Assumptions C87_done_says_success_refuted.

(** memfault/esp_port/http_client.h:98-99: on failure, the link is set to NULL.  It is not if no client can
    be created. *)
Theorem C87_link_cleared_refuted : exists e q, q_ok e /\ c87_query e = Some (Some q) /\ qo_rv q < 0 /\ qo_url q = None.
Proof.
  exists (mk_qe false true 0 0 true [] 0), (mk_qo (-1) None [OInit false]). split; [split; [vm_compute; reflexivity|split; [cbn; lia|split; [vm_compute; reflexivity|constructor]]]|].
  split; [reflexivity|]. split; [vm_compute; reflexivity|reflexivity].
Qed.
Print Assumptions C87_link_cleared_refuted.

(** A release, read in two parts, with a version that is escaped; no release; an error while reading. *)
Example C87_case :
  map (fun e => match c87_query e with Some (Some q) => Some (qo_rv q, qo_url q, map zlen (asked (qo_evs q)), zlen (qo_evs q)) | _ => None end)
    [c87_env 28 [RdData (take 10 c87_link); RdData (drop 10 c87_link ++ str "extra")] 200; c87_env 0 [] 204; c87_env 28 [RdData [1]; RdErr (-1)] 200; c87_env 2 [RdData [1; 2]] 404]
  = [Some (0, Some (Some c87_link), [137], 6); Some (0, Some None, [137], 7); Some (-1001, Some None, [137], 7); Some (-1, Some None, [137], 7)].
Proof. vm_compute. reflexivity. Qed.
Example C87_case_update :
  map (fun h => match esp_ota_update 20 false (str "device.memfault.com") c87_info c87_info c87_junk (Some h) 0 (c87_env 28 [RdData c87_link] 200) with
                | Some (Some u) => Some (uo_rv u, map (fun c => match c with CInstall u => zlen u | CDone x => 1000 + x | CAvailable => 1 | CComplete => 2 end) (uo_calls u)) | _ => None end)
    [mk_ha (Some false) (Some true) true; mk_ha (Some true) (Some false) true; mk_ha (Some true) (Some true) false; mk_ha None (Some true) true]
  = [Some (1, [1; 1001]); Some (-1, [1; 28; 2; 999]); Some (1, [1; 28; 2]); Some (-2, [998])].
Proof. vm_compute. reflexivity. Qed.
