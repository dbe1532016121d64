(** C86: uploads with the ESP-IDF port. *)
From Coq Require Import String.
From Verif Require Import Base Packetizer PacketizerSpec PacketizerProofs Uplink UplinkSpec UplinkProofs EspHttp EspHttpSpec EspHttpProofs Device DeviceSpec Props_Uplink.

(** From boot on, whatever the application does between uploads, whatever malloc() gives and however posts
    fail: the messages given up by the sources are, in order, those whose chunks were handed to the HTTP
    client; so, while every request is carried out, the server has them.  Per upload: each post goes to the
    device's URL, cut off after 127 characters, and holds a chunk; only the last can have failed; success if and
    only if the last was accepted; the bytes are counted; memory and the HTTP client are given back once.  A
    successful upload leaves nothing to send, and the sync is counted as what it was. *)
Theorem C86_uploads_deliver : forall W A O R (so : sources W) cfg (app : W -> O -> option (R * W)) (dev : device A O R) rel ec most,
  keeps_contract so cfg app dev rel -> 0 < most < 4294967296 ->
  forall w a ops, rel None w a -> Forall (e_fine (fine dev)) ops ->
  exists ops1 rs st w' a' t got k, e_played dev ops ops1 a' /\ e_run so cfg ec most app w pk_init ops1 = Some (rs, st, w') /\
    deeds dev a t a' /\ app_deeds t = e_calls ops1 rs /\
    cloud None (map po_body (all_posts rs)) = (k, got) /\ received cfg got (sent t) /\
    (Forall carried_out (all_posts rs) -> cloud None (server_has (all_posts rs)) = (k, got)) /\
    Forall (esp_upload (take 127 (chunks_url (ec_plain ec) (ec_chunks ec) (ec_serial ec))) most) (outs rs) /\
    Forall (fun o => held_after (eo_evs o) 0 0 = Some (0, 0)) (outs rs) /\
    forall e, env_ok e -> exists o st2 w2 a2 t2, e_step so cfg ec most app w' st (EUp e) = Some (ERUp o, st2, w2) /\ deeds dev a' t2 a2 /\
      (eo_rv o = 0 -> forall s, enabled (pk_mask st2) s = true -> offer dev s a2 = None) /\
      (eo_posts o <> [] -> eo_sync o = Some (eo_rv o =? 0)) /\
      (~ (exists i, In i (ee_net e) /\ ni_up i = true /\ ni_err i = 0 /\ ni_addr i <> 0) -> eo_rv o = -1 /\ eo_posts o = []).
Proof. intros W A O R so cfg app dev rel ec most K Hm. exact (e_accounts so cfg app dev rel K ec most Hm). Qed.
Print Assumptions C86_uploads_deliver.

(** The buffer: the largest of most, most / 2, most / 4, ... above 1024 bytes that the heap has. *)
Theorem C86_largest_buffer : forall mem most, (forall n b, mem n = Some b -> zlen b = n) -> 0 < most ->
  match alloc_buffer mem most with
  | (Some b, l) => 1024 < zlen b <= most /\ (exists k, 0 <= k /\ zlen b = most / 2 ^ k /\ mem (zlen b) = Some b /\ forall j, 0 <= j < k -> mem (most / 2 ^ j) = None) /\
      exists l', l = l' ++ [EMalloc (zlen b) true] /\ Forall (fun e => exists n, e = EMalloc n false) l'
  | (None, l) => (forall j, 0 <= j -> 1024 < most / 2 ^ j -> mem (most / 2 ^ j) = None) /\ Forall (fun e => exists n, e = EMalloc n false) l
  end.
Proof. exact alloc_ok. Qed.
Print Assumptions C86_largest_buffer.

(** A URL of less than 128 characters is built whole, so tells devices apart. *)
Theorem C86_url : forall c, zlen (chunks_url (ec_plain c) (ec_chunks c) (ec_serial c)) < 128 ->
  build_url c (str "chunks") = (true, chunks_url (ec_plain c) (ec_chunks c) (ec_serial c)) /\
  forall c2, ec_plain c2 = ec_plain c -> ec_chunks c2 = ec_chunks c -> zlen (chunks_url (ec_plain c2) (ec_chunks c2) (ec_serial c2)) < 128 ->
    build_url c2 (str "chunks") = build_url c (str "chunks") -> ec_serial c2 = ec_serial c.
Proof. intros c H. split; [exact (url_whole c H)|]. intros c2 P Q H2. now apply url_tells. Qed.
Print Assumptions C86_url.

(** Errors of the platform are negative, below the SDK's own, and told apart by size. *)
Theorem C86_platform_errors : forall e, Z.abs e < 2 ^ 31 - 1000 -> platform_error e = -1000 - Z.abs e.
Proof. exact platform_error_ok. Qed.
Print Assumptions C86_platform_errors.

(** The comment at errors.h:47-50 asks for that of every error.  The sum overflows for the largest: as it
    wraps, the result is positive. *)
Theorem C86_every_error_negative_refuted : exists e, - 2 ^ 31 < e < 2 ^ 31 /\ 0 < platform_error e.
Proof. exists (2 ^ 31 - 1). vm_compute. auto. Qed.
Print Assumptions C86_every_error_negative_refuted.

(** memfault/esp_port/http_client.h:18-27 has 1024 bytes as the smallest buffer.  It is not tried. *)
Theorem C86_smallest_buffer_tried_refuted : exists mem most b, 1024 < most /\ mem 1024 = Some b /\ zlen b = 1024 /\ fst (alloc_buffer mem most) = None.
Proof. exists (fun n => if n <=? 1024 then Some (fill n 0) else None), 4096, (fill 1024 0). split; [lia|]. split; [reflexivity|]. split; reflexivity. Qed.
Print Assumptions C86_smallest_buffer_tried_refuted.

Definition c86_ec (serial : list Z) : e_cfg := mk_ec false (str "chunks.memfault.com") (str "device.memfault.com") serial (str "evt") (str "app") (str "1.0").
Definition c86_up_net : list netif := [mk_nif false 0 0; mk_nif true 0 0xC0A80102].
Definition c86_env (ps : list perf) : e_env := mk_ee c86_up_net true (fun n => if n <=? 2048 then Some (fill n 0) else None) ps 0.
Definition c86_ok : perf := mk_pf 0 202.

(** The result of cutting off the URL is ignored (:401): two devices post as one. *)
Theorem C86_devices_told_apart_refuted : exists c1 c2, ec_serial c1 <> ec_serial c2 /\ snd (build_url c1 (str "chunks")) = snd (build_url c2 (str "chunks")).
Proof. exists (c86_ec (fill 100 65 ++ [66])), (c86_ec (fill 100 65 ++ [67])). split; [vm_compute; discriminate|vm_compute; reflexivity]. Qed.
Print Assumptions C86_devices_told_apart_refuted.

(** Only the status of the last response is looked at (:413): data the server refused is given up, with a
    success. *)
Theorem C86_refused_data_noticed_refuted : exists w o st w',
  port_post c65_sources (mk_uc [] false) (c86_ec (str "d")) 4096 (c86_env [mk_pf 0 500; c86_ok]) w pk_init = Some (o, st, w') /\
  eo_rv o = 0 /\ eo_sync o = Some true /\ (exists p, In p (eo_posts o) /\ pf_status (po_answer p) = 500) /\ w' = [].
Proof.
  destruct (port_post c65_sources (mk_uc [] false) (c86_ec (str "d")) 4096 (c86_env [mk_pf 0 500; c86_ok]) [[1; 2; 3]; [4]] pk_init) as [[[o st] w']|] eqn:E; [|vm_compute in E; discriminate].
  exists [[1; 2; 3]; [4]], o, st, w'. split; [exact E|]. vm_compute in E. injection E as <- <- <-. split; [reflexivity|]. split; [reflexivity|]. split; [eexists; split; [left; reflexivity|reflexivity]|reflexivity].
Qed.
Print Assumptions C86_refused_data_noticed_refuted.

(** A message is lost if the post of its last chunk fails: nothing is aborted. *)
Theorem C86_failed_post_keeps_the_message_refuted : exists w o st w',
  port_post c65_sources (mk_uc [] false) (c86_ec (str "d")) 4096 (c86_env [mk_pf 0x7002 0]) w pk_init = Some (o, st, w') /\
  eo_rv o < 0 /\ server_has (eo_posts o) = [] /\ w <> [] /\ w' = [] /\ eo_bytes o = Some 7.
Proof.
  destruct (port_post c65_sources (mk_uc [] false) (c86_ec (str "d")) 4096 (c86_env [mk_pf 0x7002 0]) [[1; 2; 3]] pk_init) as [[[o st] w']|] eqn:E; [|vm_compute in E; discriminate].
  exists [[1; 2; 3]], o, st, w'. split; [exact E|]. vm_compute in E. injection E as <- <- <-. split; [vm_compute; reflexivity|]. split; [reflexivity|]. split; [discriminate|]. split; reflexivity.
Qed.
Print Assumptions C86_failed_post_keeps_the_message_refuted.

(** If it is not the last chunk, the rest is posted the next time: what the server puts together of that is
    not the message, which is lost with two uploads that the device takes for one success. *)
Theorem C86_retry_resends_refuted : exists w rs st w',
  e_run c65_sources (mk_uc [] false) (c86_ec (str "d")) 4096 c65_app w pk_init [EUp (c86_env [mk_pf 0x7002 0]); EUp (c86_env [c86_ok])] = Some (rs, st, w') /\
  map eo_rv (outs rs) = [-29674; 0] /\ w <> [] /\ w' = [] /\ snd (cloud None (server_has (all_posts rs))) = [].
Proof.
  destruct (e_run c65_sources (mk_uc [] false) (c86_ec (str "d")) 4096 c65_app [fill 2100 7] pk_init [EUp (c86_env [mk_pf 0x7002 0]); EUp (c86_env [c86_ok])]) as [[[rs st] w']|] eqn:E; [|vm_compute in E; discriminate].
  exists [fill 2100 7], rs, st, w'. split; [exact E|]. vm_compute in E. injection E as <- <- <-. split; [reflexivity|]. split; [discriminate|]. split; [reflexivity|vm_compute; reflexivity].
Qed.
Print Assumptions C86_retry_resends_refuted.

(** memfault/http/http_client.h:111-115: without data, memfault_http_client_post_data() is to return
    kMfltPostDataStatus_NoDataFound, 1.  This port returns 0. *)
Theorem C86_no_data_reported_refuted : exists o st w',
  platform_post c65_sources (mk_uc [] false) (c86_ec (str "d")) 4096 (c86_env []) [] pk_init = Some (o, st, w') /\ eo_rv o = 0 /\ eo_rv o <> 1 /\ eo_posts o = [].
Proof.
  destruct (platform_post c65_sources (mk_uc [] false) (c86_ec (str "d")) 4096 (c86_env []) [] pk_init) as [[[o st] w']|] eqn:E; [|vm_compute in E; discriminate].
  exists o, st, w'. split; [reflexivity|]. vm_compute in E. injection E as <- <- <-. split; [reflexivity|]. split; [discriminate|reflexivity].
Qed.
Print Assumptions C86_no_data_reported_refuted.

(** Two events, the first in two posts; another arrives; a call while the network is down; then one that
    finishes. *)
Example C86_case :
  (do x <- e_run c65_sources (mk_uc [] false) (c86_ec (str "d")) 4096 c65_app [fill 2100 7; [21]] pk_init
     [EUp (c86_env [c86_ok; c86_ok; c86_ok]); EApp [22; 23]; EUp (mk_ee [mk_nif true 0 0] true (fun _ => None) [] 0); EUp (mk_ee c86_up_net true (fun _ => None) [] 0); EChunk (c86_env [mk_pf 0 200])];
   let '(rs, _, w) := x in Some (map (fun o => (eo_rv o, eo_bytes o, eo_sync o, map (fun p => zlen (po_body p)) (eo_posts o), eo_evs o)) (outs rs), w, map (fun x => zlen (fst x)) (snd (cloud None (server_has (all_posts rs))))))
  = Some ([(0, Some 2114, Some true, [2048; 61; 5], [EInit true; EMalloc 4096 false; EMalloc 2048 true; EFree; ECleanup]);
           (-1, None, None, [], []);
           (-1, None, Some false, [], [EInit true; EMalloc 4096 false; EMalloc 2048 false; ECleanup]);
           (0, Some 6, None, [6], [EInit true; EMalloc 4096 false; EMalloc 2048 true; EFree; ECleanup])],
     [], [2101; 2; 3]).
Proof. vm_compute. reflexivity. Qed.
(** The sources of the example are among those covered. *)
Lemma C86_case_covered : keeps_contract c65_sources (mk_uc [] false) c65_app c65_dev c65_rel.
Proof. exact (proj1 C65_case_contract). Qed.
