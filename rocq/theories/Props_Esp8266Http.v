(** C115: uploads with the ESP8266 port. *)
From Coq Require Import String.
From Verif Require Import Base Packetizer PacketizerSpec PacketizerProofs Uplink UplinkSpec UplinkProofs EspHttp EspHttpSpec EspHttpProofs Esp8266Http Esp8266HttpSpec Esp8266HttpProofs Device DeviceSpec Props_Uplink.

(** From boot on, whatever the application does between uploads, whatever malloc() gives and however requests
    fail: the messages given up by the sources are, in order, those whose chunks were handed to the HTTP
    client; so, while every request is carried out, the server has them.  Per upload: each post goes to the
    device's URL, cut off after 127 characters, and holds a chunk; only the last can have failed; success if and
    only if it was carried out, and then its status is told.  Roots are tried in order until a GET with one is
    carried out; without one nothing is posted and the result is -1.  Memory and HTTP clients are given back
    once.  A successful upload leaves nothing to send. *)
Theorem C115_uploads_deliver : forall W A O R (so : sources W) cfg (app : W -> O -> option (R * W)) (dev : device A O R) rel ec most,
  keeps_contract so cfg app dev rel -> 0 < most < 4294967296 ->
  forall w a ops, rel None w a -> Forall (fine8 (fine dev)) ops ->
  exists ops1 rs st w' a' t got k, played8 dev ops ops1 a' /\ run8 so cfg ec most app w pk_init ops1 = Some (rs, st, w') /\
    deeds dev a t a' /\ app_deeds t = calls8 ops1 rs /\
    cloud None (map po_body (all_posts8 rs)) = (k, got) /\ received cfg got (sent t) /\
    (Forall carried_out (all_posts8 rs) -> cloud None (server_has (all_posts8 rs)) = (k, got)) /\
    Forall (upload8 (take 127 (chunks_url (ec_plain ec) (ec_chunks ec) (ec_serial ec))) most) (outs8 rs) /\
    Forall (fun o => held_after (o8_evs o) 0 0 = Some (0, 0) /\ probes (ec_plain ec) (take 127 (probe_url (ec_plain ec) (ec_chunks ec) (ec_serial ec))) (o8_gets o) /\
      (~ Exists got_on (o8_gets o) -> o8_posts o = []) /\ (o8_gets o <> [] -> ~ Exists got_on (o8_gets o) -> o8_rv o = -1)) (outs8 rs) /\
    forall e, env8_ok e -> exists o st2 w2 a2 t2, step8 so cfg ec most app w' st (Up8 true e) = Some (RUp8 o, st2, w2) /\ deeds dev a' t2 a2 /\
      (o8_rv o = 0 -> forall s, enabled (pk_mask st2) s = true -> offer dev s a2 = None) /\
      (e8_wifi e = false -> o8_rv o = -1 /\ o8_gets o = [] /\ o8_posts o = []).
Proof. intros W A O R so cfg app dev rel ec most K Hm. exact (accounts8 so cfg app dev rel K ec most Hm). Qed.
Print Assumptions C115_uploads_deliver.

(** The buffer: the largest of most, most / 2, most / 4, ... above 512 bytes that the heap has. *)
Theorem C115_largest_buffer : forall mem most, (forall n b, mem n = Some b -> zlen b = n) -> 0 < most ->
  match alloc8 mem most with
  | (Some b, l) => 512 < zlen b <= most /\ (exists k, 0 <= k /\ zlen b = most / 2 ^ k /\ mem (zlen b) = Some b /\ forall j, 0 <= j < k -> mem (most / 2 ^ j) = None) /\
      exists l', l = l' ++ [EMalloc (zlen b) true] /\ Forall (fun e => exists n, e = EMalloc n false) l'
  | (None, l) => (forall j, 0 <= j -> 512 < most / 2 ^ j -> mem (most / 2 ^ j) = None) /\ Forall (fun e => exists n, e = EMalloc n false) l
  end.
Proof. exact alloc8_ok. Qed.
Print Assumptions C115_largest_buffer.

(** B:15-17 accepts a largest buffer of 512 bytes.  With it, no buffer is ever asked for (B:27), and every upload
    with data fails, whatever the heap has. *)
Theorem C115_smallest_buffer_tried_refuted : forall mem, alloc8 mem 512 = (None, []).
Proof. reflexivity. Qed.
Print Assumptions C115_smallest_buffer_tried_refuted.

Definition c115_ec (plain : bool) : e_cfg := mk_ec plain (str "chunks.memfault.com") (str "device.memfault.com") (str "d") (str "evt") (str "app") (str "1.0").
Definition c115_env (ps : list perf) : env8 := mk_e8 true (fun _ => true) (fun n => if n <=? 2048 then Some (fill n 0) else None) ps 0.
Definition c115_ok : perf := mk_pf 0 202.
Definition c115_tls : perf := mk_pf 0x7002 0.

(** http_client.h:42-46 has 0 for success.  No status is looked at (H:199-206): an upload all of whose posts the
    server refuses returns 0, and the data is gone. *)
Theorem C115_refused_data_noticed_refuted : exists w o st w',
  port_post8 c65_sources (mk_uc [] false) (c115_ec false) 4096 (c115_env [mk_pf 0 401; mk_pf 0 401; mk_pf 0 500]) w pk_init = Some (o, st, w') /\
  o8_rv o = 0 /\ zlen (o8_posts o) = 2 /\ Forall (fun p => 400 <= pf_status (po_answer p)) (o8_posts o) /\ w' = [].
Proof.
  destruct (port_post8 c65_sources (mk_uc [] false) (c115_ec false) 4096 (c115_env [mk_pf 0 401; mk_pf 0 401; mk_pf 0 500]) [[1; 2; 3]; [4]] pk_init) as [[[o st] w']|] eqn:E; [|vm_compute in E; discriminate].
  exists [[1; 2; 3]; [4]], o, st, w'. split; [exact E|]. vm_compute in E. injection E as <- <- <-. split; [reflexivity|]. split; [reflexivity|]. split; [|reflexivity].
  constructor; [cbn; lia|]. constructor; [cbn; lia|constructor].
Qed.
Print Assumptions C115_refused_data_noticed_refuted.

(** H:130-133: memfault_platform_http_client_create() is to give NULL when it fails (H:143).  If
    esp_http_client_init() has no memory for a client, the NULL it gives is used. *)
Theorem C115_no_client_reported_refuted : exists w,
  port_post8 c65_sources (mk_uc [] false) (c115_ec false) 4096 (mk_e8 true (fun i => negb (i =? 0)) (fun n => Some (fill n 0)) [c115_ok; c115_ok] 0) w pk_init = None.
Proof. exists [[1; 2; 3]]. vm_compute. reflexivity. Qed.
Print Assumptions C115_no_client_reported_refuted.

(** A message is lost if the post of its last chunk fails. *)
Theorem C115_failed_post_keeps_the_message_refuted : exists w o st w',
  port_post8 c65_sources (mk_uc [] false) (c115_ec false) 4096 (c115_env [c115_ok; c115_tls]) w pk_init = Some (o, st, w') /\
  o8_rv o < 0 /\ server_has (o8_posts o) = [] /\ w <> [] /\ w' = [].
Proof.
  destruct (port_post8 c65_sources (mk_uc [] false) (c115_ec false) 4096 (c115_env [c115_ok; c115_tls]) [[1; 2; 3]] pk_init) as [[[o st] w']|] eqn:E; [|vm_compute in E; discriminate].
  exists [[1; 2; 3]], o, st, w'. split; [exact E|]. vm_compute in E. injection E as <- <- <-. split; [vm_compute; reflexivity|]. split; [reflexivity|]. split; [discriminate|reflexivity].
Qed.
Print Assumptions C115_failed_post_keeps_the_message_refuted.

(** The GETs are there to find the root (H:110-113).  Without TLS there is none to find; a server that is not
    reached is tried three times all the same, each time alike. *)
Theorem C115_no_repeated_probe_refuted : exists w o st w' g,
  port_post8 c65_sources (mk_uc [] false) (c115_ec true) 4096 (c115_env []) w pk_init = Some (o, st, w') /\ o8_gets o = [g; g; g] /\ o8_rv o = -1 /\ w' = w.
Proof.
  destruct (port_post8 c65_sources (mk_uc [] false) (c115_ec true) 4096 (c115_env []) [[1; 2; 3]] pk_init) as [[[o st] w']|] eqn:E; [|vm_compute in E; discriminate].
  exists [[1; 2; 3]], o, st, w', (mk_g8 (str "http://chunks.memfault.com/api/v0//d") None no_connection). split; [exact E|]. vm_compute in E. injection E as <- <- <-. auto.
Qed.
Print Assumptions C115_no_repeated_probe_refuted.

(** The first root does not work, the second does: an event in two posts and another; a call without Wi-Fi; one
    with no root that works; one without memory; one that finishes. *)
Example C115_case :
  (do x <- run8 c65_sources (mk_uc [] false) (c115_ec false) 4096 c65_app [fill 2100 7; [21]] pk_init
     [Up8 true (c115_env [c115_tls; mk_pf 0 404; c115_ok; c115_ok; c115_ok]); App8 [22; 23]; Up8 true (mk_e8 false (fun _ => true) (fun _ => None) [] 0);
      Up8 true (c115_env [c115_tls; c115_tls; c115_tls]); Up8 true (mk_e8 true (fun _ => true) (fun _ => None) [c115_ok] 0); Up8 false (c115_env [c115_ok; mk_pf 0 503])];
   let '(rs, _, w) := x in Some (map (fun o => (o8_rv o, o8_told o, map g8_root (o8_gets o), map (fun p => zlen (po_body p)) (o8_posts o), o8_evs o)) (outs8 rs), w, map (fun x => zlen (fst x)) (snd (cloud None (server_has (all_posts8 rs))))))
  = Some ([(0, Some 202, [Some DigicertG2; Some Amazon1], [2048; 61; 5], [EInit true; ECleanup; EInit true; EMalloc 4096 false; EMalloc 2048 true; EFree; ECleanup]);
           (-1, None, [], [], []);
           (-1, None, [Some DigicertG2; Some Amazon1; Some DigicertCA], [], [EInit true; ECleanup; EInit true; ECleanup; EInit true; ECleanup]);
           (-1, None, [Some DigicertG2], [], [EInit true; EMalloc 4096 false; EMalloc 2048 false; EMalloc 1024 false; ECleanup]);
           (0, Some 503, [Some DigicertG2], [6], [EInit true; EMalloc 4096 false; EMalloc 2048 true; EFree; ECleanup])],
     [], [2101; 2; 3]).
Proof. vm_compute. reflexivity. Qed.
(** The sources of the example are among those covered. *)
Lemma C115_case_covered : keeps_contract c65_sources (mk_uc [] false) c65_app c65_dev c65_rel.
Proof. exact (proj1 C65_case_contract). Qed.
