(** C82: uploads with Zephyr's HTTP client. *)
From Coq Require Import String.
From Verif Require Import Base Packetizer PacketizerSpec PacketizerProofs Uplink UplinkSpec UplinkProofs HttpUtils HttpUtilsSpec HttpRequest HttpRequestSpec ZephyrHttp ZephyrHttpSpec ZephyrHttpProofs
  Device DeviceSpec Props_Uplink Props_Device.

(** From boot on, whatever the application does between uploads and however often the network takes part of
    the data, stalls or fails: the messages given up by the sources are, in order, those of the uploads;
    per upload, if the results of writing the request headers that the code ignores are successes, what was
    sent is a stream of well-formed POST requests, as many as allowed, that hold the chunks of exactly the
    messages given up (success), or of all but possibly the last one, whose request is then unfinished
    (failure); the count of bytes is that of the bodies.  An upload that succeeds with fewer posts than the
    limit leaves nothing to send. *)
Theorem C82_uploads_deliver : forall W A O R (so : sources W) cfg (app : W -> O -> option (R * W)) (dev : device A O R) rel zc junk,
  keeps_contract so cfg app dev rel ->
  (forall f w a s m, rel f w a -> offer dev s a = Some m -> zlen (wire (u_cfg cfg) s m) < 2 ^ 31 - 3) ->
  zlen junk = (if zc_post zc =? 0 then 128 else zc_post zc) -> 0 <= zc_post zc < 2 ^ 31 ->
  forall w a ops, rel None w a -> Forall (z_fine (fine dev)) ops ->
  exists ops1 rs st w' a' t log k, z_played dev ops ops1 a' /\ z_run so cfg zc junk app w pk_init ops1 = Some (rs, st, w') /\
    deeds dev a t a' /\ app_deeds t = z_calls ops1 rs /\ sent t = concat (map e_acked log) /\
    cloud None (concat (map e_bodies log)) = (k, concat (map e_got log)) /\
    (headers_written rs -> Forall2 (fun u e => upload_ok cfg (zc_serial zc) (zc_host zc) (zc_key zc) (max_messages zc) (fst u) (cn_out (snd u)) (cn_bytes (snd u)) (e_bodies e) (e_got e) (e_acked e)) (uploads rs) log) /\
    forall tr rr, z_fine (fine dev) (ZUp tr rr) -> zc_post zc = 0 \/ 9 <= zc_post zc ->
      exists rv c st2 w2 a2 t2, z_step so cfg zc junk app w' st (ZUp tr rr) = Some (ZRUp rv c, st2, w2) /\ deeds dev a' t2 a2 /\
        (cn_hdr c = true -> rv = 0 -> (exists bodies, stream (zc_serial zc) (zc_host zc) (zc_key zc) bodies (cn_out c) /\ zlen bodies = max_messages zc) \/
                                      forall s, enabled (pk_mask st2) s = true -> offer dev s a2 = None).
Proof. intros W A O R so cfg app dev rel zc junk K. exact (z_accounts so cfg app dev rel K zc junk). Qed.
Print Assumptions C82_uploads_deliver.

(** Sending all of a buffer: success if and only if every byte went out, in order; a failure sent a proper
    prefix.  Whatever part of the buffer each send() takes. *)
Theorem C82_all_or_a_prefix : forall t buf, exists b s t', try_send t buf = (b, s, t') /\
  if b then s = buf else exists rest, buf = s ++ rest /\ rest <> [].
Proof. exact try_send_whole. Qed.
Print Assumptions C82_all_or_a_prefix.

(** Posting one chunk: success only if the request was sent completely and a response arrived; the two
    failures are told apart. *)
Theorem C82_post_chunk : forall zc c data, bytes (rx_bytes (cn_rx c)) -> zlen (rx_bytes (cn_rx c)) < 2 ^ 31 -> zlen data < 2 ^ 31 -> cn_hdr c = true ->
  exists rv c', post_chunk zc c data = Some (rv, c') /\
    (cn_hdr c' = true ->
       (rv = 0 /\ (exists gone h, rx_bytes (cn_rx c) = gone ++ rx_bytes (cn_rx c') /\ parse_http h_init gone false = Some (true, h)) \/ rv = -3) /\
       (exists req, posts (zc_serial zc) (zc_host zc) (zc_key zc) data req /\ cn_out c' = cn_out c ++ req) \/
       rv = -2 /\ exists part, unfinished (zc_serial zc) (zc_host zc) (zc_key zc) part /\ cn_out c' = cn_out c ++ part).
Proof. exact post_chunk_good. Qed.
Print Assumptions C82_post_chunk.

(** The header says an upload posts the data there is (memfault/ports/zephyr/http.h:27-36).  It stops after
    five posts, with a success, though there is more. *)
Definition c82_zc (post : Z) : z_cfg := mk_zc post 0 (str "dev1") (str "chunks.memfault.com") (str "k3y").
Definition c82_reply (status : string) : rx := RxData (str "HTTP/1.1 " ++ str status ++ [13; 10] ++ str "Content-Length: 2" ++ [13; 10; 13; 10] ++ str "ok").
Definition c82_up zc (w : list (list Z)) t r := ZephyrHttp.upload c65_sources (mk_uc [] false) zc (fill (if zc_post zc =? 0 then 128 else zc_post zc) 0) w pk_init (new_conn t r).
Theorem C82_success_sent_everything_refuted : exists w t r st w' c,
  c82_up (c82_zc 0) w t r = Some (0, st, w', c) /\ cn_hdr c = true /\ w' <> [].
Proof.
  set (t := repeat (TxTake 1000) 200). set (r := repeat (c82_reply "202 Accepted") 10).
  destruct (c82_up (c82_zc 0) (repeat [1; 2; 3] 6) t r) as [[[[rv st] w'] c]|] eqn:E; [|vm_compute in E; discriminate].
  exists (repeat [1; 2; 3] 6), t, r, st, w', c. rewrite E. vm_compute in E. injection E as <- <- <- <-. split; [reflexivity|]. split; [reflexivity|discriminate].
Qed.
Print Assumptions C82_success_sent_everything_refuted.

(** The limit is meant to be high enough for an entire coredump (:795-796).  It is not: a coredump that
    fills the RAM set aside for it is not uploaded within the limit. *)
Definition c82_core : list Z := [0x43; 0x4f; 0x52; 0x45; 2; 0; 0; 0; 60; 0; 0; 0] ++ fill 48 7.
Definition c82_dev := mk_dc (mk_uc [] false) (fun st => fill (zlen st) 0) None c66_env false 80.
Theorem C82_limit_fits_a_coredump_refuted : exists w t r st w' c, let zc := mk_zc 10 60 (str "dev1") (str "chunks.memfault.com") (str "k3y") in
  zlen c82_core = zc_cd zc /\ dv_boot c82_core (fill 40 0) (fill 64 0) 0 (fun _ => []) 2 128 = Some w /\
  ZephyrHttp.upload (dv_sources c82_dev) (dc_up c82_dev) zc (fill 10 0) w pk_init (new_conn t r) = Some (0, st, w', c) /\ cn_hdr c = true /\
  stored_core (co_st (w_core w')) = Some c82_core.
Proof.
  set (t := repeat (TxTake 1000) 300). set (r := repeat (c82_reply "202 Accepted") 10).
  destruct (dv_boot c82_core (fill 40 0) (fill 64 0) 0 (fun _ => []) 2 128) as [w|] eqn:Ew; [|vm_compute in Ew; discriminate].
  set (zc := mk_zc 10 60 (str "dev1") (str "chunks.memfault.com") (str "k3y")).
  destruct (ZephyrHttp.upload (dv_sources c82_dev) (dc_up c82_dev) zc (fill 10 0) w pk_init (new_conn t r)) as [[[[rv st] w'] c]|] eqn:E.
  - exists w, t, r, st, w', c. cbv zeta. fold zc. rewrite E. vm_compute in Ew. injection Ew as <-. vm_compute in E. injection E as <- <- <- <-.
    split; [reflexivity|]. split; [reflexivity|]. split; [reflexivity|]. split; reflexivity.
  - exfalso. vm_compute in Ew. injection Ew as <-. vm_compute in E. discriminate.
Qed.
Print Assumptions C82_limit_fits_a_coredump_refuted.

(** The status of the response is not looked at (:437-456): data the server refused is given up and counted. *)
Theorem C82_refused_data_is_kept_refuted : exists w t st w' c,
  c82_up (c82_zc 0) w t [c82_reply "503 Service Unavailable"] = Some (0, st, w', c) /\ cn_hdr c = true /\ cn_bytes c = 7 /\ w <> [] /\ w' = [].
Proof.
  set (t := repeat (TxTake 1000) 200).
  destruct (c82_up (c82_zc 0) [[1; 2; 3]] t [c82_reply "503 Service Unavailable"]) as [[[[rv st] w'] c]|] eqn:E; [|vm_compute in E; discriminate].
  exists [[1; 2; 3]], t, st, w', c. rewrite E. vm_compute in E. injection E as <- <- <- <-. split; [reflexivity|]. split; [reflexivity|]. split; [reflexivity|]. split; [discriminate|reflexivity].
Qed.
Print Assumptions C82_refused_data_is_kept_refuted.

(** A message whose last part cannot be sent is lost: it is given up when its last part is read, the abort
    that follows comes too late. *)
Theorem C82_failed_send_keeps_the_message_refuted : exists w t st w' c,
  c82_up (c82_zc 0) w t [] = Some (-1, st, w', c) /\ cn_hdr c = true /\ cn_bytes c = 0 /\ w <> [] /\ w' = [].
Proof.
  set (t := repeat (TxTake 1000) 11 ++ [TxFail]).
  destruct (c82_up (c82_zc 0) [[1; 2; 3]] t []) as [[[[rv st] w'] c]|] eqn:E; [|vm_compute in E; discriminate].
  exists [[1; 2; 3]], t, st, w', c. rewrite E. vm_compute in E. injection E as <- <- <- <-. split; [reflexivity|]. split; [reflexivity|]. split; [reflexivity|]. split; [discriminate|reflexivity].
Qed.
Print Assumptions C82_failed_send_keeps_the_message_refuted.

(** A request header that could not be written is not noticed (:360, :388): the body goes out alone and
    counts as posted if anything answers. *)
Theorem C82_header_failure_noticed_refuted : exists w t r st w' c,
  c82_up (c82_zc 0) w t r = Some (0, st, w', c) /\ cn_out c = [8; 2; 1; 2; 3; 89; 140] /\ w' = [].
Proof.
  set (t := [TxFail; TxTake 1000; TxTake 1000]). set (r := [c82_reply "400 Bad Request"]).
  destruct (c82_up (c82_zc 0) [[1; 2; 3]] t r) as [[[[rv st] w'] c]|] eqn:E; [|vm_compute in E; discriminate].
  exists [[1; 2; 3]], t, r, st, w', c. rewrite E. vm_compute in E. injection E as <- <- <- <-. split; [reflexivity|]. split; reflexivity.
Qed.
Print Assumptions C82_header_failure_noticed_refuted.

(** Two events; the first upload is cut off in the second post, in posts of 9 bytes, and a third event
    arrives before the next.  All arrive. *)
Definition c82_take n := repeat (TxTake n) 11.
Example C82_case :
  (do x <- z_run c65_sources (mk_uc [] false) (c82_zc 9) (fill 9 0) c65_app [[1; 2; 3; 4; 5; 6; 7; 8; 9; 10; 11; 12; 13; 14]; [21]] pk_init
     [ZUp (c82_take 1000 ++ [TxTake 5; TxAgain; TxTake 4] ++ c82_take 1000 ++ [TxFail]) [c82_reply "202 Accepted"; RxAgain];
      ZApp [22; 23]; ZUp (repeat (TxTake 1000) 60) (repeat (c82_reply "202 Accepted") 8)];
   let '(rs, _, w) := x in Some (map (fun u => (fst u, cn_bytes (snd u), cn_hdr (snd u), zlen (cn_out (snd u)))) (uploads rs), w))
  = Some ([(-1, 9, true, 363); (0, 34, true, 919)], []).
Proof. vm_compute. reflexivity. Qed.
(** The sources of the example are among those covered. *)
Lemma C82_case_covered : keeps_contract c65_sources (mk_uc [] false) c65_app c65_dev c65_rel /\
  (forall f w a s m, c65_rel f w a -> offer c65_dev s a = Some m -> zlen (wire (u_cfg (mk_uc [] false)) s m) < 2 ^ 31 - 3).
Proof.
  split; [exact (proj1 C65_case_contract)|]. intros f w a s m (<- & F & _) Ho. destruct s; try discriminate. destruct w as [|m0 r]; [discriminate|]. cbn in Ho. injection Ho as ->.
  destruct (Forall_inv F) as (F1 & F2). unfold wire, body, u_cfg, is_rle. cbn -[zlen Z.pow]. rewrite zlen_cons. lia.
Qed.
