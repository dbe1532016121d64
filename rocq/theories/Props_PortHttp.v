(** C93: posts with the HTTP clients of the mbedTLS and PSoC 6 ports. *)
From Coq Require Import String.
From Verif Require Import Base Packetizer PacketizerSpec PacketizerProofs Uplink UplinkSpec UplinkProofs HttpUtils HttpUtilsSpec HttpRequest HttpRequestSpec ZephyrHttp ZephyrHttpSpec ZephyrHttpProofs
  PortHttp PortHttpSpec PortHttpProofs Props_Uplink.

(** From boot on, whatever the application does between posts, however often clients are created, destroyed and
    dropped, and whatever the network does (mbedTLS: as long as a write takes all or fails): the messages given
    up by the sources are, in order, those of the posts; per post, if the request header was written (a result
    the code ignores), it sent one well-formed request with the chunk of exactly the message given up, and
    returned what the server answered (mbedTLS) or 0 (PSoC 6); or it was cut off in an unfinished request; or it
    sent nothing.  A post that finds no data leaves nothing to send. *)
Theorem C93_posts_deliver : forall W A O R (so : sources W) cfg (app : W -> O -> option (R * W)) (dev : device A O R) rel p lc junk,
  keeps_contract so cfg app dev rel -> zlen (lc_host lc) < 2 ^ 32 /\ zlen (lc_key lc) < 2 ^ 32 ->
  (forall f w a s m, rel f w a -> offer dev s a = Some m -> zlen (wire (u_cfg cfg) s m) < 2 ^ 31 - 3) ->
  zlen junk = 128 ->
  forall w a ops, rel None w a -> Forall (l_fine p lc (fine dev)) ops ->
  exists ops1 rs st w' l a' t log, l_played dev ops ops1 a' /\ l_run p so cfg lc junk app w pk_init None ops1 = Some (rs, st, w', l) /\
    deeds dev a t a' /\ app_deeds t = l_calls ops1 rs /\ sent t = concat (map e_acked log) /\
    cloud None (concat (map e_bodies log)) = (None, concat (map e_got log)) /\
    (l_headers rs -> Forall2 (fun u e => post_done p cfg lc (fst (fst u)) (snd (fst u)) (cn_out (snd u)) (e_bodies e) (e_got e) (e_acked e)) (l_posts rs) log) /\
    exists rv cb c st2 w2 l2 a2 t2, l_step p so cfg lc junk app w' st l LPost = Some (LRPost rv cb c, st2, w2, l2) /\ deeds dev a' t2 a2 /\
      (cb = None -> rv = 1 -> forall s, enabled (pk_mask st2) s = true -> offer dev s a2 = None).
Proof. intros W A O R so cfg app dev rel p lc junk K. exact (l_accounts so cfg app dev rel K p lc junk). Qed.
Print Assumptions C93_posts_deliver.

(** The status given to the callback is that of the response that arrived, whatever its pieces; -1 if none did. *)
Theorem C93_status_of_the_response : forall p r, bytes (rx_bytes r) -> zlen (rx_bytes r) < 2 ^ 31 ->
  exists code r' gone, wait_code p r = Some (code, r') /\ rx_bytes r = gone ++ rx_bytes r' /\
    (code = -1 \/ exists h, parse_http h_init gone false = Some (true, h) /\ code = h_status h).
Proof. exact wait_code_ok. Qed.
Print Assumptions C93_status_of_the_response.

(** Sending all of a buffer on the PSoC 6: success only if every byte went out, in order; a failure sent a proper
    prefix.  Whatever part of the buffer each send takes. *)
Theorem C93_psoc_all_or_a_prefix : forall t buf b s t', psoc_send t buf = (b, s, t') ->
  if b then s = buf else exists rest, buf = s ++ rest /\ rest <> [].
Proof. intros t buf b s t' H. destruct (psoc_send_ok _ _ _ _ _ H) as (X & Y & _). destruct b; auto. Qed.
Print Assumptions C93_psoc_all_or_a_prefix.

(** The same does not hold with mbedTLS: a write that takes a part is followed by one that starts over
    (M:226); success is reported though the server got something else. *)
Theorem C93_mbed_all_or_a_prefix_refuted : exists t buf s t', mbed_send t 0 buf = (true, s, t') /\ s <> buf /\ zlen s = zlen buf.
Proof. exists [TxTake 2; TxTake 2], [1; 2; 3; 4], [1; 2; 1; 2], []. split; [reflexivity|]. split; [discriminate|reflexivity]. Qed.
Print Assumptions C93_mbed_all_or_a_prefix_refuted.

(** Nor does the loop end: the index steps over the length of the buffer (M:225); it goes on for as many
    writes as succeed. *)
Lemma mbed_never n : forall idx, idx mod 64 = 0 -> snd (mbed_send (repeat (TxTake 64) n) idx (fill 65 1)) = [] /\ fst (fst (mbed_send (repeat (TxTake 64) n) idx (fill 65 1))) = false.
Proof.
  induction n as [|n IH]; intros idx M; cbn [repeat mbed_send]; change (zlen (fill 65 1)) with 65;
    (destruct (Z.eqb_spec idx 65) as [E|E]; [subst idx; discriminate M|]); [split; reflexivity|].
  change (64 <? 0) with false. cbv iota. change (Z.min 64 65) with 64.
  assert (M2 : u32 (idx + 64) mod 64 = 0).
  { unfold u32. change (2 ^ 32) with (64 * 67108864). rewrite Z.rem_mul_r, Z.mul_comm by lia. rewrite Z.mod_add by lia. rewrite Z.mod_mod by lia.
    rewrite <- Zplus_mod_idemp_r. change (64 mod 64) with 0. rewrite Z.add_0_r. exact M. }
  destruct (IH _ M2) as [I1 I2]. destruct (mbed_send (repeat (TxTake 64) n) (u32 (idx + 64)) (fill 65 1)) as [[b s] t]. split; assumption.
Qed.
Theorem C93_mbed_send_ends_refuted : exists buf, forall n, exists s, mbed_send (repeat (TxTake 64) n) 0 buf = (false, s, []).
Proof.
  exists (fill 65 1). intros n. destruct (mbed_never n 0 eq_refl) as [H1 H2]. destruct (mbed_send (repeat (TxTake 64) n) 0 (fill 65 1)) as [[b s] t]. cbn in H1, H2. subst. eauto.
Qed.
Print Assumptions C93_mbed_send_ends_refuted.

(** A connection the server has closed reads as nothing (M:250-255): the client goes on waiting for a response,
    however often that happens. *)
Theorem C93_mbed_closed_connection_refuted : forall n r, wait_code Mbed (repeat (RxData []) n ++ r) = wait_code Mbed r.
Proof. induction n as [|n IH]; intros r; [reflexivity|]. rewrite <- (IH r). reflexivity. Qed.
Print Assumptions C93_mbed_closed_connection_refuted.

(** A failed post is reported (http_client.h:113-114: a negative value on a failure).  It is not: with both
    clients a request that could not be sent returns 0, kMfltPostDataStatus_Success (M:314, P:204), and the
    message is lost. *)
Definition c93_lc := mk_lc (str "dev1") (str "chunks.memfault.com") (str "k3y").
Definition c93_post p (w : list (list Z)) t r := l_post p c65_sources (mk_uc [] false) c93_lc (fill 128 0) w pk_init (new_conn t r).
Theorem C93_failed_send_is_reported_refuted : forall p, exists w t st w' c,
  suits p c93_lc t /\ c93_post p w t [] = Some (0, None, st, w', c) /\ cn_hdr c = true /\ w <> [] /\ w' = [].
Proof.
  intros p. set (t := repeat (TxTake 1000) 11 ++ [TxFail]).
  destruct (c93_post p [[1; 2; 3]] t []) as [[[[[rv cb] st] w'] c]|] eqn:E; [|destruct p; vm_compute in E; discriminate].
  exists [[1; 2; 3]], t, st, w', c. rewrite E. split; [destruct p; [exact I|]; repeat (apply Forall_cons; [cbn; first [exact I | right; vm_compute; repeat split; discriminate]|]); constructor|].
  destruct p; vm_compute in E; injection E as <- <- <- <- <-; (split; [reflexivity|]); (split; [reflexivity|]); (split; [discriminate|reflexivity]).
Qed.
Print Assumptions C93_failed_send_is_reported_refuted.

(** The PSoC 6 client also returns 0 when nothing answers, and when the server refuses the data (P:221). *)
Definition c93_reply (status : string) : rx := RxData (str "HTTP/1.1 " ++ str status ++ [13; 10] ++ str "Content-Length: 2" ++ [13; 10; 13; 10] ++ str "ok").
Theorem C93_psoc_result_is_the_answer_refuted : exists w t st w' c st2 w2 c2,
  c93_post Psoc6 w t [] = Some (0, Some (-1), st, w', c) /\ c93_post Psoc6 w t [c93_reply "503 Service Unavailable"] = Some (0, Some 503, st2, w2, c2) /\
  w <> [] /\ w' = [] /\ w2 = [].
Proof.
  set (t := repeat (TxTake 1000) 20).
  destruct (c93_post Psoc6 [[1; 2; 3]] t []) as [[[[[rv cb] st] w'] c]|] eqn:E; [|vm_compute in E; discriminate].
  destruct (c93_post Psoc6 [[1; 2; 3]] t [c93_reply "503 Service Unavailable"]) as [[[[[rv2 cb2] st2] w2] c2]|] eqn:E2; [|vm_compute in E2; discriminate].
  exists [[1; 2; 3]], t, st, w', c, st2, w2, c2. rewrite E, E2. vm_compute in E, E2. injection E as <- <- <- <- <-. injection E2 as <- <- <- <- <-.
  split; [reflexivity|]. split; [reflexivity|]. split; [discriminate|]. split; reflexivity.
Qed.
Print Assumptions C93_psoc_result_is_the_answer_refuted.

(** The mbedTLS client takes a response that is not HTTP for a success: the parse error is not looked at and the
    status is 0 then (M:269-275, M:331). *)
Theorem C93_mbed_success_is_202_refuted : exists w t r st w' c,
  suits Mbed c93_lc t /\ c93_post Mbed w t [RxData r] = Some (0, Some 0, st, w', c) /\ cn_hdr c = true /\ w <> [] /\ w' = [].
Proof.
  set (t := repeat (TxTake 1000) 20). set (r := str "SSH-2.0-OpenSSH_9.6" ++ [13; 10]).
  destruct (c93_post Mbed [[1; 2; 3]] t [RxData r]) as [[[[[rv cb] st] w'] c]|] eqn:E; [|vm_compute in E; discriminate].
  exists [[1; 2; 3]], t, r, st, w', c. rewrite E.
  split; [repeat (apply Forall_cons; [cbn; right; vm_compute; repeat split; discriminate|]); constructor|].
  vm_compute in E. injection E as <- <- <- <- <-. split; [reflexivity|]. split; [reflexivity|]. split; [discriminate|reflexivity].
Qed.
Print Assumptions C93_mbed_success_is_202_refuted.

(** A request header that could not be written is not noticed (M:299, P:189): the body goes out alone. *)
Theorem C93_header_failure_noticed_refuted : forall p, exists w t r st w' c,
  c93_post p w t r = Some (0, Some 202, st, w', c) /\ cn_out c = [8; 2; 1; 2; 3; 89; 140] /\ w' = [].
Proof.
  intros p. set (t := [TxFail; TxTake 1000; TxTake 1000]). set (r := [c93_reply "202 Accepted"]).
  destruct (c93_post p [[1; 2; 3]] t r) as [[[[[rv cb] st] w'] c]|] eqn:E; [|destruct p; vm_compute in E; discriminate].
  exists [[1; 2; 3]], t, r, st, w', c. rewrite E. destruct p; vm_compute in E; injection E as <- <- <- <- <-; (split; [reflexivity|]); split; reflexivity.
Qed.
Print Assumptions C93_header_failure_noticed_refuted.

(** Two events; nothing to post to at first; then one post is answered in pieces and one is refused; a third
    event arrives, its post is cut off, and the next one finds nothing. *)
Example C93_case : forall p,
  (do x <- l_run p c65_sources (mk_uc [] false) c93_lc (fill 128 0) c65_app [[1; 2; 3; 4; 5; 6; 7; 8; 9; 10; 11; 12; 13; 14]; [21]] pk_init None
     [LPost; LOpen (repeat (TxTake 1000) 33 ++ [TxTake 1000; TxTake 1000; TxFail]) [RxData (str "HTTP/1.1 202 Accep"); RxData (str "ted" ++ [13; 10] ++ str "Content-Length: 0" ++ [13; 10; 13; 10]); c93_reply "400 Bad Request"];
      LPost; LPost; LApp [22; 23]; LPost; LPost; LClose; LPost];
   let '(rs, _, w, _) := x in Some (map (fun u => (fst (fst u), snd (fst u), cn_hdr (snd u), zlen (cn_out (snd u)))) (l_posts rs), w))
  = Some ([(-1, None, true, 0); (0, Some 202, true, 196); (match p with Psoc6 => 0 | Mbed => 400 end, Some 400, true, 182); (0, None, true, 177); (1, None, true, 0); (-1, None, true, 0)], []).
Proof. intros []; vm_compute; reflexivity. Qed.
