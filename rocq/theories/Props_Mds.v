(** C88, C89: the Memfault Diagnostic Service over BLE. *)
From Coq Require Import String.
From Verif Require Import Base Packetizer PacketizerSpec PacketizerProofs Uplink UplinkSpec UplinkProofs Mds MdsSpec MdsProofs Device DeviceSpec Props_Uplink.

(** From boot on, for all events of any connections, in any order, and whatever the BLE stack and the heap
    answer: the history is as specified (only the subscriber is sent anything, only while streaming is on; a
    value that could not be sent comes again before any other; numbers count; requests are answered); the
    chunks sent, with the one that is kept, hold exactly the messages given up; every block is freed once.
    While the history is steady, a subscriber that turned streaming on has a notification under way or the
    timer running.  Once a notification has gone out, the next follows if there is data. *)
Theorem C88_streaming : forall W A O R (so : sources W) cfg (app : W -> O -> option (R * W)) (dev : device A O R) rel mc junk,
  keeps_contract so cfg app dev rel -> zlen junk = 64 ->
  forall w a ops, rel None w a -> Forall (m_fine (fine dev)) ops ->
  exists ops1 rs m st w' a' t got k s p calm, m_played dev ops ops1 a' /\ m_run so cfg mc junk app mds_boot w pk_init ops1 = Some (rs, m, st, w') /\
    deeds dev a t a' /\ app_deeds t = m_calls ops1 rs /\ story mc seen_boot pulse_boot ops1 rs s p calm /\
    cloud None (map chunk_of (sent_values (m_outs rs) ++ kept_list s)) = (k, got) /\ received cfg got (sent t) /\
    blocks (m_outs rs ++ cleanup m) 0 = Some 0 /\
    (calm -> p_asked p = true -> 0 < p_air p \/ p_timer p = true) /\
    forall c e, n_sub s = Some c -> n_on s = true -> n_env_ok e -> ne_mtu e <> None -> ne_mem e <> None ->
      exists o m2 st2 w2 a2 t2, m_step so cfg mc junk app m w' st (MSent c e) = Some (MROut o, m2, st2, w2) /\ deeds dev a' t2 a2 /\
        ((exists v, In (ONotify c v (ne_send e)) o) \/ forall s, enabled (pk_mask st) s = true -> offer dev s a2 = None).
Proof. intros W A O R so cfg app dev rel mc junk K J. exact (m_accounts so cfg app dev rel K mc junk J). Qed.
Print Assumptions C88_streaming.

(** Reads give the value from the offset on, and never memory outside it. *)
Theorem C89_reads : forall mc junk access c h off, zlen junk = 64 -> 0 <= off ->
  handle_read mc junk access c h off = Some (OReadCfm c h (fst (shown mc access h off)) (snd (shown mc access h off))).
Proof. exact handle_read_ok. Qed.
Print Assumptions C89_reads.

(** Without access nothing is read, subscribed or changed. *)
Theorem C89_no_access : forall W (so : sources W) cfg mc junk e c h off v m w st, zlen junk = 64 -> 0 <= off ->
  handle_read mc junk false c h off = Some (OReadCfm c h 2 []) /\
  exists o, handle_write so cfg false e c h off v m w st = Some (m, o, st, w) /\ forall c' x ok, ~ In (ONotify c' x ok) o.
Proof. intros. split; [reflexivity|]. eexists. split; [reflexivity|]. intros c' x ok [X|[]]. discriminate. Qed.
Print Assumptions C89_no_access.

Definition c88_mc : m_cfg := mk_mc (str "https://chunks.memfault.com/api/v0/chunks/") (str "k3y") (str "dev1").
Definition c88_junk : list Z := fill 64 0xAA.
Definition c88_e (mtu : Z) (ok : bool) : n_env := mk_ne (Some mtu) (Some (fill (mtu - 3) 0)) ok.
Definition c88_run (w : list (list Z)) (ops : list (@m_op (list Z))) := m_run c65_sources (mk_uc [] false) c88_mc c88_junk c65_app mds_boot w pk_init ops.
Definition c88_sub (c : Z) : @m_op (list Z) := MWrite true (c88_e 23 true) c HCccd 0 [1; 0].
Definition c88_unsub (c : Z) : @m_op (list Z) := MWrite true (c88_e 23 true) c HCccd 0 [0; 0].
Definition c88_start (c : Z) (e : n_env) : @m_op (list Z) := MWrite true e c HChunk 0 [1].
Definition c88_numbers (l : list out) : list (Z * Z) := flat_map (fun o => match o with ONotify c (n :: _) true => [(c, n)] | _ => [] end) l.

(** A client that reconnects expects numbers from 0 on.  A chunk that could not be sent keeps the number of
    the last connection; the one behind it has number 1. *)
Theorem C88_numbers_restart_refuted : exists ops rs m st w', c88_run [fill 60 7] ops = Some (rs, m, st, w') /\ 
  c88_numbers (m_outs rs) = [(1, 0); (1, 1); (5, 2); (5, 1)].
Proof.
  set (ops := [c88_sub 1; c88_start 1 (c88_e 23 true); MSent 1 (c88_e 23 true); MSent 1 (c88_e 23 false); MGone 1; c88_sub 5; c88_start 5 (c88_e 23 true); MSent 5 (c88_e 23 true)]).
  destruct (c88_run [fill 60 7] ops) as [[[[rs m] st] w']|] eqn:E; [|vm_compute in E; discriminate]. exists ops, rs, m, st, w'. split; [exact E|].
  vm_compute in E. injection E as <- <- <- <-. reflexivity.
Qed.
Print Assumptions C88_numbers_restart_refuted.

(** :309-311 says the mode does not outlive a subscription.  It does if the client unsubscribes: the next one
    is sent data without having asked for it, with numbers that go on. *)
Theorem C88_streaming_asked_for_refuted : exists ops rs m st w', c88_run [fill 60 7] ops = Some (rs, m, st, w') /\
  (forall e off v, ~ In (MWrite true e 5 HChunk off v) ops) /\ c88_numbers (m_outs rs) = [(1, 0); (5, 1)].
Proof.
  set (ops := [c88_sub 1; c88_start 1 (c88_e 23 true); c88_unsub 1; MGone 1; c88_sub 5; MTimer [(5, c88_e 23 true)]]).
  destruct (c88_run [fill 60 7] ops) as [[[[rs m] st] w']|] eqn:E; [|vm_compute in E; discriminate]. exists ops, rs, m, st, w'. split; [exact E|]. split.
  - intros e off v H. repeat (destruct H as [H|H]; [discriminate H|]). destruct H.
  - vm_compute in E. injection E as <- <- <- <-. reflexivity.
Qed.
Print Assumptions C88_streaming_asked_for_refuted.

(** Any connection that ends stops the timer (:161), also one that has nothing to do with the service: new
    data is not sent until the client writes again. *)
Theorem C88_others_do_not_stop_the_stream_refuted : exists ops rs m st w', c88_run [] (ops ++ [MGone 2; MApp [1; 2; 3]]) = Some (rs, m, st, w') /\
  m_active m = true /\ m_conn m = 1 /\ m_mode m = true /\ w' <> [] /\ c88_numbers (m_outs rs) = [] /\ timer_after false (m_outs rs) = false.
Proof.
  set (ops := [c88_sub 1; c88_start 1 (c88_e 23 true)]).
  destruct (c88_run [] (ops ++ [MGone 2; MApp [1; 2; 3]])) as [[[[rs m] st] w']|] eqn:E; [|vm_compute in E; discriminate]. exists ops, rs, m, st, w'. split; [exact E|].
  vm_compute in E. injection E as <- <- <- <-. repeat (split; [reflexivity|]). split; [discriminate|]. split; reflexivity.
Qed.
Print Assumptions C88_others_do_not_stop_the_stream_refuted.

(** If the MTU cannot be had (:178-180), the timer is not started: nothing is sent any more. *)
Theorem C88_failures_are_retried_refuted : exists ops rs m st w', c88_run [[1; 2; 3]] ops = Some (rs, m, st, w') /\
  m_active m = true /\ m_conn m = 1 /\ m_mode m = true /\ w' <> [] /\ c88_numbers (m_outs rs) = [] /\ timer_after false (m_outs rs) = false.
Proof.
  set (ops := [c88_sub 1; c88_start 1 (mk_ne None None true)]).
  destruct (c88_run [[1; 2; 3]] ops) as [[[[rs m] st] w']|] eqn:E; [|vm_compute in E; discriminate]. exists ops, rs, m, st, w'. split; [exact E|].
  vm_compute in E. injection E as <- <- <- <-. repeat (split; [reflexivity|]). split; [discriminate|]. split; reflexivity.
Qed.
Print Assumptions C88_failures_are_retried_refuted.

(** A chunk that is kept has the size of the old connection: it may not fit a notification of the new one. *)
Theorem C88_notifications_fit_refuted : exists ops rs m st w', c88_run [fill 60 7] ops = Some (rs, m, st, w') /\
  exists v, In (ONotify 5 v false) (m_outs rs) /\ 23 - 3 < zlen v /\
  Forall (fun o => match o with MWrite _ e 5 _ _ _ | MSent 5 e => ne_mtu e = Some 23 | _ => True end) ops.
Proof.
  set (ops := [c88_sub 1; c88_start 1 (c88_e 50 false); MGone 1; c88_sub 5; c88_start 5 (c88_e 23 false)]).
  destruct (c88_run [fill 60 7] ops) as [[[[rs m] st] w']|] eqn:E; [|vm_compute in E; discriminate]. exists ops, rs, m, st, w'. split; [exact E|].
  vm_compute in E. injection E as <- <- <- <-. eexists. split; [do 7 right; left; reflexivity|]. split; [vm_compute; reflexivity|]. unfold ops. repeat constructor.
Qed.
Print Assumptions C88_notifications_fit_refuted.

(** A write without access is answered with the confirmation of a read (:359): the write stays unconfirmed. *)
Theorem C89_writes_confirmed_refuted : exists ops rs m st w', c88_run [] ops = Some (rs, m, st, w') /\
  (exists e h off v, In (MWrite false e 1 h off v) ops) /\ forall c h s, ~ In (OWriteCfm c h s) (m_outs rs).
Proof.
  exists [MWrite false (c88_e 23 true) 1 HCccd 0 [1; 0]], [MROut [OReadCfm 1 HCccd 3 []]], mds_boot, pk_init, []. split; [reflexivity|].
  split; [do 4 eexists; left; reflexivity|]. intros c h s [X|[]]. discriminate.
Qed.
Print Assumptions C89_writes_confirmed_refuted.

(** Two clients, an event of 60 bytes in parts, a failure and a retry by the timer *)
Example C88_case :
  (do x <- c88_run [fill 60 7]
     [c88_sub 1; c88_sub 2; c88_start 2 (c88_e 23 true); c88_start 1 (c88_e 23 true); MSent 1 (c88_e 23 false); MTimer [(2, c88_e 23 true); (1, c88_e 23 true)];
      MSent 1 (c88_e 23 true); MSent 1 (c88_e 23 true); MApp [9]; MTimer [(1, c88_e 23 true)]];
   let '(rs, m, _, w) := x in Some (c88_numbers (m_outs rs), flat_map (fun o => match o with OWriteCfm _ _ s => [s] | _ => [] end) (m_outs rs), w,
     map (fun x => zlen (fst x)) (snd (cloud None (map chunk_of (sent_values (m_outs rs)))))))
  = Some ([(1, 0); (1, 1); (1, 2); (1, 3); (1, 4)], [0; 129; 131; 0], [], [61; 2]).
Proof. vm_compute. reflexivity. Qed.
Example C89_case :
  map (fun x => handle_read c88_mc c88_junk (fst (fst x)) 1 (snd (fst x)) (snd x)) [(true, HUri, 40); (true, HAuth, 21); (true, HId, 5); (false, HId, 0); (true, HChunk, 0)]
  = [Some (OReadCfm 1 HUri 0 (str "s/dev1")); Some (OReadCfm 1 HAuth 0 (str "k3y")); Some (OReadCfm 1 HId 0 []); Some (OReadCfm 1 HId 2 []); Some (OReadCfm 1 HChunk 2 [])].
Proof. vm_compute. reflexivity. Qed.
(** The sources of the examples are among those covered. *)
Lemma C88_case_covered : keeps_contract c65_sources (mk_uc [] false) c65_app c65_dev c65_rel.
Proof. exact (proj1 C65_case_contract). Qed.
