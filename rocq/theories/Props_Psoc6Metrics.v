(** C123: metrics of the PSoC 6 port *)
From Verif Require Import Base Metrics MetricsSpec MetricsBuiltin MetricsBuiltinSpec ConnTime ConnTimeSpec ConnTimeProofs Psoc6Metrics Psoc6MetricsSpec Psoc6MetricsProofs.

(** The connected time is the time online, the connecting time that of attempts that are not interrupted, and the counters
    those of the events. *)
Theorem C123_connections : forall defs timers k h l, mdefs_ok defs ->
  NoDup [k6_connecting k; k6_connected k; k6_connects k; k6_reconnects k; k6_failures k; k6_disconnects k] ->
  is_timer defs h (k6_connecting k) -> is_timer defs h (k6_connected k) ->
  (forall x, In x [k6_connects k; k6_reconnects k; k6_failures k; k6_disconnects k] -> is_counter defs h x) ->
  others [k6_connecting k; k6_connected k; k6_connects k; k6_reconnects k; k6_failures k; k6_disconnects k] l -> in_order 0 l ->
  reports defs timers h (wcm_ops k) l (k6_connected k) (shows (time_while wlan_next online6 wlan0 0 0 l)) /\
  (always wlan_next one_attempt wlan0 (events l) ->
   reports defs timers h (wcm_ops k) l (k6_connecting k) (shows (time_while wlan_next trying wlan0 0 0 l))) /\
  reports defs timers h (wcm_ops k) l (k6_connects k) (counted (times_that wlan_next (fun _ => is_evt WConnected) wlan0 0 l)) /\
  reports defs timers h (wcm_ops k) l (k6_reconnects k) (counted (times_that wlan_next (fun _ => is_evt WReconnected) wlan0 0 l)) /\
  reports defs timers h (wcm_ops k) l (k6_failures k) (counted (times_that wlan_next (fun _ => is_evt WFailed) wlan0 0 l)) /\
  reports defs timers h (wcm_ops k) l (k6_disconnects k) (counted (times_that wlan_next (fun _ => is_evt WDisconnected) wlan0 0 l)).
Proof. exact wcm_all. Qed.
Print Assumptions C123_connections.

(** Every heartbeat says the size of the heap, what is free of it, and what was never handed out; the signal strength and the
    channel when there is an access point; and as bytes sent those received since they were read last. *)
Theorem C123_heartbeats : forall k l pre x post, keys_ok6 k -> l = pre ++ x :: post -> heap_ok x ->
  exists ops, nth_error (collects6 k (0, 0) l) (length pre) = Some ops /\
    last_set (k6_total k) ops = Some (heap_size x) /\
    last_set (k6_free k) ops = Some (heap_size x - h_used x) /\
    last_set (k6_minfree k) ops = Some (heap_size x - h_arena x) /\
    last_set (k6_signal k) ops = option_map fst (s_ap x) /\
    last_set (k6_channel k) ops = option_map (fun p => snd p mod 2^32) (s_ap x) /\
    last_set (k6_tx k) ops = option_map (fun p => (snd p - snd (before6 pre)) mod 2^32) (s_stat x) /\
    last_set (k6_rx k) ops = None.
Proof.
  intros k l pre x post K E H. eexists. split; [exact (collects_nth k l (0, 0) pre x post E)|]. fold (before6 pre).
  destruct (collect_says k (before6 pre) x K) as (A & B & C & D & F & G & I). unfold heap_ok, heap_size in *.
  rewrite A, B, C, D, F, G, I. rewrite !(u32_id (h_limit x - h_base x)) by (unfold is_u32; lia). rewrite !u32_id by (unfold is_u32; lia).
  destruct (s_ap x), (s_stat x); repeat split.
Qed.
Print Assumptions C123_heartbeats.
(** What was never handed out is no more than what was free at any heartbeat so far. *)
Theorem C123_never_more_than_free : forall l pre x post, l = pre ++ x :: post -> growing 0 l -> Forall heap_ok l ->
  (forall y, In y l -> heap_size y = heap_size x) -> forall y, In y (pre ++ [x]) -> heap_size x - h_arena x <= heap_size y - h_used y.
Proof.
  intros l pre x post -> G F SZ y Y. assert (A : h_arena y <= h_arena x).
  { clear - G Y. revert G. generalize 0. induction pre as [|z pre IH]; cbn [app growing In] in *; intros a G.
    - destruct Y as [->|[]]. lia.
    - destruct Y as [->|Y]; [|exact (IH Y _ (proj2 G))]. clear IH. destruct G as [_ G]. revert G. generalize (h_arena y).
      induction pre as [|w pre IH]; cbn [app growing]; intros b G; [lia|]. destruct G as [G1 G]. specialize (IH _ G). lia. }
  rewrite Forall_forall in F. assert (IY : In y (pre ++ x :: post)) by (rewrite in_app_iff in *; cbn in *; tauto). specialize (F y IY). specialize (SZ y IY). unfold heap_ok in F. lia.
Qed.
Print Assumptions C123_never_more_than_free.

Definition ex_k6 : hkeys6 := mk_hk6 0 1 2 3 4 5 6.
Definition ex_c6 : ckeys6 := mk_ck6 0 1 2 3 4 5.
Definition ex_d6 : list mdef := [mk_mdef MTimer 0 0; mk_mdef MTimer 0 0; mk_mdef MUnsigned 0 0; mk_mdef MUnsigned 0 0; mk_mdef MUnsigned 0 0; mk_mdef MUnsigned 0 0].
Definition seen6 (l : list (hev wcm_evt)) (x : Z) : option (list (option mitem)) :=
  do r <- me_run ex_d6 [] (ms_init ex_d6) (flat_map (hev_ops (wcm_ops ex_c6) 0) l); Some (reported (event_index 0 ex_d6 x) (fst r)).
Definition ex_l6 : list (hev wcm_evt) :=
  [HEvent WConnecting 100; HEvent WFailed 400; HEvent WConnecting 500; HEvent WConnected 700; HBeat 1000; HEvent WDisconnected 1200; HEvent WReconnected 1500; HBeat 2000].
(** A failed and a good attempt, a loss and a reconnection; two heartbeats, the first with an access point. *)
Example C123_case :
  seen6 ex_l6 0 = Some [Some (IUnsigned 500); Some (IUnsigned 0)] /\ seen6 ex_l6 1 = Some [Some (IUnsigned 300); Some (IUnsigned 700)] /\
  seen6 ex_l6 4 = Some [Some (IUnsigned 1); Some INull] /\ seen6 ex_l6 3 = Some [Some INull; Some (IUnsigned 1)] /\
  map (fun ops => map (fun k => last_set k ops) [0; 1; 2; 3; 4; 5; 6])
    (collects6 ex_k6 (0, 0) [mk_s6 0x08010000 0x08020000 4096 1000 (Some (-60, 11)) (Some (10, 500)); mk_s6 0x08010000 0x08020000 4096 2000 None (Some (30, 1700))])
  = [[Some 65536; Some 61440; Some 64536; Some (-60); Some 11; Some 500; None]; [Some 65536; Some 61440; Some 63536; None; None; Some 1200; None]] /\
  heap_ok (mk_s6 0x08010000 0x08020000 4096 1000 None None) /\ keys_ok6 ex_k6.
Proof. repeat split; try (vm_compute; (reflexivity || discriminate)). unfold keys_ok6. repeat constructor; cbn; intuition discriminate. Qed.

(** ** What is not true *)
(** The bytes sent are overwritten with those received (:73-74). *)
Theorem C123_bytes_sent_refuted : ~ (forall k l pre x post tx rx, keys_ok6 k -> l = pre ++ x :: post -> heap_ok x -> s_stat x = Some (tx, rx) ->
  exists ops, nth_error (collects6 k (0, 0) l) (length pre) = Some ops /\ last_set (k6_tx k) ops = Some ((tx - fst (before6 pre)) mod 2^32)).
Proof.
  intros H. pose (x := mk_s6 0x08010000 0x08020000 4096 1000 None (Some (10, 500))).
  destruct (H ex_k6 [x] [] x [] 10 500) as (ops & A & B); try reflexivity; [apply C123_case|repeat split; vm_compute; (reflexivity || discriminate)|].
  cbn in A. injection A as <-. vm_compute in B. discriminate B.
Qed.
Print Assumptions C123_bytes_sent_refuted.
(** So the bytes received are never said. *)
Theorem C123_bytes_received_refuted : ~ (forall k l pre x post, keys_ok6 k -> l = pre ++ x :: post -> heap_ok x -> s_stat x <> None ->
  exists ops, nth_error (collects6 k (0, 0) l) (length pre) = Some ops /\ last_set (k6_rx k) ops <> None).
Proof.
  intros H. pose (x := mk_s6 0x08010000 0x08020000 4096 1000 None (Some (10, 500))).
  destruct (H ex_k6 [x] [] x []) as (ops & A & B); try reflexivity; [apply C123_case|repeat split; vm_compute; (reflexivity || discriminate)|discriminate|].
  cbn in A. injection A as <-. apply B. reflexivity.
Qed.
Print Assumptions C123_bytes_received_refuted.
(** An attempt that ends in a reconnection or a disconnection goes on being counted (:100-108). *)
Theorem C123_connecting_time_refuted : ~ (forall defs timers k h l, mdefs_ok defs ->
  NoDup [k6_connecting k; k6_connected k; k6_connects k; k6_reconnects k; k6_failures k; k6_disconnects k] ->
  is_timer defs h (k6_connecting k) -> is_timer defs h (k6_connected k) ->
  (forall x, In x [k6_connects k; k6_reconnects k; k6_failures k; k6_disconnects k] -> is_counter defs h x) ->
  others [k6_connecting k; k6_connected k; k6_connects k; k6_reconnects k; k6_failures k; k6_disconnects k] l -> in_order 0 l ->
  reports defs timers h (wcm_ops k) l (k6_connecting k) (shows (time_while wlan_next trying wlan0 0 0 l))).
Proof.
  intros H. pose (l := [HEvent WConnecting 100; HEvent WReconnected 200; HBeat 1000]).
  specialize (H ex_d6 [] ex_c6 0 l).
  assert (R : reports ex_d6 [] 0 (wcm_ops ex_c6) l 0 (shows (time_while wlan_next trying wlan0 0 0 l))).
  { apply H.
    - unfold mdefs_ok, ex_d6. repeat (apply Forall_cons; [cbn; lia|]). apply Forall_nil.
    - repeat constructor; cbn; intuition discriminate.
    - eexists. repeat split.
    - eexists. repeat split.
    - intros x [<-|[<-|[<-|[<-|[]]]]]; eexists; repeat split.
    - intros o IN. cbn in IN. intuition discriminate.
    - cbn. lia. }
  destruct (am_run ex_d6 [] (am_init ex_d6) (flat_map (hev_ops (wcm_ops ex_c6) 0) l)) as [(rs & a)|] eqn:A; [|vm_compute in A; discriminate A].
  destruct (R rs a A) as (s & M & W). assert (S : seen6 l 0 = Some [Some (IUnsigned 900)]) by reflexivity.
  unfold seen6 in S. rewrite M in S. cbn [bind fst] in S. rewrite W in S. vm_compute in S. discriminate S.
Qed.
Print Assumptions C123_connecting_time_refuted.
(** What was never handed out need not be what was free at some heartbeat: memory given back to the arena stays counted. *)
Theorem C123_least_free_refuted : ~ (forall k l pre x, keys_ok6 k -> l = pre ++ [x] -> growing 0 l -> Forall heap_ok l ->
  exists ops m, nth_error (collects6 k (0, 0) l) (length pre) = Some ops /\ last_set (k6_minfree k) ops = Some m /\ exists y, In y l /\ m = heap_size y - h_used y).
Proof.
  intros H. pose (x := mk_s6 0x08010000 0x08020000 4096 1000 None None).
  destruct (H ex_k6 [x] [] x) as (ops & m & A & B & y & [<-|[]] & Y); try reflexivity; [apply C123_case|cbn; lia|constructor; [repeat split; vm_compute; (reflexivity || discriminate)|constructor]|].
  cbn in A. injection A as <-. vm_compute in B. injection B as <-. vm_compute in Y. discriminate Y.
Qed.
Print Assumptions C123_least_free_refuted.
