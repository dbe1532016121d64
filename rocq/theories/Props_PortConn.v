(** C94: creating and destroying the HTTP clients of the mbedTLS and PSoC 6 ports. *)
From Verif Require Import Base PortConn PortConnSpec PortConnProofs.

(** mbedTLS: over any history of creates, whatever fails in them, and destroys: every context is initialised
    only when it is not in use and freed only when it is; only open sockets are closed; when there is no client
    nothing is held, and else each context and the client's socket; lists of addresses are left over at most
    where no socket could be made. *)
Theorem C94_mbed_balanced : forall ops fd0, Forall m_lawful ops ->
  let '(xs, active, fd, l) := m_run false fd0 ops in
  exists h, replay holds_nothing l = Some h /\ 0 <= h_addrs h <= count no_socket ops /\
    (if active then (forall c, In c (h_ctx h)) /\ h_socks h = (if fd =? -1 then [] else [fd]) else h_ctx h = [] /\ h_socks h = []).
Proof. exact m_balanced. Qed.
Print Assumptions C94_mbed_balanced.

(** Without that exception it does not hold: the list of addresses is lost each time socket() fails (M:56-60). *)
Definition c94_no_socket := MCreate (mk_ma 0 0 0 true (-1) 0 0 0 0 [Some (-76)]).
Lemma c94_lost n : forall k fd, replay (state false 0 k) (snd (m_run false fd (repeat c94_no_socket n))) = Some (state false 0 (k + Z.of_nat n)).
Proof.
  induction n as [|n IH]; intros k fd; [cbn; now rewrite Z.add_0_r|].
  cbn [repeat m_run]. change (m_step false fd c94_no_socket) with (MRCreate false, false, -1, snd (m_step false fd c94_no_socket)). cbv iota.
  specialize (IH (k + 1) (-1)). destruct (m_run false (-1) (repeat c94_no_socket n)) as [[[xs a] f] l]. cbn [snd] in IH |- *. rewrite replay_app.
  change (replay (state false 0 k) (snd (m_step false fd c94_no_socket))) with (Some (state false 0 (k + 1))). cbv iota. rewrite IH. f_equal. f_equal. lia.
Qed.
Theorem C94_mbed_lists_freed_refuted : exists o, m_lawful o /\ forall n, replay holds_nothing (snd (m_run false (-1) (repeat o n))) = Some (mk_holds [] [] (Z.of_nat n)).
Proof. exists c94_no_socket. split; [cbn; split; [congruence|discriminate]|]. intros n. exact (c94_lost n 0 (-1)). Qed.
Print Assumptions C94_mbed_lists_freed_refuted.

(** A create that cannot connect goes on to the handshake (M:156-158): the client is there if the TLS library
    says so, with or without a connection. *)
Theorem C94_mbed_connected_refuted : exists a, m_lawful (MCreate a) /\ m_conn a <> 0 /\ fst (fst (fst (m_create a false (-1)))) = true.
Proof. exists (mk_ma 0 0 0 true 3 (-1) 0 0 0 [None; Some 0]). split; [cbn; split; [congruence|lia]|]. split; [discriminate|reflexivity]. Qed.
Print Assumptions C94_mbed_connected_refuted.

(** PSoC 6: over any history of creates, destroys and dropped connections: a client's socket is open; besides it,
    sockets are open at most for creates that failed after making one. *)
Theorem C94_psoc_sockets : forall ops, let c := p_run p_boot ops in exists lost,
  0 <= lost <= count half_open ops /\ zlen (pl_open c) = lost + (if pl_active c then 1 else 0) /\ (pl_active c = true -> In (pl_handle c) (pl_open c)).
Proof. exact p_held. Qed.
Print Assumptions C94_psoc_sockets.

(** Those are lost (P:60-64, P:102-104): each failed connection leaves a socket open for ever. *)
Definition c94_refused := PCreate (mk_pa true true true true false).
Lemma c94_sockets n : forall c, pl_active c = false -> pl_active (p_run c (repeat c94_refused n)) = false /\ zlen (pl_open (p_run c (repeat c94_refused n))) = zlen (pl_open c) + Z.of_nat n.
Proof.
  induction n as [|n IH]; intros c Ac; [split; [exact Ac|cbn; lia]|]. cbn [repeat]. change (p_run c (c94_refused :: repeat c94_refused n)) with (p_run (p_step c c94_refused) (repeat c94_refused n)).
  assert (E : p_step c c94_refused = mk_pl false (pl_next c) (pl_next c :: pl_open c) (pl_next c + 1) false) by (unfold p_step, c94_refused, p_create; rewrite Ac; reflexivity).
  rewrite E. destruct (IH (mk_pl false (pl_next c) (pl_next c :: pl_open c) (pl_next c + 1) false) eq_refl) as [I1 I2]. split; [exact I1|]. rewrite I2. cbn [pl_open]. rewrite zlen_cons. lia.
Qed.
Theorem C94_psoc_failures_release_refuted : exists o, forall n, let c := p_run p_boot (repeat o n ++ [PDestroy]) in pl_active c = false /\ zlen (pl_open c) = Z.of_nat n.
Proof.
  exists c94_refused. intros n. cbv zeta. unfold p_run. rewrite fold_left_app. fold (p_run p_boot (repeat c94_refused n)). destruct (c94_sockets n p_boot eq_refl) as [I1 I2].
  cbn [fold_left p_step]. unfold p_destroy. rewrite I1. cbn [negb snd]. split; [exact I1|]. rewrite I2. reflexivity.
Qed.
Print Assumptions C94_psoc_failures_release_refuted.

(** A client's server has shown a valid certificate?  Not if requiring one failed: the result is overwritten by
    that of the connect (P:67-74). *)
Theorem C94_psoc_verified_refuted : exists a, let (ok, c) := p_create a p_boot in ok = true /\ pl_active c = true /\ pl_checked c = false.
Proof. exists (mk_pa true true true false true). repeat split. Qed.
Print Assumptions C94_psoc_verified_refuted.

(** A create that succeeds, one refused meanwhile, a destroy, one that fails in the handshake, one without a
    socket; then nothing is held but one list.  And on the PSoC 6. *)
Definition c94_ans := mk_ma 0 0 0 true 3 0 0 0 0 [None; None; Some 0].
Example C94_case :
  (let '(xs, active, fd, l) := m_run false 0 [MCreate c94_ans; MCreate c94_ans; MDestroy; MDestroy; MCreate (mk_ma 0 0 0 true 3 0 0 0 0 [Some (-76)]); c94_no_socket] in
   (xs, active, fd, replay holds_nothing l))
  = ([MRCreate true; MRCreate false; MRDestroy 0; MRDestroy (-1); MRCreate false; MRCreate false], false, -1, Some (mk_holds [] [] 1)) /\
  (let c := p_run p_boot [PCreate (mk_pa true true true true true); PDrop; c94_refused; PCreate (mk_pa true true true true true)] in (pl_open c, pl_active c, pl_handle c, pl_checked c)) = ([3; 2], true, 3, true).
Proof. split; vm_compute; reflexivity. Qed.
