(** C65: the packetizer over data sources that keep their contract. *)
From Verif Require Import Base Crc16Spec ChunkSpec Packetizer PacketizerSpec PacketizerProofs Uplink UplinkSpec UplinkProofs.

(** Over any sources that keep the contract of data_packetizer_source.h, whatever the application does
    between the calls and during a message, every call of every history answers as the specification of the
    packetizer says for the messages the sources offer at that moment. *)
Theorem C65_every_call_follows_the_specification : forall W A O R (so : sources W) cfg (app : W -> O -> option (R * W)) (dev : device A O R) rel,
  keeps_contract so cfg app dev rel -> forall w a ops, rel None w a -> Forall (up_ok (fine dev)) ops ->
  exists ops1 rs st w' a' fl, played dev ops ops1 a' /\ up_run so cfg app w pk_init ops1 = Some (rs, st, w') /\
    u_run cfg dev a (pk_mask pk_init) None ops1 rs a' (pk_mask st) fl.
Proof. exact @boot_follows. Qed.
Print Assumptions C65_every_call_follows_the_specification.

(** The messages the cloud puts together from the stream of chunks, through aborts and changes of the
    enabled sources, are exactly those acknowledged to the sources, in that order, each as its source
    offered it when it was acknowledged.  A call with room for a chunk returns one, or there is nothing to send. *)
Theorem C65_the_cloud_gets_what_is_acknowledged : forall W A O R (so : sources W) cfg (app : W -> O -> option (R * W)) (dev : device A O R) rel,
  keeps_contract so cfg app dev rel -> forall w a ops, rel None w a -> Forall (by_chunk (fine dev)) ops ->
  exists ops1 rs st w' a' t got cs, played dev ops ops1 a' /\ up_run so cfg app w pk_init ops1 = Some (rs, st, w') /\
    deeds dev a t a' /\ app_deeds t = app_calls ops1 rs /\ cloud None (chunks rs) = (cs, got) /\ received cfg got (sent t) /\
    forall buf, 9 <= zlen buf < 4294967296 ->
      exists b out calls st2 w2, up_step so cfg app w' st (UCall (PChunk buf)) = Some (URCall (ResChunk b out) calls, st2, w2) /\
        if b then 0 < zlen out <= zlen buf else out = [] /\ forall s, enabled (pk_mask st) s = true -> offer dev s a' = None.
Proof. exact @boot_cloud. Qed.
Print Assumptions C65_the_cloud_gets_what_is_acknowledged.

(** If acknowledging a message leaves less to send, then after any history fetching chunks, in buffers of
    any sizes with room for one, ends: from some number of calls on there is nothing left to send. *)
Theorem C65_fetching_ends : forall W A O R (so : sources W) cfg (app : W -> O -> option (R * W)) (dev : device A O R) rel,
  keeps_contract so cfg app dev rel -> forall (J : A -> Prop) size w a ops, shrinks dev J size -> rel None w a -> J a ->
  (forall a o r a', J a -> spec dev a o = Some (r, a') -> J a') -> Forall (by_chunk (fine dev)) ops ->
  exists ops1 rs st w' a', played dev ops ops1 a' /\ up_run so cfg app w pk_init ops1 = Some (rs, st, w') /\
    exists n, forall bufs, Forall (fun b => 9 <= zlen b < 4294967296) bufs -> n <= zlen bufs ->
      exists rs2 st2 w2 a2 t got cs, up_run so cfg app w pk_init (ops1 ++ map (fun b => UCall (PChunk b)) bufs) = Some (rs ++ rs2, st2, w2) /\
        deeds dev a t a2 /\ app_deeds t = app_calls ops1 rs /\ cloud None (chunks (rs ++ rs2)) = (cs, got) /\ received cfg got (sent t) /\
        forall s, enabled (pk_mask st) s = true -> offer dev s a2 = None.
Proof. exact @boot_drained. Qed.
Print Assumptions C65_fetching_ends.

(** Sources that keep the contract: one queue of events, to which the application may add at any time. *)
Definition c65_sources : sources (list (list Z)) := mk_so _
  (fun s w => Some (match s with SEvent => option_map zlen (hd_error w) | _ => None end, w))
  (fun s w off buf => match s, w with
     | SEvent, m :: _ => Some (match read_at m off (zlen buf) with Some d => (true, d, w) | None => (false, buf, w) end)
     | _, _ => None end)
  (fun s w => Some (match s with SEvent => tl w | _ => w end))
  (fun w => Some w).
Definition c65_app (w : list (list Z)) (m : list Z) : option (unit * list (list Z)) := Some (tt, w ++ [m]).
Definition c65_dev : device (list (list Z)) (list Z) unit := mk_dev _ _ _
  (fun s w => match s with SEvent => hd_error w | _ => None end) (fun s w => w) (fun s w => match s with SEvent => tl w | _ => w end)
  (fun m => bytes m /\ zlen m < 1000) (fun w m => Some (tt, w ++ [m])).
Definition c65_rel (f : option (src * Z)) (w a : list (list Z)) : Prop :=
  w = a /\ Forall (fun m => bytes m /\ zlen m < 1000) w /\ match f with Some (s, _) => s = SEvent /\ w <> [] | None => True end.
Lemma C65_case_contract : keeps_contract c65_sources (mk_uc [] false) c65_app c65_dev c65_rel /\
  shrinks c65_dev (fun _ => True) zlen.
Proof.
  split; constructor; cbn [c65_dev offer ask mark fine spec c65_sources so_has so_read so_mark so_reset].
  - reflexivity.
  - intros s w a (<- & F & _). exists w. split; [destruct s; reflexivity|]. split; [split; [reflexivity|split; [exact F|exact I]]|].
    intros No. split; [reflexivity|]. split; [exact F|]. destruct s; try congruence. destruct w; [cbn in No; congruence|split; [reflexivity|discriminate]].
  - intros s p w a m buf (<- & F & -> & Ne) Ho Hp Hb Hl. destruct w as [|m0 r]; [congruence|]. cbn in Ho. injection Ho as ->.
    exists (m :: r). rewrite read_at_some by lia. split; [reflexivity|]. split; [reflexivity|]. split; [exact F|]. split; [reflexivity|discriminate].
  - intros s p w a (<- & F & -> & Ne). exists (tl w), (tl w). split; [reflexivity|]. split; [reflexivity|]. split; [reflexivity|]. split; [|exact I]. destruct F; [constructor|assumption].
  - intros f w a (<- & F & _). exists w. split; [reflexivity|]. split; [reflexivity|]. split; [exact F|exact I].
  - intros f w a o r a' (<- & F & X) Ho E. injection E as <- <-. exists (w ++ [o]). split; [reflexivity|]. split.
    + split; [reflexivity|]. split; [apply Forall_app; split; [exact F|constructor; [exact Ho|constructor]]|]. destruct f as [[s p]|]; [|exact I]. destruct X as (-> & X). split; [reflexivity|]. destruct w; [congruence|discriminate].
    + destruct f as [[s p]|]; [|exact I]. destruct X as (-> & X). destruct w; [congruence|reflexivity].
  - intros f w a s m (<- & F & _) Ho. destruct s; try discriminate. destruct w as [|m0 r]; [discriminate|]. cbn in Ho. injection Ho as ->. destruct (Forall_inv F) as (F1 & F2).
    unfold msg_ok, body, u_cfg, is_rle, wire. cbn -[zlen]. pose proof (zlen_nonneg m). split; [|rewrite zlen_cons; lia].
    constructor; [unfold is_u8; lia|exact F1].
  - intros a _. apply zlen_nonneg.
  - intros s a _. split; [exact I|lia].
  - intros s a m _ Ho. split; [exact I|]. destruct s; try discriminate. destruct a; [discriminate|]. cbn [tl]. rewrite zlen_cons. lia.
Qed.
(** Two events; the first is aborted once, and the second arrives while the first is being sent. *)
Example C65_case :
  let get n := UCall (PChunk (fill n 0)) in
  (do x <- up_run c65_sources (mk_uc [] false) c65_app [[1; 2; 3; 4; 5; 6; 7; 8; 9; 10]] pk_init
     [get 9; UCall PAbort; get 9; UApp [11; 12]; get 12; get 8; get 9; get 9];
   let '(rs, _, w) := x in Some (map fst (snd (cloud None (chunks rs))), w, map (@zlen Z) (chunks rs)))
  = Some ([[2; 1; 2; 3; 4; 5; 6; 7; 8; 9; 10]; [2; 11; 12]], [], [9; 9; 8; 6]).
Proof. vm_compute. reflexivity. Qed.
