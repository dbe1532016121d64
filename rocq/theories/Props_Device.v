(** C66: the whole device: packetizer, coredumps, events, logs, custom data recordings. *)
From Coq Require Import String.
From Verif Require Import Base Crc16Spec ChunkSpec CborSpec Coredump CoredumpSpec EventStorage EventStorageSpec Log LogSpec SerializerHelper SerializerHelperSpec
  LogDataSourceSpec Cdr CdrSpec Rle RleSpec Packetizer PacketizerSpec Uplink UplinkSpec Device DeviceSpec DeviceProofs.

(** From boot on, whatever events, logs and recordings the application writes between and during uploads,
    chunks are fetched in buffers of any sizes, uploads are aborted and sources switched on and off: what
    the cloud puts together from the chunks accounts for everything.  The coredump arrives once or is still
    held; the events that arrive followed by those still held are the events committed, in order; each log
    message holds consecutive saved logs, no log is in two, one in none was overwritten first; per source, the
    recordings that arrive followed by those held are those there were and those made.  [messages_read]
    says what the cloud reads in the messages.  A call with room for a chunk returns one or nothing is held;
    from some number of calls on, nothing is. *)
Theorem C66_everything_is_accounted_for : forall c st ev log min recs rn rmax, device_ok c st ev log rn rmax ->
  exists cmsg lmsg rmsg, messages_read c (zlen log) cmsg lmsg rmsg /\
    (recs_all (rec_fine c rmax rmsg) recs ->
     exists w, dv_boot st ev log min recs rn rmax = Some w /\
     let dev := dv_dev c (zlen ev) (zlen log) rn rmax cmsg lmsg rmsg in
     let accounted := accounted c (zlen log) cmsg lmsg rmsg (stored_core st) recs in
     forall ops, Forall (by_chunk (dv_fine c rmax rmsg)) ops ->
     exists ops1 rs pk w' a, played dev ops ops1 a /\ dv_run c w pk_init ops1 = Some (rs, pk, w') /\ accounted ops1 rs a /\
       (forall buf, 9 <= zlen buf < 4294967296 ->
         exists b out calls pk2 w2, up_step (dv_sources c) (dc_up c) (dv_app c) w' pk (UCall (PChunk buf)) = Some (URCall (ResChunk b out) calls, pk2, w2) /\
           if b then 0 < zlen out <= zlen buf else out = [] /\ forall s, enabled (pk_mask pk) s = true -> nothing_held s a) /\
       exists n, forall bufs, Forall (fun b => 9 <= zlen b < 4294967296) bufs -> n <= zlen bufs ->
         exists rs2 pk2 w2 a2, let ops2 := ops1 ++ map (fun b => UCall (PChunk b)) bufs in
           dv_run c w pk_init ops2 = Some (rs ++ rs2, pk2, w2) /\ accounted ops2 (rs ++ rs2) a2 /\
           forall s, enabled (pk_mask pk) s = true -> nothing_held s a2).
Proof. exact device_accounts. Qed.
Print Assumptions C66_everything_is_accounted_for.

(** Every call of every history, in pieces or whole chunks, answers as the specification says. *)
Theorem C66_every_call_follows_the_specification : forall c st ev log min recs rn rmax, device_ok c st ev log rn rmax ->
  exists cmsg lmsg rmsg, messages_read c (zlen log) cmsg lmsg rmsg /\
    (recs_all (rec_fine c rmax rmsg) recs ->
     exists w, dv_boot st ev log min recs rn rmax = Some w /\
     let dev := dv_dev c (zlen ev) (zlen log) rn rmax cmsg lmsg rmsg in
     forall ops, Forall (up_ok (dv_fine c rmax rmsg)) ops ->
     exists ops1 rs pk w' a fl, played dev ops ops1 a /\ dv_run c w pk_init ops1 = Some (rs, pk, w') /\
       u_run (dc_up c) dev (held_boot st min recs) (pk_mask pk_init) None ops1 rs a (pk_mask pk) fl).
Proof. exact device_follows. Qed.
Print Assumptions C66_every_call_follows_the_specification.

(** A device with a coredump in storage, run-length encoded; two events, the second committed while the
    coredump is being sent; a log message; a recording.  All arrive. *)
Definition c66_env := mk_senv [] (str "app") (str "1.0") (str "evt") false None 6 None.
Definition c66_rec := mk_cr (mk_cm None [str "text/plain"] 5 250 (str "test")) [10; 20; 30; 40; 50].
Definition c66_core := [0x43; 0x4f; 0x52; 0x45; 2; 0; 0; 0; 20; 0; 0; 0; 7; 7; 7; 7; 7; 7; 7; 9].
Definition c66_cfg := mk_dc (mk_uc [] true) (fun st => fill (zlen st) 0) None c66_env false 80.
Example C66_case :
  let get n := UCall (PChunk (fill n 0)) in
  let commit d := [UApp (AEvent EBegin); UApp (AEvent (EAppend d)); UApp (AEvent (EFinish false))] in
  (do w <- dv_boot (c66_core ++ fill 12 255) (fill 40 0) (fill 64 0) 0 (fun i => if i =? 1 then [c66_rec] else []) 2 128;
   do x <- dv_run c66_cfg w pk_init
     (commit [1; 2; 3] ++ [UApp (ALog (LSave 2 0 None (str "hello"))); UApp (ACdr (CoRegister 1)); get 9] ++ commit [4] ++
      [UApp (ALog (LTrigger None)); get 12; UCall PAbort] ++ map get [20; 30; 20; 9; 9; 300; 200; 100; 50]);
   let '(rs, _, w) := x in
   let msgs := map fst (snd (cloud None (chunks rs))) in
   Some (rle_decode (tl (nth 0 msgs [])), nth 1 msgs [], nth 2 msgs [], cbor_read (tl (nth 3 msgs [])), cbor_read (tl (nth 4 msgs [])), zlen msgs, fst (w_cdr w) 1))
  = Some (Some c66_core, [2; 1; 2; 3], [2; 4], Some (logs_item c66_env false None [mk_hlog 2 0 None (str "hello")], []), Some (cdr_item c66_env c66_rec, []), 5, []).
Proof. vm_compute. reflexivity. Qed.
(** The configuration of the example is one of those covered. *)
Example C66_case_ok : device_ok c66_cfg (c66_core ++ fill 12 255) (fill 40 0) (fill 64 0) 2 128.
Proof.
  constructor.
  - split; [constructor|vm_compute; discriminate].
  - split; [repeat (constructor; [vm_compute; split; [discriminate|reflexivity]|]); constructor|]. split; [vm_compute; discriminate|]. intros _. vm_compute. discriminate.
  - intros st B. cbn [c66_cfg dc_clear]. pose proof (zlen_nonneg st). split; [|split; [apply bytes_fill; unfold is_u8; lia|now apply zlen_fill]].
    unfold stored_core. rewrite zlen_fill by assumption. destruct (12 <=? zlen st) eqn:E; [|reflexivity]. cbn [andb].
    replace (fill (zlen st) 0) with (fill 12 0 ++ fill (zlen st - 12) 0); [reflexivity|]. unfold fill. rewrite <- repeat_app. f_equal. lia.
  - split; [repeat (constructor; [split; [repeat (constructor; [vm_compute; split; [discriminate|reflexivity]|]); constructor|vm_compute; reflexivity]|]); constructor|]. cbn. split; [lia|auto].
  - vm_compute. split; [reflexivity|discriminate].
  - cbn. lia.
  - vm_compute. split; [reflexivity|discriminate].
  - split; [lia|unfold is_u32; lia].
Qed.
