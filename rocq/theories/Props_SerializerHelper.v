(** Properties C32, C45 and C46: storing events, the common metadata, the worst-case size. *)
From Coq Require Import String.
From Verif Require Import Base Cbor CborSpec CborDoc EventStorage EventStorageSpec SerializerHelper SerializerHelperSpec
  SerializerHelperProofs SerializerDocs.

(** From boot on, in every history of encode calls (any callbacks), drop counter reads and storage
    calls: an encode call that returns true has added exactly the bytes its callback wrote as one
    event; one that returns false has changed nothing in the storage and is counted; and a read of
    the counter returns the number of those since the last read (modulo 2^32). *)
Theorem C32_every_event_stored_or_counted cfg storage ops rs v :
  0 < zlen storage <= 2147483648 -> Forall shop_ok ops ->
  ssv_run cfg (zlen storage) (mk_ssv (mk_sev [] None 0) 0) ops = Some (rs, v) ->
  exists s s', es_boot storage (zlen storage) = Some (Some s) /\ sh_run cfg (mk_sh s 0 0) ops = Some (rs, s').
Proof.
  intros HS HO H. destruct (sh_boot_ok cfg storage HS) as (s & E & M).
  destruct (sh_run_ok _ _ _ _ _ _ _ M HO H) as (s' & R & _). eauto.
Qed.
Print Assumptions C32_every_event_stored_or_counted.

(** Two of four events do not fit 16 bytes. *)
Example C32_case : (do s <- es_boot (fill 16 170) 16; do s <- s;
    option_map fst (sh_run None (mk_sh s 0 0)
     [SEncode (e_all [OpArray 2; OpUnsigned 7; OpNull]); SEncode (e_all [OpString [1; 2; 3; 4; 5; 6; 7; 8; 9; 10; 11]]);
      SReadDrops; SEncode (e_all [OpBytes (fill 20 1)]); SEncode (e_all [OpNull]); SEncode (e_all [OpUnsigned 1000000; OpNull; OpNull]); SReadDrops; SReadDrops;
      SStore EHas; SStore (ERead 0 3); SStore EMark; SStore EHas; SStore (ERead 0 1); SStore EMark; SStore EHas]))
  = Some [RSaved true; RSaved false; RDrops 1; RSaved false; RSaved true; RSaved false; RDrops 2; RDrops 0;
          RStore (RSome true 3); RStore (RBytes (Some [130; 7; 246])); RStore RUnit;
          RStore (RSome true 1); RStore (RBytes (Some [246])); RStore RUnit; RStore (RSome false 0)].
Proof. vm_compute. reflexivity. Qed.

(** Any document serialized by a chain of calls is stored exactly when its computed size and two
    bytes of overhead fit, and then reads back as the document. *)
Theorem C32_document_stored_iff_it_fits cfg storage ops rs v d :
  0 < zlen storage <= 2147483648 -> Forall shop_ok ops ->
  ssv_run cfg (zlen storage) (mk_ssv (mk_sev [] None 0) 0) ops = Some (rs, v) -> v_part (q_store v) = None ->
  doc_ok d -> let p := e_all (doc_ops d) in eprog_ok p -> calls_bound (doc_ops d) <= 65532 ->
  exists s b s' v', es_boot storage (zlen storage) = Some (Some s) /\
    sh_run cfg (mk_sh s 0 0) (ops ++ [SEncode p]) = Some (rs ++ [RSaved b], s') /\
    ssv_run cfg (zlen storage) (mk_ssv (mk_sev [] None 0) 0) (ops ++ [SEncode p]) = Some (rs ++ [RSaved b], v') /\
    (b = true <-> used (q_store v) + 2 + sh_compute_size p <= zlen storage) /\
    (b = true -> exists ev, v' = mk_ssv (mk_sev (v_events (q_store v) ++ [ev]) None (v_reading (q_store v))) (q_missed v) /\
       zlen ev = sh_compute_size p /\ cbor_read ev = Some (doc_value d, [])) /\
    (b = false -> v' = mk_ssv (q_store v) (q_missed v + 1)).
Proof. exact (chain_in_history cfg storage ops rs v d). Qed.
Print Assumptions C32_document_stored_iff_it_fits.

(** The contract is needed: encoding while another event is being written (the storage then offers
    no space) fails, and the clean-up after that failure rolls back the other writer's event. *)
Theorem C32_encode_during_a_write_is_harmless_refuted : ~ (forall storage s d p rs s',
  es_boot storage (zlen storage) = Some (Some s) -> 1 <= zlen d -> zlen d + 2 <= zlen storage ->
  sh_run None (mk_sh s 0 0) [SStore EBegin; SStore (EAppend d); SEncode p; SStore (EFinish false); SStore EHas] = Some (rs, s') ->
  nth 2 rs (RDrops 0) = RSaved false -> nth 4 rs (RDrops 0) = RStore (RSome true (zlen d))).
Proof.
  intros H. destruct (es_boot (fill 20 0) 20) as [[s|]|] eqn:E; [|vm_compute in E; discriminate..].
  pose proof E as E0. vm_compute in E. injection E as <-.
  pose proof (fun rs s' => H (fill 20 0) _ [1; 2; 3] (e_all [OpNull]) rs s' E0) as X. vm_compute in X.
  specialize (X _ _ ltac:(discriminate) ltac:(discriminate) eq_refl eq_refl). discriminate.
Qed.
Print Assumptions C32_encode_during_a_write_is_harmless_refuted.

(** Every event made of the common metadata followed by its information, whatever the device
    information, build id, time and configuration: a map announcing exactly its number of pairs,
    with the keys and values specified. *)
Theorem C45_event_metadata_well_formed cfg storage ops rs v env type info :
  0 < zlen storage <= 2147483648 -> Forall shop_ok ops ->
  ssv_run cfg (zlen storage) (mk_ssv (mk_sev [] None 0) 0) ops = Some (rs, v) -> v_part (q_store v) = None ->
  senv_ok env -> is_u32 type -> doc_ok info -> eprog_ok (e_all (doc_ops info)) ->
  let p := e_and (e_metadata env type) (e_all (OpUnsigned 4 :: doc_ops info)) in
  sh_compute_size p <= 65532 -> calls_bound (doc_ops info) < 4294000000 ->
  exists s b s' v', es_boot storage (zlen storage) = Some (Some s) /\
    sh_run cfg (mk_sh s 0 0) (ops ++ [SEncode p]) = Some (rs ++ [RSaved b], s') /\
    ssv_run cfg (zlen storage) (mk_ssv (mk_sev [] None 0) 0) (ops ++ [SEncode p]) = Some (rs ++ [RSaved b], v') /\
    (b = true <-> used (q_store v) + 2 + sh_compute_size p <= zlen storage) /\
    (b = true -> exists ev, v' = mk_ssv (mk_sev (v_events (q_store v) ++ [ev]) None (v_reading (q_store v))) (q_missed v) /\
       zlen ev = sh_compute_size p /\ cbor_read ev = Some (event_item env type (en_time env) (doc_value info), [])) /\
    (b = false -> v' = mk_ssv (q_store v) (q_missed v + 1)).
Proof. exact (event_in_history cfg storage ops rs v env type info). Qed.
Print Assumptions C45_event_metadata_well_formed.

Definition C45_env : senv := mk_senv (str "SN1") (str "app") (str "1.0") (str "evt") true (Some (fill 20 171)) 6 (Some 1700000000).
Example C45_case : (do s <- es_boot (fill 80 0) 80; do s <- s;
    do x <- sh_run None (mk_sh s 0 0) [SEncode (e_and (e_metadata C45_env 1) (e_all [OpUnsigned 4; OpArray 1; OpNull])); SStore EHas; SStore (ERead 0 42)];
    match nth 2 (fst x) (RDrops 0) with RStore (RBytes (Some m)) => cbor_read m | _ => None end)
  = Some (IMap [(IInt 2, IInt 1); (IInt 3, IInt 1); (IInt 7, IText (str "SN1")); (IInt 10, IText (str "app")); (IInt 9, IText (str "1.0"));
                (IInt 6, IText (str "evt")); (IInt 11, IBytes (fill 6 171)); (IInt 1, IInt 1700000000); (IInt 4, IArray [INull])], []).
Proof. vm_compute. reflexivity. Qed.

(** No reboot event is larger than the worst case announced for it: a storage of which that many
    bytes and two more are free accepts any reset, and the event means what the specification says. *)
Theorem C46_reboot_worst_case_is_one cfg storage ops rs v env i :
  0 < zlen storage <= 2147483648 -> Forall shop_ok ops ->
  ssv_run cfg (zlen storage) (mk_ssv (mk_sev [] None 0) 0) ops = Some (rs, v) -> v_part (q_store v) = None ->
  senv_ok env -> reset_ok i -> reboot_worst_size env <= 65532 ->
  used (q_store v) + 2 + reboot_worst_size env <= zlen storage ->
  exists s s' v' ev, es_boot storage (zlen storage) = Some (Some s) /\
    sh_run cfg (mk_sh s 0 0) (ops ++ [SEncode (e_reboot env i)]) = Some (rs ++ [RSaved true], s') /\
    ssv_run cfg (zlen storage) (mk_ssv (mk_sev [] None 0) 0) (ops ++ [SEncode (e_reboot env i)]) = Some (rs ++ [RSaved true], v') /\
    v' = mk_ssv (mk_sev (v_events (q_store v) ++ [ev]) None (v_reading (q_store v))) (q_missed v) /\
    zlen ev <= reboot_worst_size env /\ cbor_read ev = Some (reboot_item env i, []).
Proof. exact (reboot_in_history cfg storage ops rs v env i). Qed.
Print Assumptions C46_reboot_worst_case_is_one.

Example C46_case : let env := mk_senv [] (str "a") (str "b") (str "c") false None 6 None in
  reboot_worst_size env = 40 /\
  (do s <- es_boot (fill 42 0) 42; do s <- s;
    do x <- sh_run None (mk_sh s 0 0) [SEncode (e_reboot env (mk_ri 32770 305419896 0 5 1)); SStore EHas; SStore (ERead 0 30)];
    match nth 2 (fst x) (RDrops 0) with RStore (RBytes (Some m)) => cbor_read m | _ => None end)
  = Some (IMap [(IInt 2, IInt 2); (IInt 3, IInt 1); (IInt 10, IText (str "a")); (IInt 9, IText (str "b")); (IInt 6, IText (str "c"));
                (IInt 4, IMap [(IInt 1, IInt 32770); (IInt 2, IInt 305419896); (IInt 4, IInt 5); (IInt 5, IInt 1)])], []).
Proof. vm_compute. split; reflexivity. Qed.

(** The check made at boot is not enough: it compares the worst case with the size of the storage
    and forgets the two bytes every event costs.  It passes, and the event is refused by an empty
    storage. *)
Theorem C46_size_check_implies_fit_refuted : ~ (forall storage s env i rs s',
  es_boot storage (zlen storage) = Some (Some s) -> senv_ok env -> reset_ok i ->
  sh_check_size (es_bytes_used s + es_bytes_free s) (e_reboot env worst_reset) = true ->
  sh_run None (mk_sh s 0 0) [SEncode (e_reboot env i)] = Some (rs, s') -> rs = [RSaved true]).
Proof.
  intros H. destruct (es_boot (fill 40 0) 40) as [[s|]|] eqn:E; [|vm_compute in E; discriminate..].
  pose proof E as E0. vm_compute in E. injection E as <-.
  set (env := mk_senv [] (str "a") (str "b") (str "c") false None 6 None).
  pose proof (fun a b rs s' => H (fill 40 0) _ env worst_reset rs s' E0 a b) as X.
  assert (A : senv_ok env).
  { split; [|split; [cbn; lia|split; exact I]]. repeat constructor; unfold is_u8; cbn; lia. }
  assert (B : reset_ok worst_reset) by (unfold reset_ok, is_u16, is_u32; cbn; lia).
  specialize (X A B). clear A B. vm_compute in X. specialize (X _ _ eq_refl eq_refl). discriminate.
Qed.
Print Assumptions C46_size_check_implies_fit_refuted.
