(** C52: the event of a session (memfault_metrics_serializer.c). *)
From Coq Require Import String.
From Verif Require Import Base CircularBuffer Cbor CborSpec CborDoc CborProofs EventStorage EventStorageSpec EventStorageProofs
  SerializerHelper SerializerHelperSpec SerializerHelperProofs SerializerDocs Metrics MetricsSpec MetricsProofs
  MetricsSerializer MetricsSerializerSpec MetricsSerializerProofs.

(** For every table of metrics, every history of them and every history of the storage: serializing a
    session stores, exactly when there is room, one well-formed event that says what every metric of
    the session is, in the order of the table; otherwise nothing changes but the count of missed events. *)
Theorem C52_session_event_means_its_metrics : forall cfg storage ops rs v defs timers mops mrs a env session,
  0 < zlen storage <= 2147483648 -> Forall shop_ok ops ->
  ssv_run cfg (zlen storage) (mk_ssv (mk_sev [] None 0) 0) ops = Some (rs, v) -> v_part (q_store v) = None ->
  table_ok defs -> am_run defs timers (am_init defs) mops = Some (mrs, a) -> senv_ok env -> is_u32 session ->
  exists ms l, me_run defs timers (ms_init defs) mops = Some (mrs, ms) /\ me_entries defs ms = Some l /\
    let p := e_session env false session l in
    (sh_compute_size p <= 65532 ->
     exists s b s' v', es_boot storage (zlen storage) = Some (Some s) /\
       sh_run cfg (mk_sh s 0 0) (ops ++ [SEncode p]) = Some (rs ++ [RSaved b], s') /\
       ssv_run cfg (zlen storage) (mk_ssv (mk_sev [] None 0) 0) (ops ++ [SEncode p]) = Some (rs ++ [RSaved b], v') /\
       (b = true <-> used (q_store v) + 2 + sh_compute_size p <= zlen storage) /\
       (b = true -> exists ev, v' = mk_ssv (mk_sev (v_events (q_store v) ++ [ev]) None (v_reading (q_store v))) (q_missed v) /\
          zlen ev = sh_compute_size p /\ cbor_read ev = Some (session_item env session (am_items defs a session), [])) /\
       (b = false -> v' = mk_ssv (q_store v) (q_missed v + 1))).
Proof. exact session_event. Qed.
Print Assumptions C52_session_event_means_its_metrics.

(** The worst-case size, computed whenever (for example at boot), bounds the event of the session after
    any history, when the session has no strings. *)
Theorem C52_worst_case_is_one : forall env session defs timers ops1 ops2 rs1 rs2 a1 a2,
  table_ok defs -> no_strings session defs -> senv_ok env ->
  am_run defs timers (am_init defs) ops1 = Some (rs1, a1) -> am_run defs timers (am_init defs) ops2 = Some (rs2, a2) ->
  exists s1 s2 l1 l2, me_run defs timers (ms_init defs) ops1 = Some (rs1, s1) /\ me_run defs timers (ms_init defs) ops2 = Some (rs2, s2) /\
    me_entries defs s1 = Some l1 /\ me_entries defs s2 = Some l2 /\
    sh_compute_size (e_session env false session l1) <= session_worst_size env session l2.
Proof. exact session_worst. Qed.
Print Assumptions C52_worst_case_is_one.

Definition hb_defs : list mdef := [mk_mdef MTimer 0 0; mk_mdef MUnsigned 0 1; mk_mdef MString 30 0; mk_mdef MSigned 0 0; mk_mdef MUnsigned 0 0].
Definition hb_env : senv := mk_senv [] (str "a") (str "b") (str "c") false None 6 None.
Definition hb_ops : list mop := [OSetS 3 (-5); OSetStr 2 (str "hello, metrics"); OStart 0 100; OTally 350; OSetU 1 7].

(** What is not true: with a string metric the worst case computed at boot (memfault_metrics.c:1403) may
    be too small, for it counts the string as it then is, that is empty. *)
Theorem C52_worst_case_with_strings_refuted : ~ (forall env session defs timers ops1 ops2 rs1 rs2 s1 s2 l1 l2,
  table_ok defs -> senv_ok env ->
  me_run defs timers (ms_init defs) ops1 = Some (rs1, s1) -> me_run defs timers (ms_init defs) ops2 = Some (rs2, s2) ->
  me_entries defs s1 = Some l1 -> me_entries defs s2 = Some l2 ->
  sh_compute_size (e_session env false session l1) <= session_worst_size env session l2).
Proof.
  intros H. specialize (H hb_env 0 hb_defs [] [OSetStr 2 (str "abcdefghijklmnopqrstuvwxyz")] []).
  destruct (me_run hb_defs [] (ms_init hb_defs) [OSetStr 2 (str "abcdefghijklmnopqrstuvwxyz")]) as [(r1 & s1)|] eqn:E1; [|vm_compute in E1; discriminate].
  destruct (me_run hb_defs [] (ms_init hb_defs) []) as [(r2 & s2)|] eqn:E2; [|vm_compute in E2; discriminate].
  vm_compute in E1, E2. injection E1 as <- <-. injection E2 as <- <-.
  pose proof (fun a b => H _ _ _ _
    [(0, MTimer, IUnsigned 0); (1, MUnsigned, Metrics.INull); (0, MString, Metrics.IText (str "abcdefghijklmnopqrstuvwxyz")); (0, MSigned, Metrics.INull); (0, MUnsigned, Metrics.INull)]
    [(0, MTimer, IUnsigned 0); (1, MUnsigned, Metrics.INull); (0, MString, Metrics.IText []); (0, MSigned, Metrics.INull); (0, MUnsigned, Metrics.INull)] a b eq_refl eq_refl) as X. clear H.
  refine (_ (X _ _ _ _)).
  - intros Y. vm_compute in Y. apply Y. reflexivity.
  - split; [discriminate|]. split; [reflexivity|]. unfold hb_defs. repeat (apply Forall_cons; [cbn; lia|]). apply Forall_nil.
  - unfold senv_ok; cbn. split; [|split; [lia|split; exact I]].
    repeat (constructor; [split; [vm_compute; repeat constructor; discriminate|vm_compute; reflexivity]|]). constructor.
  - vm_compute. reflexivity.
  - vm_compute. reflexivity.
Qed.
Print Assumptions C52_worst_case_with_strings_refuted.

(** A heartbeat with a timer, a string, a negative number and a number that is not set; the metric of the
    other session is left out. *)
Example C52_case :
  match me_run hb_defs [] (ms_init hb_defs) hb_ops with
  | Some (_, s) =>
      match me_entries hb_defs s, es_boot (fill 64 0) 64 with
      | Some l, Some (Some st) =>
          match sh_run None (mk_sh st 0 0) [SEncode (e_session hb_env false 0 l); SStore EHas; SStore (ERead 0 (sh_compute_size (e_session hb_env false 0 l)))] with
          | Some ([RSaved true; RStore (RSome true n); RStore (RBytes (Some d))], _) =>
              cbor_read d = Some (IMap [(IInt 2, IInt 1); (IInt 3, IInt 1); (IInt 10, CborSpec.IText (str "a")); (IInt 9, CborSpec.IText (str "b"));
                                        (IInt 6, CborSpec.IText (str "c"));
                                        (IInt 4, IMap [(IInt 2, IInt 0); (IInt 1, IArray [IInt 250; CborSpec.IText (str "hello, metrics"); IInt (-5); ISimple 22])])], [])
          | _ => False
          end
      | _, _ => False
      end
  | None => False
  end.
Proof. vm_compute. reflexivity. Qed.
