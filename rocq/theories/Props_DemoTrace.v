(** C138: the event of the demo command test_trace says what was typed. *)
From Coq Require Import String.
From Verif Require Import Base Cbor CborSpec CborDoc CborProofs EventStorage EventStorageSpec SerializerHelper SerializerHelperSpec SerializerDocs
  CompactLog CompactLogSpec CompactLogProofs MacroArgs MacroArgsProofs TraceEvent TraceEventSpec TraceEventProofs DemoTrace DemoTraceSpec.
Open Scope string_scope. Open Scope list_scope. Open Scope Z_scope.

Lemma small_fits cfg r lr id fmt args : tc_compact cfg = true -> fmt = compressed_fmt args -> Forall arg_ok args -> zlen args <= 15 ->
  zlen (ops_bytes (doc_ops (compact_doc ((id - tc_start cfg) mod 4294967296) args))) <= tc_max cfg -> cap_fits cfg (CCompact r lr id fmt args).
Proof.
  intros _ -> F L S. cbn [cap_fits]. destruct (compact_ok (tc_start cfg) id args F L) as (p & E & _ & R). rewrite E.
  rewrite (runs_size _ _ R); [exact S|]. pose proof (compact_doc_small ((id - tc_start cfg) mod 4294967296) args F L). lia.
Qed.
Lemma str_size off a : zlen a < 65536 -> zlen (ops_bytes (doc_ops (compact_doc off [AStr (Some a)]))) <= 9 + zlen a.
Proof.
  intros H. unfold compact_doc. cbn [doc_ops flat_map app map arg_doc]. unfold ops_bytes. cbn [map concat]. unfold op_bytes. cbn [op_chunks concat].
  rewrite !app_nil_r, !zlen_app. pose proof (cbor_head_len 0 off). pose proof (zlen_nonneg a). rewrite (u32_id (zlen a)) by (unfold is_u32; lia).
  assert (zlen (cbor_head 3 (zlen a)) <= 3).
  { unfold cbor_head. destruct (zlen a <? 24); [vm_compute; discriminate|]. destruct (zlen a <=? 255); [vm_compute; discriminate|].
    replace (zlen a <=? 65535) with true by lia. vm_compute; discriminate. }
  match goal with |- context [zlen (cbor_head 4 ?n)] => change (zlen (cbor_head 4 n)) with 1 end. lia.
Qed.
Lemma int_size off n : 0 <= n < 24 -> zlen (ops_bytes (doc_ops (compact_doc off [AInt n]))) <= 9.
Proof.
  intros H. unfold compact_doc. cbn [doc_ops flat_map app map arg_doc]. unfold ops_bytes. cbn [map concat]. unfold op_bytes. cbn [op_chunks concat].
  rewrite !app_nil_r, !zlen_app. pose proof (cbor_head_len 0 off).
  assert (zlen (cbor_head (Z.land (Z.shiftr n 31) 1) (u32 (Z.lxor (Z.shiftr n 31) n))) <= 1).
  { replace (Z.shiftr n 31) with 0 by (rewrite Z.shiftr_div_pow2, Z.div_small; lia). rewrite Z.lxor_0_l, u32_id by (unfold is_u32; lia).
    unfold cbor_head. replace (n <? 24) with true by lia. vm_compute; discriminate. }
  match goal with |- context [zlen (cbor_head 4 ?n)] => change (zlen (cbor_head 4 n)) with 1 end. lia.
Qed.

Lemma argv_short (argv : list (list Z)) : zlen argv < 2 -> argument argv = None /\ (argv = [] \/ exists x, argv = [x]).
Proof. destruct argv as [|x [|y r]]; intros H; [now split; [|left]|split; [reflexivity|right; eauto]|]. rewrite !zlen_cons in H. pose proof (zlen_nonneg r). lia. Qed.

Lemma cmd_ok cfg env reason pc lr id_n id_s argv :
  tcfg_ok cfg -> is_u32 reason -> is_u32 pc -> is_u32 lr -> Forall bytes argv -> (forall a, argument argv = Some a -> zlen a < 65536) -> room cfg argv ->
  exists c, trace_cmd cfg reason pc lr id_n id_s argv = Some c /\ tcap_ok cfg c /\ cap_fits cfg c /\
    cap_item cfg env false c = test_trace_item cfg env reason pc lr id_n id_s argv.
Proof.
  intros T R P L B AL RM. unfold trace_cmd, test_trace_item, room in *. cbv zeta.
  destruct (zlen argv <? 2) eqn:EA.
  - destruct (argv_short argv ltac:(lia)) as [N C]. rewrite N in *. destruct (tc_compact cfg) eqn:EC.
    + specialize (RM eq_refl). change (log_fmt promo_c [mk_carg (TInt 4) None]) with (Some (compressed_fmt [AInt (zlen argv)])). cbn [bind].
      eexists. split; [reflexivity|]. assert (A : 0 <= zlen argv < 2) by (pose proof (zlen_nonneg argv); lia).
      assert (F : Forall arg_ok [AInt (zlen argv)]) by (repeat constructor; cbn [arg_ok]; unfold is_s32; lia).
      split; [|split].
      * cbn [tcap_ok]. rewrite EC. do 3 (split; [auto|]). split; [reflexivity|]. split; [exact F|vm_compute; discriminate].
      * apply small_fits; [exact EC|reflexivity|exact F|vm_compute; discriminate|]. etransitivity; [apply int_size; lia|]. change (zlen []) with 0 in RM. lia.
      * cbn [cap_item andb negb kv_if]. unfold compact_item. cbn [map arg_item]. destruct C as [->|(x & ->)]; reflexivity.
    + eexists. split; [reflexivity|]. split; [|split; [exact I|]].
      * cbn [tcap_ok]. rewrite EC. do 4 (split; [auto|]). destruct C as [->|(x & ->)]; vm_compute; repeat constructor; discriminate.
      * cbn [cap_item andb negb kv_if]. destruct C as [->|(x & ->)]; reflexivity.
  - destruct argv as [|x [|a r]]; [discriminate EA|discriminate EA|]. cbn [nth_error bind argument] in *. specialize (AL a eq_refl).
    assert (BA : bytes a) by (inversion B as [|? ? _ B2]; inversion B2; assumption).
    destruct (tc_compact cfg) eqn:EC.
    + specialize (RM eq_refl). change (log_fmt promo_c [mk_carg (TCharPtr MacroArgs.CPlain false) None]) with (Some (compressed_fmt [AStr (Some a)])). cbn [bind].
      eexists. split; [reflexivity|]. assert (F : Forall arg_ok [AStr (Some a)]) by (repeat constructor; assumption). split; [|split].
      * cbn [tcap_ok]. rewrite EC. do 3 (split; [auto|]). split; [reflexivity|]. split; [exact F|vm_compute; discriminate].
      * apply small_fits; [exact EC|reflexivity|exact F|vm_compute; discriminate|]. etransitivity; [apply str_size; exact AL|lia].
      * reflexivity.
    + eexists. split; [reflexivity|]. split; [|split; [exact I|reflexivity]]. cbn [tcap_ok]. rewrite EC. auto.
Qed.

(** Typed in a task at any point of the storage's history: when the event fits the storage it is stored last and decodes to
    the item of the argument (or of the number of words), the reason and the place; otherwise one event more is missed. *)
Theorem C138_test_trace : forall ecfg storage ops rs v cfg env reason pc lr id_n id_s argv,
  0 < zlen storage <= 2147483648 -> Forall shop_ok ops ->
  ssv_run ecfg (zlen storage) (mk_ssv (mk_sev [] None 0) 0) ops = Some (rs, v) -> v_part (q_store v) = None ->
  tcfg_ok cfg -> senv_ok env -> is_u32 reason -> is_u32 pc -> is_u32 lr ->
  Forall bytes argv -> (forall a, argument argv = Some a -> zlen a < 65536) -> room cfg argv ->
  exists c i, trace_cmd cfg reason pc lr id_n id_s argv = Some c /\ cap_info cfg false c = Some i /\
  let p := e_trace_event cfg env i in
  (sh_compute_size p <= 65532 -> exists s b s' v', es_boot storage (zlen storage) = Some (Some s) /\
    sh_run ecfg (mk_sh s 0 0) (ops ++ [SEncode p]) = Some (rs ++ [RSaved b], s') /\
    ssv_run ecfg (zlen storage) (mk_ssv (mk_sev [] None 0) 0) (ops ++ [SEncode p]) = Some (rs ++ [RSaved b], v') /\
    (b = true <-> used (q_store v) + 2 + sh_compute_size p <= zlen storage) /\
    (b = true -> exists ev, v_events (q_store v') = v_events (q_store v) ++ [ev] /\ q_missed v' = q_missed v /\
       cbor_read ev = Some (test_trace_item cfg env reason pc lr id_n id_s argv, [])) /\
    (b = false -> v' = mk_ssv (q_store v) (q_missed v + 1))).
Proof.
  intros ecfg storage ops rs v cfg env reason pc lr id_n id_s argv HS FO ER VP T SE R P L B AL RM.
  destruct (cmd_ok cfg env reason pc lr id_n id_s argv T R P L B AL RM) as (c & E & K & CF & IT).
  assert (CI : exists i, cap_info cfg false c = Some i).
  { destruct c as [| | |r l id fmt args]; cbn [cap_info andb]; eauto. destruct K as (_ & _ & _ & -> & F & LA).
    destruct (compact_ok (tc_start cfg) id args F LA) as (p & EP & _). rewrite EP. cbn [bind]. eauto. }
  destruct CI as (i & CI). exists c, i. split; [exact E|]. split; [exact CI|]. intros p SZ.
  destruct (cap_in_history ecfg storage ops rs v cfg env false c i HS FO ER VP T SE K CF CI SZ) as (s & b & s' & v' & H1 & H2 & H3 & H4 & H5 & H6).
  exists s, b, s', v'. split; [exact H1|]. split; [exact H2|]. split; [exact H3|]. split; [exact H4|]. split; [|exact H6].
  intros HB. destruct (H5 HB) as (ev & -> & _ & RD). exists ev. split; [reflexivity|]. split; [reflexivity|]. now rewrite <- IT.
Qed.
Print Assumptions C138_test_trace.

Lemma enum_nth names : NoDup names -> forall k i x, nth_error names i = Some x -> enum_value names k x = Some (k + Z.of_nat i).
Proof.
  induction 1 as [|y r N D IH]; intros k i x E; [destruct i; discriminate E|]. cbn [enum_value]. destruct i as [|i]; cbn [nth_error] in E.
  - injection E as ->. destruct (list_eq_dec Z.eq_dec x x); [|congruence]. f_equal. lia.
  - destruct (list_eq_dec Z.eq_dec y x) as [->|_]; [apply nth_error_In in E; contradiction|]. rewrite (IH _ _ _ E). f_equal. lia.
Qed.
(** The names of a program that compiles are all different.  Then each of the user's reasons has the number of its place, from
    1 on; the command's comes next, and the number of reasons last. So no reason but Unknown is 0 (which marks a free slot),
    all are below the number, and no two are the same. *)
Theorem C138_reasons : forall user, let l := match user with Some l => l | None => [] end in
  NoDup (enum_names user) ->
  (forall i x, nth_error l i = Some x -> trace_reason user x = Some (1 + Z.of_nat i)) /\
  trace_reason user (str "Unknown") = Some 0 /\
  trace_reason user (str "MemfaultCli_Test") = Some (1 + zlen l) /\
  trace_reason user (str "NumReasons") = Some (2 + zlen l) /\
  (forall x y r, trace_reason user x = Some r -> trace_reason user y = Some r -> x = y).
Proof.
  intros user l D. unfold trace_reason.
  assert (N : enum_names user = str "Unknown" :: l ++ [str "MemfaultCli_Test"; str "NumReasons"]) by reflexivity.
  split; [|split; [reflexivity|split; [|split]]].
  - intros i x E. rewrite (enum_nth _ D 0 (S i) x); [f_equal; lia|]. rewrite N. change (nth_error (l ++ [str "MemfaultCli_Test"; str "NumReasons"]) i = Some x). rewrite nth_error_app1; [exact E|]. apply nth_error_Some. congruence.
  - rewrite (enum_nth _ D 0 (S (length l))); [unfold zlen; f_equal; lia|]. rewrite N. change (nth_error (l ++ [str "MemfaultCli_Test"; str "NumReasons"]) (length l) = Some (str "MemfaultCli_Test")). rewrite nth_error_app2, Nat.sub_diag by lia. reflexivity.
  - rewrite (enum_nth _ D 0 (S (S (length l)))); [unfold zlen; f_equal; lia|]. rewrite N. change (nth_error (l ++ [str "MemfaultCli_Test"; str "NumReasons"]) (S (length l)) = Some (str "NumReasons")). rewrite nth_error_app2 by lia.
    replace (S (length l) - length l)%nat with 1%nat by lia. reflexivity.
  - assert (V : forall x r, enum_value (enum_names user) 0 x = Some r -> exists i, nth_error (enum_names user) i = Some x /\ r = Z.of_nat i).
    { intros x r E. assert (I : In x (enum_names user)).
      { clear -E. revert E. generalize 0. induction (enum_names user) as [|y t IH]; intros k E; [discriminate E|]. cbn [enum_value] in E.
        destruct (list_eq_dec Z.eq_dec y x) as [->|_]; [now left|right; eauto]. }
      apply In_nth_error in I. destruct I as (i & I). exists i. split; [exact I|]. rewrite (enum_nth _ D 0 i x I) in E. injection E as <-. lia. }
    intros x y r E1 E2. destruct (V _ _ E1) as (i & I1 & R1), (V _ _ E2) as (j & I2 & R2). assert (i = j) by lia. subst j. congruence.
Qed.
Print Assumptions C138_reasons.

Definition t_env : senv := mk_senv [] (str "a") (str "b") (str "c") false None 6 None.
(** Refuted: any argument a shell takes leaves an event that can be read. With compact logs 100 letters do not. *)
Theorem C138_any_argument_refuted :
  ~ (forall cfg env argv c i e, tcfg_ok cfg -> senv_ok env -> Forall bytes argv -> (forall a, argument argv = Some a -> zlen a < 128) ->
       trace_cmd cfg 5 0 258 1016 1017 argv = Some c -> cap_info cfg false c = Some i ->
       eprog_run (cbor_init 1000) (e_trace_event cfg env i) = (true, e) -> exists it, cbor_read (ce_output e) = Some (it, [])).
Proof.
  intros H. set (cfg := mk_tc true true 80 1000). set (argv := [str "test_trace"; fill 100 65]).
  assert (X : match trace_cmd cfg 5 0 258 1016 1017 argv with
              | Some c => match cap_info cfg false c with
                          | Some i => let (b, e) := eprog_run (cbor_init 1000) (e_trace_event cfg t_env i) in b = true /\ cbor_read (ce_output e) = None
                          | None => False end
              | None => False end) by (vm_compute; split; reflexivity).
  destruct (trace_cmd cfg 5 0 258 1016 1017 argv) as [c|] eqn:E1; [|contradiction]. destruct (cap_info cfg false c) as [i|] eqn:E2; [|contradiction].
  destruct (eprog_run (cbor_init 1000) (e_trace_event cfg t_env i)) as [b e] eqn:E3. destruct X as [-> X].
  destruct (H cfg t_env argv c i e) as (it & Y); try assumption.
  - unfold tcfg_ok. cbn. lia.
  - split; [|split; [cbn; lia|split; exact I]]. repeat constructor; unfold is_u8; cbn; lia.
  - apply Forall_cons; [vm_compute; repeat constructor; discriminate|]. apply Forall_cons; [apply bytes_fill; unfold is_u8; lia|constructor].
  - intros a A. cbn [argument argv] in A. injection A as <-. reflexivity.
  - rewrite X in Y. discriminate Y.
Qed.
Print Assumptions C138_any_argument_refuted.

Example C138_case : let read cfg argv := (do c <- trace_cmd cfg 5 7 258 1016 1017 argv; do i <- cap_info cfg false c;
    let (b, e) := eprog_run (cbor_init 200) (e_trace_event cfg t_env i) in cbor_read (ce_output e)) in
  read (mk_tc true true 80 1000) [str "t"; str "hi"; str "x"] = Some (trace_item t_env 5 0 258 None [(IInt 9, IArray [IInt 17; IText (str "hi")])], []) /\
  read (mk_tc false true 4 1000) [str "t"; str "hello"] = Some (trace_item t_env 5 7 258 None [(IInt 8, IBytes (str "hel"))], []) /\
  read (mk_tc false true 80 1000) [str "t"] = Some (trace_item t_env 5 7 258 None [(IInt 8, IBytes (str "Example Trace Event. Num Args 1"))], []) /\
  room (mk_tc true true 80 1000) [str "t"; str "hi"; str "x"] /\
  trace_reason (Some [str "a"; str "b"]) (str "b") = Some 2 /\ trace_reason None (str "MemfaultCli_Test") = Some 1 /\ trace_reason None (str "b") = None.
Proof. repeat split; try (vm_compute; reflexivity). intros _. vm_compute. discriminate. Qed.
