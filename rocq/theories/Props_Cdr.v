(** Properties of custom data recordings (C35). *)
From Coq Require Import String.
From Verif Require Import Base CborSpec SerializerHelper SerializerHelperSpec Cdr CdrSpec CdrProofs.

(** For any table size and metadata buffer there is a message for every recording (a head followed by the
    recorded bytes, read back by the cloud as the registered fields and the data) such that every history of
    registrations, queries, reads of any pieces, acknowledgements, resets and new recordings behaves as a
    queue per source of those messages, served in order of registration. *)
Theorem C35_recordings_are_delivered : forall env n max w,
  senv_ok env -> is_u32 max -> 0 <= n ->
  exists msg,
    (forall r, rec_ok r -> cbor_read (msg r) = Some (cdr_item env r, []) /\
       exists head, msg r = head ++ cr_data r) /\
    let fits r := rec_ok r /\ zlen (msg r) - zlen (cr_data r) <= max /\ zlen (msg r) < 4294967296 in
    forall ops rs v', recs_all fits w -> Forall (op_recs fits) ops ->
      cv_run msg n (mk_cv [] w None) ops = Some (rs, v') ->
      exists s, cdr_run env w (cdr_init n max) ops = Some (rs, cv_world v', s).
Proof. exact cdr_refines. Qed.
Print Assumptions C35_recordings_are_delivered.

(** A recording whose metadata does not fit the buffer (here: a reason longer than the buffer) blocks every
    source: no query ever announces anything again, whatever is registered or recorded. *)
Theorem C35_oversized_metadata_blocks_all_sources : forall env n max w i r t ops,
  senv_ok env -> is_u32 max -> 0 < n ->
  w i = r :: t -> rec_ok r -> max < zlen (cm_reason (cr_meta r)) -> Forall quiet ops ->
  exists rs w' s, cdr_run env w (cdr_init n max) (CoRegister i :: ops) = Some (rs, w', s) /\
    Forall (fun y => forall k, y <> CrSize (Some k)) rs.
Proof. exact stuck_forever. Qed.
Print Assumptions C35_oversized_metadata_blocks_all_sources.

(** With the default sizes (4 sources, 128 bytes), keeping to the documented limit of 100 characters for
    the reason and to one MIME type does not ensure that a recording is offered. *)
Theorem C35_documented_limits_suffice_refuted : ~ (forall env w ops rs w' s,
  senv_ok env -> recs_all (fun r => rec_ok r /\ zlen (cm_reason (cr_meta r)) <= 100 /\ zlen (cm_mimes (cr_meta r)) <= 1) w ->
  Forall (fun o => exists i, o = CoRegister i) ops ->
  cdr_run env w (cdr_init 4 128) (ops ++ [CoHas]) = Some (rs ++ [CrSize None], w', s) ->
  forall i, In (CoRegister i) ops -> w i = []).
Proof. exact documented_limits_block. Qed.
Print Assumptions C35_documented_limits_suffice_refuted.

(** Two sources; the first has no recording, the second one of five bytes: read across the boundary of
    head and data, acknowledged, then nothing. *)
Example C35_case :
  let env := mk_senv [] (str "app") (str "1.0") (str "evt") false None 6 None in
  let r := mk_cr (mk_cm (Some 1700000000) [str "text/plain"] 5 250 (str "test")) [10; 20; 30; 40; 50] in
  let w := fun i => if i =? 2 then [r] else [] in
  exists w' s head,
    cdr_run env w (cdr_init 4 128) [CoRegister 1; CoRegister 2; CoHas; CoRead 0 57; CoRead 49 8; CoRead 52 6; CoRead 55 0; CoMark; CoHas; CoRead 0 1]
    = Some ([CrBool true; CrBool true; CrSize (Some 57); CrData (Some (head ++ [10; 20; 30; 40; 50]));
             CrData (Some [116; 4; 69; 10; 20; 30; 40; 50]); CrData None; CrData (Some []); CrUnit; CrSize None; CrData None], w', s) /\
    w' 2 = [] /\
    cbor_read (head ++ [10; 20; 30; 40; 50]) = Some (cdr_item env r, []).
Proof. intros env r w. eexists _, _, (cdr_head env (cr_meta r)). split; [vm_compute; reflexivity|]. split; vm_compute; reflexivity. Qed.
