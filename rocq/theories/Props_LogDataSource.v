(** Property C27: the upload message of the RAM log. *)
From Coq Require Import String.
From Verif Require Import Base CircularBuffer Log LogSpec CborSpec SerializerHelper SerializerHelperSpec LogDataSource LogDataSourceSpec LogDataSourceProofs.

(** After any history from boot that leaves an upload in progress there is one message: until the upload is
    acknowledged, whatever else is logged, read or triggered, its size is announced and every piece read, in
    any order, is a slice of it.  If no log of the upload is empty or wraps around the end of the ring, it
    decodes to those logs, in order, with level, text and time. *)
Theorem C27_upload_is_one_message : forall M env tse storage min ops rs h n,
  0 < zlen storage <= 268435456 -> 4 <= M <= 255 -> senv_ok env -> Forall (log_op_ok tse) ops ->
  hist_run M (zlen storage) (hist_init min) ops = Some (rs, h) -> h_up h = Some n ->
  exists msg,
    (upload_whole (zlen storage) h ->
       cbor_read msg = Some (logs_item env tse (upload_time M (zlen storage) (hist_init min) None ops) (uploading (zlen storage) h), [])) /\
    forall more rs' h', Forall (log_op_ok tse) more -> ~ In LMarkSent more -> hist_run M (zlen storage) h more = Some (rs', h') ->
    exists s s', log_boot storage (zlen storage) min = Some (Some s) /\ log_run M tse s (ops ++ more) = Some (rs ++ rs', s') /\
      lds_has env tse s' = Some (Some (zlen msg)) /\
      forall off buf, 0 <= off -> off + zlen buf < 4294967296 ->
        exists out, lds_read env tse s' off buf = Some ((off + zlen buf <=? zlen msg) || (zlen buf =? 0), out) /\
          (off + zlen buf <= zlen msg -> out = take (zlen buf) (drop off msg)).
Proof. exact upload_message. Qed.
Print Assumptions C27_upload_is_one_message.

(** No upload in progress: nothing is announced. *)
Theorem C27_nothing_without_trigger : forall M env tse storage min ops rs h,
  0 < zlen storage < 2147483648 -> 4 <= M <= 255 -> Forall (log_op_ok tse) ops ->
  hist_run M (zlen storage) (hist_init min) ops = Some (rs, h) -> h_up h = None ->
  exists s s', log_boot storage (zlen storage) min = Some (Some s) /\ log_run M tse s ops = Some (rs, s') /\ lds_has env tse s' = Some None.
Proof. exact no_upload. Qed.
Print Assumptions C27_nothing_without_trigger.

Definition c27_env : senv := mk_senv [] (str "app") (str "1.0") (str "evt") false None 6 None.
(** The announced message read in one piece after a history, and what the cloud makes of it. *)
Definition c27_upload (tse : bool) (cap M : Z) (ops : list log_op) : option (list Z) :=
  do s <- log_boot (fill cap 0) cap 0; do s <- s; do x <- log_run M tse s ops;
  do n <- lds_has c27_env tse (snd x); do n <- n;
  do r <- lds_read c27_env tse (snd x) 0 (fill n 0);
  if fst r then Some (snd r) else None.

(** Without the condition on the logs this fails: a log that wraps around the end of the ring is emitted
    as two logs, while the array announces one (here the second of two logs in a ring of 13 bytes, the
    first of which was evicted). *)
Definition c27_wrap : list log_op := [LSave 1 0 None (str "abcdefg"); LSave 1 0 None (str "hijkl"); LTrigger None].
Theorem C27_any_upload_decodes_refuted : ~ (forall M env tse storage min ops rs h n,
  0 < zlen storage <= 268435456 -> 4 <= M <= 255 -> senv_ok env -> Forall (log_op_ok tse) ops ->
  hist_run M (zlen storage) (hist_init min) ops = Some (rs, h) -> h_up h = Some n ->
  exists s s' size out, log_boot storage (zlen storage) min = Some (Some s) /\ log_run M tse s ops = Some (rs, s') /\
    lds_has env tse s' = Some (Some size) /\ lds_read env tse s' 0 (fill size 0) = Some (true, out) /\
    cbor_read out = Some (logs_item env tse (upload_time M (zlen storage) (hist_init min) None ops) (uploading (zlen storage) h), [])).
Proof.
  intros X. destruct (hist_run 80 13 (hist_init 0) c27_wrap) as [[rs h]|] eqn:E; [|vm_compute in E; discriminate].
  assert (U : h_up h = Some 2) by (vm_compute in E; injection E as <- <-; reflexivity).
  destruct (X 80 c27_env false (fill 13 0) 0 c27_wrap rs h 2) as (s & s' & size & out & E1 & E2 & E3 & E4 & E5); try assumption.
  - vm_compute. split; [reflexivity|discriminate].
  - lia.
  - unfold senv_ok; cbn. split; [|split; [lia|split; exact I]].
    repeat (constructor; [split; [vm_compute; repeat constructor; discriminate|vm_compute; reflexivity]|]). constructor.
  - repeat apply Forall_cons; try apply Forall_nil; cbn [log_op_ok]; try exact I;
      (split; [lia|]; split; [lia|]; split; [vm_compute; repeat constructor; discriminate|]; split; [vm_compute; reflexivity|exact I]).
  - vm_compute in E. injection E as <- <-. vm_compute in E1. injection E1 as <-. vm_compute in E2. injection E2 as <-.
    vm_compute in E3. injection E3 as <-. vm_compute in E4. injection E4 as <-. vm_compute in E5. discriminate.
Qed.
Print Assumptions C27_any_upload_decodes_refuted.

(** An empty log (ring never wraps) is not emitted at all: the array is short of its elements. *)
Theorem C27_empty_log_refuted : ~ (forall text out,
  bytes text -> zlen text <= 80 -> c27_upload false 128 80 [LSave 2 0 None text; LTrigger None] = Some out ->
  exists i, cbor_read out = Some (i, [])).
Proof.
  intros X. destruct (c27_upload false 128 80 [LSave 2 0 None []; LTrigger None]) as [out|] eqn:E; [|vm_compute in E; discriminate].
  destruct (X [] out) as (i & H); [constructor|vm_compute; discriminate|exact E|]. vm_compute in E. injection E as <-. vm_compute in H. discriminate.
Qed.
Print Assumptions C27_empty_log_refuted.

(** Four logs, one of them compact, the first uploaded before; the last comes after the trigger. *)
Example C27_case :
  let ops := [LSave 1 0 (Some 7) (str "one"); LTrigger None; LMarkSent; LSave 2 0 (Some 258) (str "two"); LSave 3 1 None [130; 1; 2]; LTrigger (Some 9); LSave 0 0 None (str "x")] in
  (do m <- c27_upload true 128 80 ops; cbor_read m) =
  Some (event_item c27_env 6 (Some 9) (IArray [IInt 258; IInt 2; IText (str "two"); IInt 0; IInt 3; IBytes [130; 1; 2]]), []).
Proof. vm_compute. reflexivity. Qed.
