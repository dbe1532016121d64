(** C50: compact logs. *)
From Coq Require Import String.
From Verif Require Import Base Cbor CborSpec SerializerHelper CompactLog CompactLogSpec CompactLogProofs.

(** C50: whatever the arguments (up to 15 of any types the format macro encodes), serializing a
    compact log into a buffer of any size succeeds exactly when the computed size fits, writes
    nothing outside the buffer, and the bytes mean the offset of the format string and every
    argument, in order, with its value. *)
Theorem C50_compact_log_is_exact : forall start log_id args len, Forall arg_ok args -> zlen args <= 15 -> is_u32 len ->
  exists p b e, compact_serialize start log_id (compressed_fmt args) args = Some p /\ eprog_run (cbor_init len) p = (b, e) /\
    zlen (ce_output e) <= len /\ (b = true <-> sh_compute_size p <= len) /\
    (b = true -> cbor_read (ce_output e) = Some (compact_item ((log_id - start) mod 4294967296) args, [])).
Proof. exact compact_in_buffer. Qed.
Print Assumptions C50_compact_log_is_exact.
Example C50_case :
  let args := [AInt (-5); ALong (-8589934592); AStr (Some (str "ab")); ADouble 4607182418800017408; AStr None] in
  Forall arg_ok args /\
  (do p <- compact_serialize 1000 1024 (compressed_fmt args) args;
   let (b, e) := eprog_run (cbor_init 64) p in Some (b, zlen (ce_output e), cbor_read (ce_output e)))
  = Some (true, 33, Some (IArray [IInt 24; IInt (-5); IArray [IInt (-8589934592)]; IText (str "ab"); IFloat64 4607182418800017408; IText (str "(null)")], [])).
Proof. split; [|vm_compute; reflexivity]. repeat apply Forall_cons; try apply Forall_nil; cbn; unfold is_s32, is_s64, is_u64; try lia. split; [repeat apply Forall_cons; try apply Forall_nil; unfold is_u8; lia|reflexivity]. Qed.

(** The format value of 16 arguments does not fit 32 bits: the macro of the header stops at 15. *)
Theorem C50_sixteen_arguments_fit_the_format_refuted :
  ~ (forall args, zlen args <= 16 -> is_u32 (compressed_fmt args)).
Proof.
  intros H. specialize (H (repeat (AInt 0) 16) ltac:(vm_compute; discriminate)). unfold is_u32 in H.
  assert (E : compressed_fmt (repeat (AInt 0) 16) = 4294967296) by (vm_compute; reflexivity). lia.
Qed.
Print Assumptions C50_sixteen_arguments_fit_the_format_refuted.
