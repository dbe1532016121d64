(** C120: writing to the flash on ESP-IDF 5 *)
From Verif Require Import Base EspFlash EspFlashSpec EspFlashProofs.

(** When no call fails, all of the source is in the flash, and nothing else changed; no call has more than 128 bytes. *)
Theorem C120_written : forall prog f dest src data errs,
  0 <= src -> src + zlen data <= 2 ^ 32 - 128 -> 0 <= dest -> dest + zlen data <= 2 ^ 32 ->
  (forall i e, 0 <= i -> 128 * i < zlen data -> get errs i = Some e -> e = 0) ->
  exists ws, vwrite dest src data errs = Some (0, ws) /\ Forall (fun w => 1 <= zlen (snd w) <= 128) ws /\
    written prog f (programs prog f ws) dest data.
Proof.
  intros prog f dest src data errs A B C D E. unfold vwrite.
  pose proof (loop_all prog f dest src data A B C D (S (length data)) 0 errs [] (upto_0 prog f dest data)) as X.
  rewrite Z.add_0_r in X. apply X; [pose proof (zlen_nonneg data); lia|unfold zlen; lia|lia|exact E].
Qed.
Print Assumptions C120_written.
(** The first failing call's error is returned; what the earlier calls wrote stays, and nothing else changed. *)
Theorem C120_first_error : forall prog f dest src data pre e post,
  0 <= src -> src + zlen data <= 2 ^ 32 - 128 -> 0 <= dest -> dest + zlen data <= 2 ^ 32 ->
  Forall (eq 0) pre -> e <> 0 -> 128 * zlen pre < zlen data ->
  exists ws, vwrite dest src data (pre ++ e :: post) = Some (e, ws) /\ Forall (fun w => 1 <= zlen (snd w) <= 128) ws /\
    written prog f (programs prog f ws) dest (take (128 * zlen pre) data).
Proof.
  intros prog f dest src data pre e post A B C D P E L. unfold vwrite.
  pose proof (loop_stops prog f dest src data A B C D pre (S (length data)) 0 e post [] (upto_0 prog f dest data)) as X.
  rewrite Z.add_0_r, Z.add_0_l in X. apply X; [unfold zlen; lia|exact P|exact E|exact L].
Qed.
Print Assumptions C120_first_error.
(** Without verification one call does the same, or nothing. *)
Theorem C120_one_call : forall prog f dest data err,
  written prog f (programs prog f (snd (pwrite dest data err))) dest (if fst (pwrite dest data err) =? 0 then data else []) /\
  fst (pwrite dest data err) = err.
Proof.
  intros prog f dest data err. unfold pwrite. destruct (err =? 0) eqn:E; cbn [fst snd].
  - split; [|lia]. unfold programs. cbn [fold_left Z.eqb]. pose proof (written_more prog f f dest [] data (written_nil prog f dest)) as W.
    change (zlen (@nil Z)) with 0 in W. rewrite Z.add_0_r in W. exact W.
  - rewrite E. split; [apply written_nil|reflexivity].
Qed.
Print Assumptions C120_one_call.

Definition c120_src : list Z := map (fun i => i mod 256) (zrange 300).
Example C120_case :
  match vwrite 4096 1000 c120_src [] with
  | Some (rv, ws) => rv = 0 /\ map (fun w => (fst w, zlen (snd w))) ws = [(4096, 128); (4224, 128); (4352, 44)] /\
      programs Z.land (fun _ => 255) ws 4360 = 8 /\ programs Z.land (fun _ => 255) ws 4396 = 255
  | None => False
  end /\
  match vwrite 4096 1000 c120_src [0; 7] with
  | Some (rv, ws) => rv = 7 /\ programs Z.land (fun _ => 255) ws 4223 = 127 /\ programs Z.land (fun _ => 255) ws 4224 = 255
  | None => False
  end.
Proof. vm_compute. repeat split. Qed.

(** A source whose end is the end of the address space: success is returned, and nothing is written. *)
Theorem C120_source_at_the_end_refuted : ~ (forall prog f dest src data,
  0 <= src -> src + zlen data <= 2 ^ 32 -> 0 <= dest -> dest + zlen data <= 2 ^ 32 ->
  exists ws, vwrite dest src data [] = Some (0, ws) /\ written prog f (programs prog f ws) dest data).
Proof.
  intros X. destruct (X (fun _ b => b) (fun _ => 255) 0 4294967292 [1; 2; 3; 4]) as (ws & A & W); [lia|change (zlen [1; 2; 3; 4]) with 4; lia|lia|change (zlen [1; 2; 3; 4]) with 4; lia|].
  vm_compute in A. injection A as <-. destruct (W 0) as [W1 _]. destruct W1 as (b & B1 & B2); [change (zlen [1; 2; 3; 4]) with 4; lia|].
  vm_compute in B1. injection B1 as <-. vm_compute in B2. discriminate.
Qed.
Print Assumptions C120_source_at_the_end_refuted.
