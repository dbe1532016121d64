From Coq Require Import String.
From Verif Require Import Base Base64 Base64Spec DataExport DataExportSpec DataExportProofs DebugLog DebugLogSpec.

Lemma until0_app t r : ~ In 0 t -> until0 (t ++ 0 :: r) = t.
Proof.
  induction t as [|x t IH]; intros N; [reflexivity|]. cbn [app until0].
  destruct (x =? 0) eqn:E. { exfalso. apply N. left. lia. }
  rewrite IH; [reflexivity|]. intros H. apply N. now right.
Qed.
Lemma in_take (x : Z) n (l : list Z) : In x (take n l) -> In x l.
Proof. unfold take. revert l. induction (Z.to_nat n) as [|k IH]; intros [|y l]; cbn; intros H; auto; [easy|]. destruct H; auto. Qed.
Lemma dbg_ok junk text : ~ In 0 text -> until0 (dbg_buf junk text) = take 127 text.
Proof.
  intros N. unfold dbg_buf. change (dbg_size - 1) with 127. apply until0_app. intros H. apply N. eapply in_take, H.
Qed.

Lemma starts_app p l : starts_with p (p ++ l) = Some l.
Proof.
  unfold starts_with. rewrite (take_app_exact (zlen p) p l) by reflexivity. rewrite (drop_app_exact (zlen p) p l) by reflexivity.
  now destruct (list_eq_dec Z.eq_dec p p).
Qed.
Lemma ends_app e l : ends_with e (l ++ e) = Some l.
Proof.
  unfold ends_with. rewrite zlen_app. replace (zlen l + zlen e - zlen e) with (zlen l) by lia.
  rewrite (take_app_exact (zlen l) l e) by reflexivity. rewrite (drop_app_exact (zlen l) l e) by reflexivity.
  now destruct (list_eq_dec Z.eq_dec e e).
Qed.
(** A format that differs from the beginning of a line *)
Lemma starts_not p q l : zlen p <= zlen q -> take (zlen p) q <> p -> starts_with p (q ++ l) = None.
Proof.
  intros L N. unfold starts_with. rewrite (take_app_le (zlen p) q l) by lia.
  destruct (list_eq_dec Z.eq_dec (take (zlen p) q) p); [contradiction|reflexivity].
Qed.
Lemma first_hit p e v r t : first_of ((p, e, v) :: r) (p ++ t ++ e) = Some (v, t).
Proof. cbn [first_of]. now rewrite starts_app, ends_app. Qed.
Lemma first_miss p e v r q l : zlen p <= zlen q -> take (zlen p) q <> p ->
  first_of ((p, e, v) :: r) (q ++ l) = first_of r (q ++ l).
Proof. intros L N. cbn [first_of]. now rewrite starts_not. Qed.

Ltac miss := rewrite first_miss; [|vm_compute; discriminate|vm_compute; discriminate].

Lemma line_ok p junk level text : ~ In 0 text -> 0 <= level <= 3 ->
  exists e, plat_log p junk level text = [e] /\ reads e = Some (level, shortened text).
Proof.
  intros N L. unfold plat_log, shortened. rewrite (dbg_ok _ _ N). set (s := take 127 text).
  assert (H : level = 0 \/ level = 1 \/ level = 2 \/ level = 3) by lia.
  assert (D : forall c, str "[" ++ [c] ++ str "] MFLT: " ++ s ++ [13; 10] = (str "[" ++ [c] ++ str "] MFLT: ") ++ s ++ [13; 10])
    by (intros c; now rewrite <- !app_assoc).
  destruct p; destruct H as [->|[->|[->| ->]]]; cbn [letter os_level Z.eqb];
    unfold letter, os_level; cbn [Z.eqb Pos.eqb]; eexists; (split; [reflexivity|]); try reflexivity;
    cbn [reads]; rewrite ?D; unfold formats, printk_name; cbn [Z.eqb Pos.eqb].
  - change (str "[" ++ [68] ++ str "] MFLT: ") with (str "[D] MFLT: "). apply first_hit.
  - change (str "[" ++ [73] ++ str "] MFLT: ") with (str "[I] MFLT: "). miss. apply first_hit.
  - change (str "[" ++ [87] ++ str "] MFLT: ") with (str "[W] MFLT: "). do 2 miss. apply first_hit.
  - change (str "[" ++ [69] ++ str "] MFLT: ") with (str "[E] MFLT: "). do 3 miss. apply first_hit.
  - change (str "[" ++ [68] ++ str "] MFLT: ") with (str "[D] MFLT: "). apply first_hit.
  - change (str "[" ++ [73] ++ str "] MFLT: ") with (str "[I] MFLT: "). miss. apply first_hit.
  - change (str "[" ++ [87] ++ str "] MFLT: ") with (str "[W] MFLT: "). do 2 miss. apply first_hit.
  - change (str "[" ++ [69] ++ str "] MFLT: ") with (str "[E] MFLT: "). do 3 miss. apply first_hit.
  - do 4 miss. apply first_hit.
  - do 5 miss. apply first_hit.
  - do 6 miss. apply first_hit.
  - do 7 miss. apply first_hit.
Qed.

Lemma raw_ok p junk text : ~ In 0 text ->
  exists e, (e = [10] \/ e = [13; 10]) /\
    plat_raw p junk text = match p with ZephyrLog | ZephyrPrintk => shortened text | _ => text end ++ e.
Proof. intros N. destruct p; cbn [plat_raw]; rewrite ?(dbg_ok _ _ N); eexists; (split; [|reflexivity]); auto. Qed.

Lemma c_string_until0 buf s : c_string buf = Some s -> until0 buf = s /\ ~ In 0 s.
Proof.
  unfold c_string. revert s. induction buf as [|x r IH]; intros s; cbn [cut until0]; [discriminate|].
  destruct (x =? 0) eqn:E; [intros H; inv H; now split|].
  destruct (cut 0 r) as [[a b]|]; [|discriminate]. intros H. inv H. destruct (IH a eq_refl) as [A B].
  split; [now rewrite A|]. cbn [In]. intros [F|F]; [lia|auto].
Qed.

Lemma export_line max ejunk chunk : bytes chunk -> zlen chunk <= max -> b64_enc_len max <= INT_MAX ->
  zlen ejunk = export_buf_len max ->
  exists buf enc, export_chunk max ejunk chunk = Some buf /\ until0 buf = str "MC:" ++ enc ++ str ":" /\
    ~ In 0 (str "MC:" ++ enc ++ str ":") /\ b64_decode enc = Some chunk /\ zlen enc = b64_enc_len (zlen chunk).
Proof.
  intros A B C D. destruct (export_chunk_ok max ejunk chunk A B C D) as (enc & E1 & E2 & E3 & _).
  eexists _, enc. split; [exact E1|].
  assert (Z : c_string (str "MC:" ++ enc ++ str ":" ++ 0 :: drop (zlen enc + 5) ejunk) = Some (str "MC:" ++ enc ++ str ":")).
  { pose proof (b64_decode_plain _ _ _ (le_n _) E2) as P.
    unfold c_string. replace (str "MC:" ++ enc ++ str ":" ++ 0 :: drop (zlen enc + 5) ejunk) with ((str "MC:" ++ enc ++ str ":") ++ 0 :: drop (zlen enc + 5) ejunk)
      by (rewrite <- !app_assoc; reflexivity).
    rewrite cut_app; [reflexivity|]. repeat (apply Forall_app; split).
    + repeat constructor; vm_compute; discriminate.
    + eapply Forall_impl; [|exact P]. intros a [Q _]. exact Q.
    + repeat constructor; vm_compute; discriminate. }
  destruct (c_string_until0 _ _ Z) as [U N]. auto.
Qed.

Lemma enc_len_90 n : 0 <= n <= 90 -> b64_enc_len n <= 120.
Proof. intros H. unfold b64_enc_len. Z.to_euclidean_division_equations. lia. Qed.
Lemma enc_len_91 n : 90 < n -> 124 <= b64_enc_len n.
Proof. intros H. unfold b64_enc_len. Z.to_euclidean_division_equations. lia. Qed.

Lemma export_ok p junk max ejunk chunk : bytes chunk -> zlen chunk <= max -> b64_enc_len max <= INT_MAX ->
  zlen ejunk = export_buf_len max -> zlen chunk <= 90 ->
  exists buf e s, export_chunk max ejunk chunk = Some buf /\ export_logged p junk buf = [e] /\
    reads e = Some (1, s) /\ read_line s = Some chunk.
Proof.
  intros A B C D S. destruct (export_line max ejunk chunk A B C D) as (buf & enc & E & U & N & DE & L).
  destruct (line_ok p junk 1 (until0 buf)) as (e & P1 & P2); [rewrite U; exact N|lia|].
  exists buf, e, (str "MC:" ++ enc ++ str ":"). split; [exact E|]. split; [exact P1|]. split.
  - rewrite P2, U. unfold shortened. rewrite take_all; [reflexivity|].
    rewrite !zlen_app, L. change (zlen (str "MC:")) with 3. change (zlen (str ":")) with 1.
    pose proof (enc_len_90 (zlen chunk)). pose proof (zlen_nonneg chunk). lia.
  - change (str "MC:") with [77; 67; 58]. change (str ":") with [58]. cbn [app read_line].
    rewrite cut_app; [exact DE|]. eapply Forall_impl; [|exact (b64_decode_plain _ _ _ (le_n _) DE)]. intros a [_ Q]. exact Q.
Qed.

Lemma cut_none c l : Forall (fun x => x <> c) l -> cut c l = None.
Proof. induction 1 as [|x l Hx _ IH]; cbn [cut]; [reflexivity|]. replace (x =? c) with false by lia. now rewrite IH. Qed.
Lemma Forall_take {A} (P : A -> Prop) n l : Forall P l -> Forall P (take n l).
Proof. unfold take. revert l. induction (Z.to_nat n) as [|k IH]; intros l H; cbn [firstn]; [constructor|]. destruct H; constructor; auto. Qed.

Lemma export_lost p junk max ejunk chunk : bytes chunk -> zlen chunk <= max -> b64_enc_len max <= INT_MAX ->
  zlen ejunk = export_buf_len max -> 90 < zlen chunk ->
  exists buf e s, export_chunk max ejunk chunk = Some buf /\ export_logged p junk buf = [e] /\
    reads e = Some (1, s) /\ read_line s = None.
Proof.
  intros A B C D S. destruct (export_line max ejunk chunk A B C D) as (buf & enc & E & U & N & DE & L).
  destruct (line_ok p junk 1 (until0 buf)) as (e & P1 & P2); [rewrite U; exact N|lia|].
  eexists buf, e, _. split; [exact E|]. split; [exact P1|]. split; [exact P2|].
  rewrite U. unfold shortened. pose proof (enc_len_91 _ S).
  rewrite (take_app_ge 127 (str "MC:") (enc ++ str ":")) by (change (zlen (str "MC:")) with 3; lia).
  change (127 - zlen (str "MC:")) with 124. rewrite (take_app_le 124 enc (str ":")) by lia.
  change (str "MC:") with [77; 67; 58]. cbn [app read_line].
  rewrite cut_none; [reflexivity|]. apply Forall_take.
  eapply Forall_impl; [|exact (b64_decode_plain _ _ _ (le_n _) DE)]. intros a [_ Q]. exact Q.
Qed.
