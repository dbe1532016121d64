(** C134: the file and the sections GDB lists are all found, as listed. *)
From Coq Require Import String.
From Verif Require Import Base GdbSections GdbSectionsSpec GdbSectionsProofs.
Open Scope string_scope. Open Scope list_scope. Open Scope Z_scope.

Lemma sects_ok rows secs : Forall2 (fun r x => row_ok r (fst x) (snd x)) rows secs ->
  exists l, all_sects (map (fun r => [r_from r; r_to r; r_name r; r_flags r]) rows) = Some l /\
  Forall2 (fun x s => s_addr s = fst (snd x) /\ s_size s = snd (snd x) - fst (snd x) /\ s_name s = r_name (fst x) /\ (s_ro s = true <-> says_readonly (r_flags (fst x))))
    (combine rows secs) l.
Proof.
  induction 1 as [|r (a, b) rows secs R F (l & E & G)]; [exists []; split; [reflexivity|constructor]|].
  cbn [map all_sects to_sect bind]. rewrite E. cbn [bind]. eexists. split; [reflexivity|]. cbn [combine]. constructor; [|exact G]. cbn [fst snd s_addr s_size s_name s_ro].
  destruct R as [_ _ FR TO _ _ _]. apply shows_ok in FR as (_ & _ & FR). apply shows_ok in TO as (_ & _ & TO). cbn [fst snd] in FR, TO. rewrite FR, TO.
  repeat split; try reflexivity; apply within_spec.
Qed.

(** for every listing of a file and its sections: the file, and all the sections in order, with their addresses, sizes, names and
    whether they are read-only *)
Theorem C134_parse : forall a path b last rows secs,
  ~ In 96 a -> path <> [] -> ~ In 39 path -> ~ In 91 (heading a path b last) -> ws last = false ->
  Forall2 (fun r x => row_ok r (fst x) (snd x)) rows secs ->
  exists l, parse (listing (heading a path b last) rows) = Some (path, l) /\ length l = length rows /\
  Forall2 (fun x s => s_addr s = fst (snd x) /\ s_size s = snd (snd x) - fst (snd x) /\ s_name s = r_name (fst x) /\ (s_ro s = true <-> says_readonly (r_flags (fst x))))
    (combine rows secs) l.
Proof.
  intros a path b last rows secs A P Q N W F. destruct (sects_ok rows secs F) as (l & E & G). exists l.
  assert (S : search file_re (listing (heading a path b last) rows) = Some [path]).
  { unfold listing, heading. rewrite <- !app_assoc. rewrite search_skip.
    - change (str "`") with [96]. change (str "', file type") with [39; 44; 32; 102; 105; 108; 101; 32; 116; 121; 112; 101]. cbn [app]. cbn [search].
      unfold file_re. rewrite mt_is. erewrite mt_run with (c := []) (cap := true); [reflexivity|now apply isnt_all|reflexivity|destruct path; [congruence|simpl; lia]|].
      change (lits "', file type") with (map is [39; 44; 32; 102; 105; 108; 101; 32; 116; 121; 112; 101]). cbn [map]. rewrite !mt_is. reflexivity.
    - apply Forall_forall. intros c C t. unfold file_re. apply mt_is_none. intros ->. contradiction. }
  unfold parse. rewrite S.
  assert (X : findall (Datatypes.S (length (listing (heading a path b last) rows))) section_re (listing (heading a path b last) rows)
    = map (fun r => [r_from r; r_to r; r_name r; r_flags r]) rows).
  { unfold listing. set (t := flat_map (fun r => 10 :: line r) rows ++ [10]).
    assert (HH : exists h, heading a path b last = h ++ [last]).
    { unfold heading. exists (a ++ str "`" ++ path ++ str "', file type" ++ b). now rewrite <- !app_assoc. }
    destruct HH as (h & HH). rewrite HH in *. destruct (skip_head last t h (Datatypes.S (length ((h ++ [last]) ++ t))) N W) as (f & L & R).
    - rewrite <- app_assoc. lia.
    - rewrite R. apply rows_found; [exists secs; exact F|exact L]. }
  rewrite X, E. split; [reflexivity|]. split; [|exact G].
  assert (FL : forall X Y (R : X -> Y -> Prop) u v, Forall2 R u v -> length u = length v) by (induction 1; simpl; congruence).
  apply FL in G. rewrite <- G, combine_length, <- (FL _ _ _ _ _ F). apply Nat.min_id.
Qed.
Print Assumptions C134_parse.

(** without a file there is nothing *)
Theorem C134_no_file : forall out, ~ In 96 out -> parse out = None.
Proof.
  intros out H. unfold parse. replace (search file_re out) with (@None (list (list Z))); [reflexivity|]. rewrite <- (app_nil_r out).
  rewrite search_skip; [reflexivity|]. apply Forall_forall. intros c C t. unfold file_re. apply mt_is_none. intros ->. contradiction.
Qed.
Print Assumptions C134_no_file.

(** ** What does not hold *)
Definition row1 := mk_row (str "2") (str "     ") (str "6b784") (str "6b7A8") (str "0004b784") (str ".gnu_build_id") (str "ALLOC LOAD READONLY DATA HAS_CONTENTS").
Definition row2 := mk_row (str "13") (str "    ") (str "20000000") (str "20000400") (str "00060000") (str ".bss") (str "ALLOC").

(** the file is found whatever its path *)
Theorem C134_quote_refuted : ~ (forall a path b last rows, ~ In 96 a -> path <> [] -> ~ In 96 path -> ws last = false ->
  exists l, parse (listing (heading a path b last) rows) = Some (path, l)).
Proof.
  intro H. destruct (H (str "Exec file: ") (str "/home/o'neil/a.elf") (str " elf32-littlearm") 46 [row1]) as (l & L);
    [vm_compute; intuition discriminate|discriminate|vm_compute; intuition discriminate|reflexivity|]. vm_compute in L. discriminate.
Qed.
Print Assumptions C134_quote_refuted.
(** a section is found on a line that ends with its name *)
Theorem C134_no_flags_refuted : ~ (forall out fn l, parse out = Some (fn, l) -> within (str ": .comment") out = true -> l <> []).
Proof.
  intro H. apply (H (heading (str "Exec file: ") (str "a.elf") (str " elf32") 46 ++ [10] ++ str " [3]     0x0->0x40 at 0x00000100: .comment" ++ [10])
    (str "a.elf") []); vm_compute; reflexivity.
Qed.
Print Assumptions C134_no_flags_refuted.

(** ** Example *)
Example C134_case : parse (listing (heading (str "Exec file: ") (str "/tmp/a.elf") (str " elf32-littlearm") 46) [row1; row2]) =
  Some (str "/tmp/a.elf", [mk_sect 440196 36 (str ".gnu_build_id") true; mk_sect 536870912 1024 (str ".bss") false]).
Proof. vm_compute. reflexivity. Qed.
Example C134_case_ok : row_ok row1 440196 440232.
Proof.
  constructor; try (split; [discriminate|]).
  - cbv -[Z.le]; repeat (constructor; [lia|]); constructor.
  - cbv; repeat (constructor; [reflexivity|]); constructor.
  - change (r_from row1) with (((([54] ++ [98]) ++ [55]) ++ [56]) ++ [52]). change 440196 with ((((6 * 16 + (98 - 97 + 10)) * 16 + (55 - 48)) * 16 + (56 - 48)) * 16 + (52 - 48)).
    repeat (eapply sh_more; [|constructor; lia]). change 6 with (54 - 48). apply sh_one. constructor. lia.
  - change (r_to row1) with (((([54] ++ [98]) ++ [55]) ++ [65]) ++ [56]). change 440232 with ((((6 * 16 + (98 - 97 + 10)) * 16 + (55 - 48)) * 16 + (65 - 65 + 10)) * 16 + (56 - 48)).
    eapply sh_more; [|apply dg_num; lia]. eapply sh_more; [|apply dg_up; lia]. eapply sh_more; [|apply dg_num; lia]. eapply sh_more; [|apply dg_low; lia].
    change 6 with (54 - 48). apply sh_one. constructor. lia.
  - exists (((((((0 * 16 + 0) * 16 + 0) * 16 + 4) * 16 + 11) * 16 + 7) * 16 + 8) * 16 + 4).
    change (r_off row1) with ((((((([48] ++ [48]) ++ [48]) ++ [52]) ++ [98]) ++ [55]) ++ [56]) ++ [52]).
    assert (N : forall c v, 48 <= c <= 57 -> v = c - 48 -> digit c v) by (intros c v C ->; now constructor).
    assert (L : digit 98 11) by (change 11 with (98 - 97 + 10); constructor; lia).
    repeat (eapply sh_more; [|first [exact L|apply N; lia]]). apply sh_one. apply N; lia.
  - vm_compute; intuition discriminate.
  - vm_compute; intuition discriminate.
Qed.
