(** C61: the build id as text, and the unique version. *)
From Coq Require Import String.
From Verif Require Import Base BuildId BuildIdSpec BuildIdProofs.

(** The text given is hex for the beginning of the build id, as much as fits, NUL-terminated, and
    nothing else of the buffer is touched. *)
Theorem C61_text_is_hex_of_the_id id type mem out len : id_in_memory id type mem -> bytes id -> 2 <= len <= zlen out ->
  exists hex, bi_get_string type mem out len = Some (true, hex ++ [0] ++ drop (zlen hex + 1) out) /\
    zlen hex = Z.min 40 (len - 1) /\ digits hex = Some (take (zlen hex) (halves id)).
Proof.
  intros H F L. destruct (get_string_ok id type mem out len H F L) as (hex & E & LH & D & _). exists hex. rewrite LH. split; [exact E|split; [reflexivity|exact D]].
Qed.
Print Assumptions C61_text_is_hex_of_the_id.

Theorem C61_no_id_no_text type mem out len : type <> 2 -> type <> 3 -> bi_get_string type mem out len = Some (false, out).
Proof. intros A B. unfold bi_get_string, bi_read. replace (type =? 3) with false by lia. now replace (type =? 2) with false by lia. Qed.
Print Assumptions C61_no_id_no_text.

(** Every history of calls: the first version that fits is made unique and is the answer for ever;
    the suffix is the beginning of the build id. *)
Theorem C61_version_is_made_once id type mem max l : the_id id type mem -> 0 < max < 4294967296 ->
  Forall (fun v => match v with Some v => Forall (fun c => c <> 0) v /\ zlen v < 4294967288 | None => True end) l ->
  exists suffix, bi_calls type mem max l (fill max 0) = Some (answers max suffix None l) /\
    forall v, zlen v + 8 <= max -> hex_of id (Z.min 6 (max - zlen v - 3)) (suffix v).
Proof. intros H1 H2 H3. exact (versions_ok id type mem max H1 H2 l H3). Qed.
Print Assumptions C61_version_is_made_once.

Definition ex_id : list Z := [0x1f; 0xa2; 0x0b; 4; 5; 6; 7; 8; 9; 10; 11; 12; 13; 14; 15; 16; 17; 18; 19; 255].
Definition ex_note : list Z := [4; 0; 0; 0; 20; 0; 0; 0; 3; 0; 0; 0; 71; 78; 85; 0] ++ ex_id.
Example C61_case :
  bi_get_string 2 ex_note (fill 9 7) 8 = Some (true, str "1fa20b0" ++ [0; 7]) /\
  bi_calls 2 ex_note 16 [None; Some (str "1.2.3-alpha"); Some (str "1.2.3"); Some (str "9"); None] (fill 16 0)
    = Some [None; None; Some (str "1.2.3+1fa20b"); Some (str "1.2.3+1fa20b"); Some (str "1.2.3+1fa20b")] /\
  bi_calls 1 [] 16 [Some (str "1.2.3")] (fill 16 0) = Some [Some (str "1.2.3+no-id")].
Proof. vm_compute. repeat split. Qed.

(** What is not true: six characters of the id are appended whenever the version is accepted.  For the
    longest version accepted there are five. *)
Theorem C61_six_characters_refuted : ~ (forall id type mem max v r, id_in_memory id type mem -> bytes id -> 0 < max ->
  Forall (fun c => c <> 0) v -> bi_calls type mem max [Some v] (fill max 0) = Some [Some r] ->
  exists suffix, r = v ++ [43] ++ suffix /\ zlen suffix = 6).
Proof.
  intros H. destruct (H ex_id 3 (ex_id ++ []) 16 (str "1.2.3-rc") (str "1.2.3-rc+1fa20")) as (x & E & L).
  - now apply plain_id.
  - unfold ex_id. repeat (apply Forall_cons; [unfold is_u8; lia|]). apply Forall_nil.
  - lia.
  - cbn. repeat (apply Forall_cons; [lia|]). apply Forall_nil.
  - vm_compute. reflexivity.
  - apply (f_equal zlen) in E. rewrite !zlen_app, L in E. vm_compute in E. discriminate E.
Qed.
Print Assumptions C61_six_characters_refuted.
