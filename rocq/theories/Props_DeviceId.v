(** Properties C106 and C107: the serial numbers the ports make from identifiers of the chip, asked for by
    one task and by several at once. *)
From Coq Require Import String.
From Verif Require Import Base Conc ConcSpec LockConc DeviceId DeviceIdSpec DeviceIdProofs.

(** Every call, the first and each later one, stays in the buffer and gives the identifier in hexadecimal. *)
Theorem C106_serial_of_the_chip p soc id ops : id_ok p id -> Forall (fun o => dc_isr o = false) ops ->
  exists s', asked (fun o => solo (p_serial p soc (Some id) o)) (d_boot p) ops (map (fun _ => serial_of p id) ops) s'.
Proof.
  exact (fun OK HO => match asked_all p soc id ops (d_boot p) OK (or_introl eq_refl) HO with
    | ex_intro _ rs (ex_intro _ s' HA) =>
        match asked_told p soc id ops (d_boot p) rs s' OK (or_introl eq_refl) HO HA with
        | conj E _ => ex_intro _ s' (eq_ind rs (fun rs => asked _ _ ops rs s') HA _ E)
        end
    end).
Qed.
Print Assumptions C106_serial_of_the_chip.
(** Serials are of the characters the cloud takes, and chips with other identifiers have other serials. *)
Theorem C106_serials_valid_and_distinct p id other : id_ok p id -> id_ok p other ->
  serial_valid (serial_of p id) /\ (serial_of p id = serial_of p other -> id = other).
Proof. exact (fun A B => conj (serials_valid p id A) (serials_differ p id other A B)). Qed.
Print Assumptions C106_serials_valid_and_distinct.
Example C106_case :
  id_ok DNrf5 [16; 50; 84; 118; 152; 186; 220; 254] /\
  serial_of DNrf5 [16; 50; 84; 118; 152; 186; 220; 254] = str "1032547698BADCFE" /\
  serial_of DDialog [1; 2; 3; 171; 5; 6] = str "0605AB030201" /\ serial_of DZephyr [171; 1] = str "ab01" /\
  flat_map nrf_bytes [1985229328; 4275878552] = [16; 50; 84; 118; 152; 186; 220; 254] /\
  option_map fst (solo (p_serial DNrf5 [] (Some [16; 50; 84; 118; 152; 186; 220; 254]) (mk_dcall false)) (d_boot DNrf5)) =
    Some (str "1032547698BADCFE").
Proof. repeat split; try (vm_compute; reflexivity). repeat constructor; cbn; lia. Qed.

(** Not when the chip does not tell: Dialog then has the empty serial, Zephyr the same one for every device. *)
Theorem C106_serial_without_identifier_refuted :
  (exists r s', solo (p_serial DDialog [] None (mk_dcall false)) (d_boot DDialog) = Some (r, s') /\ ~ serial_valid r) /\
  (forall soc o s, solo (p_serial DZephyr soc None o) s = Some ((soc ++ str "-testserial")%list, s)).
Proof.
  split; [|reflexivity]. exists [], (mk_did (fill 13 0) true). split; [reflexivity|]. intros (H & _). congruence.
Qed.
Print Assumptions C106_serial_without_identifier_refuted.
(** Nor, on ESP-IDF, in an interrupt before the first other call. *)
Theorem C106_serial_in_interrupt_refuted :
  forall id, solo (p_serial DEsp [] (Some id) (mk_dcall true)) (d_boot DEsp) = Some (str "unknown", d_boot DEsp).
Proof. reflexivity. Qed.
Print Assumptions C106_serial_in_interrupt_refuted.

(** Any number of tasks that ask, from the first call on, and every schedule: no access is out of bounds, and
    what a task reads of the buffer is a beginning of the serial. *)
Theorem C107_never_a_wrong_character p soc id s : id_ok p id -> s = d_boot p \/ s = told p id -> always_beginning p soc id s.
Proof. exact (beginnings p soc id s). Qed.
Print Assumptions C107_never_a_wrong_character.
(** The whole serial for Mbed and Dialog always; for ESP-IDF and nRF5 once one call has returned. *)
Theorem C107_whole_serial soc id s :
  (id_ok DMbed id -> s = d_boot DMbed \/ s = told DMbed id -> always_whole DMbed soc id s) /\
  (id_ok DDialog id -> s = d_boot DDialog \/ s = told DDialog id -> always_whole DDialog soc id s) /\
  (forall p o r, p = DEsp \/ p = DNrf5 -> id_ok p id -> dc_isr o = false ->
     solo (p_serial p soc (Some id) o) (d_boot p) = Some (r, s) -> always_whole p soc id s).
Proof.
  exact (conj (mbed_whole soc id s) (conj (dialog_whole soc id s)
    (fun p o r HP OK HO E => eq_ind (Some (serial_of p id, told p id))
       (fun x => match x with Some (_, s') => always_whole p soc id s' | None => True end) (calm p soc id OK HP) (Some (r, s))
       (eq_trans (eq_sym (serial_once p soc id (d_boot p) o OK (or_introl eq_refl) HO)) E)))).
Qed.
Print Assumptions C107_whole_serial.

(** Not for Zephyr and WICED, which write the buffer again at every call with a NUL after every two digits:
    another task reads the first byte alone, also long after boot. *)
Definition c107_z : list Z := [18; 52; 86; 120; 154; 188].
Definition steps (t k : nat) : list (item dcall) := repeat (Step t) k.
Theorem C107_whole_serial_zephyr_wiced_refuted :
  id_ok DZephyr c107_z /\ ~ always_whole DZephyr [] c107_z (told DZephyr c107_z) /\
  id_ok DWiced c107_z /\ ~ always_whole DWiced [] c107_z (told DWiced c107_z).
Proof.
  assert (B : bytes c107_z) by (repeat constructor; cbn; lia).
  split; [split; [exact B|unfold c107_z, zlen; cbn [length]; lia]|]. split.
  - apply (other_told_ok DZephyr [] c107_z _ ([Start 0 (mk_dcall false)] ++ steps 0 18 ++ [Start 1 (mk_dcall false)] ++ steps 1 3 ++ steps 0 4)%nat%list); vm_compute; reflexivity.
  - split; [split; [exact B|reflexivity]|].
    apply (other_told_ok DWiced [] c107_z _ ([Start 0 (mk_dcall false)] ++ steps 0 18 ++ [Start 1 (mk_dcall false)] ++ steps 1 3 ++ steps 0 4)%nat%list); vm_compute; reflexivity.
Qed.
Print Assumptions C107_whole_serial_zephyr_wiced_refuted.
(** Nor for ESP-IDF and nRF5 during the first call. *)
Definition c107_n : list Z := [18; 52; 86; 120; 154; 188; 222; 240].
Theorem C107_whole_serial_at_first_refuted :
  id_ok DEsp c107_z /\ ~ always_whole DEsp [] c107_z (d_boot DEsp) /\
  id_ok DNrf5 c107_n /\ ~ always_whole DNrf5 [] c107_n (d_boot DNrf5).
Proof.
  assert (B : bytes c107_z) by (repeat constructor; cbn; lia). assert (N : bytes c107_n) by (repeat constructor; cbn; lia).
  split; [split; [exact B|reflexivity]|]. split.
  - apply (other_told_ok DEsp [] c107_z _ ([Start 1 (mk_dcall false)] ++ steps 1 4 ++ [Start 0 (mk_dcall false)] ++ steps 0 5)%nat%list); vm_compute; reflexivity.
  - split; [split; [exact N|reflexivity]|].
    apply (other_told_ok DNrf5 [] c107_n _ ([Start 0 (mk_dcall false); Start 1 (mk_dcall false)] ++ steps 1 1 ++ steps 0 26 ++ steps 1 3 ++ steps 0 4)%nat%list); vm_compute; reflexivity.
Qed.
Print Assumptions C107_whole_serial_at_first_refuted.
Example C107_case :
  option_map (fun m => results (m_hist m)) (mach_run (p_serial DEsp [] (Some c107_z)) (start_mach (d_boot DEsp))
    ([Start 1 (mk_dcall false)] ++ steps 1 4 ++ [Start 0 (mk_dcall false)] ++ steps 0 5 ++ steps 1 40)%nat%list) =
  Some [str "12"; str "123456789ABC"].
Proof. vm_compute. reflexivity. Qed.

(** A word of the identifier is shown by its four bytes. *)
Theorem C106_words w : is_u32 w -> exists a b c d, nrf_bytes w = [a; b; c; d] /\ bytes [a; b; c; d] /\
  w = a + 256 * b + 65536 * c + 16777216 * d.
Proof.
  intros H. unfold is_u32 in H. exists (w mod 256), (w / 256 mod 256), (w / 65536 mod 256), (w / 16777216 mod 256).
  assert (L : forall x, Z.land x 255 = x mod 256) by (intros x; change 255 with (Z.ones 8); now rewrite Z.land_ones by lia).
  assert (R : forall k, 0 <= k -> Z.shiftr w k = w / 2 ^ k) by (intros k K; now apply Z.shiftr_div_pow2).
  split; [|split].
  - unfold nrf_bytes. cbn [map]. rewrite !L, !R by lia. now rewrite Z.div_1_r.
  - unfold bytes, is_u8. repeat (apply Forall_cons; [apply Z.mod_pos_bound; lia|]). apply Forall_nil.
  - Z.to_euclidean_division_equations; lia.
Qed.
Print Assumptions C106_words.
