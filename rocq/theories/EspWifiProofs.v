(** The Wi-Fi and chip metrics of the ESP-IDF port. *)
From Coq Require Import String.
From Verif Require Import Base Metrics HttpUtilsSpec HttpRequest HttpRequestSpec HttpRequestProofs DeviceId DeviceIdSpec DeviceIdProofs EspWifi EspWifiSpec.
Local Open Scope list_scope.
Local Open Scope Z_scope.

(** ** The lowest signal strength *)
Lemma lowest_low l m : lowest l = Some m -> m < -10.
Proof.
  revert m. induction l as [|r t IH]; intros m H; cbn [lowest] in H; [discriminate|]. destruct (r <? -10) eqn:E; [|exact (IH _ H)].
  injection H as <-. destruct (lowest t) as [k|]; [specialize (IH k eq_refl)|]; lia.
Qed.
Lemma lowest_snoc l v : lowest (l ++ [v]) =
  if v <? -10 then Some (match lowest l with Some m => Z.min v m | None => v end) else lowest l.
Proof.
  induction l as [|r t IH]; [reflexivity|]. cbn [lowest app]. rewrite IH. destruct (r <? -10) eqn:E, (v <? -10) eqn:F; try reflexivity.
  f_equal. destruct (lowest t); lia.
Qed.
Definition rinv (past : list Z) (s : rst) : Prop :=
  r_queue s = [] /\ exists t, r_thr s = Some t /\
  match lowest past with None => r_min s = 0 /\ t = -10 | Some m => r_min s = m /\ (t = -10 \/ t = m) end.
Lemma rinv_beacon key past s v : rinv past s -> rinv (past ++ [v]) (fst (r_step key (fst (r_step key s (RBeacon v))) RHandle)).
Proof.
  intros (Q & t & T & M). cbn [r_step]. rewrite T. unfold rinv. rewrite lowest_snoc. destruct (lowest past) as [m|] eqn:LP.
  - pose proof (lowest_low _ _ LP). destruct M as [M1 M2]. destruct (v <? t) eqn:V; cbn [fst r_queue r_step r_min r_thr]; rewrite Q; cbn [app fst r_queue r_min r_thr].
    + split; [reflexivity|]. eexists. split; [reflexivity|]. rewrite M1. replace (v <? -10) with true by lia. split; [reflexivity|]. right. reflexivity.
    + split; [exact Q|]. exists t. split; [exact T|]. rewrite M1. destruct (v <? -10) eqn:W; split; try lia.
  - destruct M as [M1 ->]. destruct (v <? -10) eqn:V; cbn [fst r_queue r_step r_min r_thr]; rewrite Q; cbn [app fst r_queue r_min r_thr].
    + split; [reflexivity|]. eexists. split; [reflexivity|]. rewrite M1. split; [lia|]. right. lia.
    + split; [exact Q|]. exists (-10). auto.
Qed.
Lemma low_run key l : forall past s, rinv past s -> r_run key s (flat_map promptly l) = low_spec key past l.
Proof.
  induction l as [|e l IH]; intros past s I; [reflexivity|]. destruct e as [|v|]; cbn [flat_map promptly app low_spec].
  - cbn [r_run r_step fst]. apply IH. destruct I as (Q & t & T & M). split; [exact Q|]. exists (-10). split; [reflexivity|].
    cbn [r_min]. destruct (lowest past); [|tauto]. destruct M. auto.
  - cbn [r_run]. apply IH. exact (rinv_beacon key past s v I).
  - cbn [r_run r_step]. destruct I as (Q & t & T & M). destruct (lowest past) as [m|] eqn:LP.
    + pose proof (lowest_low _ _ LP). destruct M as [-> _]. replace (m <=? -10) with true by lia. cbn [says]. f_equal. apply IH.
      split; [exact Q|]. exists (-10). cbn. auto.
    + destruct M as [M1 ->]. rewrite M1. change (0 <=? -10) with false. cbn [says]. f_equal. apply IH.
      split; [exact Q|]. exists (-10). cbn. auto.
Qed.
Lemma low_all key l : r_run key r_boot (flat_map promptly (Up :: l)) = low_spec key [] (Up :: l).
Proof. cbn [flat_map promptly app r_run r_step fst low_spec]. apply low_run. split; [reflexivity|]. exists (-10). cbn. auto. Qed.
Lemma sig_promptly l : sig_of (flat_map promptly l) = l.
Proof. induction l as [|[]]; cbn; congruence. Qed.

(** ** The access point *)
Lemma standard_ok v51 v53 p : (exists s, has v51 v53 p s = true /\ standard_text v51 v53 p = std_name s) \/
  ((forall s, has v51 v53 p s = false) /\ standard_text v51 v53 p = str "unknown").
Proof.
  unfold standard_text. destruct (ap_n p) eqn:N1; [left; exists N; auto|]. destruct (v53 && ap_ac p) eqn:N2; [left; exists AC; auto|].
  destruct (v53 && ap_a p) eqn:N3; [left; exists A; auto|]. destruct (v51 && ap_ax p) eqn:N4; [left; exists AX; auto|].
  destruct (ap_g p) eqn:N5; [left; exists G; auto|]. destruct (ap_b p) eqn:N6; [left; exists B; auto|].
  right. split; [|reflexivity]. intros []; assumption.
Qed.
Lemma u32_cases mode : 0 <= u32 mode < 4294967296.
Proof. unfold u32. apply Z.mod_pos_bound. lia. Qed.
Lemma auth_ok mode : is_u32 mode -> auth_text mode = Some (mode_name mode) /\ fits 23 (mode_name mode).
Proof.
  unfold is_u32. intros R. split.
  - unfold auth_text. rewrite u32_id by exact R. change (zlen auth_table) with 11. destruct (11 <=? mode) eqn:B.
    + unfold mode_name. repeat match goal with |- context [mode =? ?n] => replace (mode =? n) with false by lia end. reflexivity.
    + assert (In mode [0; 1; 2; 3; 4; 5; 6; 7; 8; 9; 10]) as I by (cbn; lia). cbn in I. intuition subst; reflexivity.
  - unfold mode_name. repeat match goal with |- context [mode =? ?n] => destruct (mode =? n) end; (split; [vm_compute; split; [reflexivity|discriminate]|]);
    intros I; vm_compute in I; intuition discriminate.
Qed.
Lemma standard_fits v51 v53 p : fits 8 (standard_text v51 v53 p).
Proof.
  unfold standard_text. repeat match goal with |- context [if ?c then _ else _] => destruct c end; (split; [vm_compute; split; [reflexivity|discriminate]|]);
  intros I; vm_compute in I; intuition discriminate.
Qed.
Lemma oui_ok b : zlen b = 6 -> bytes b -> oui_text b = Some (maker b) /\ zlen (maker b) = 8.
Proof.
  intros L F. destruct b as [|x [|y [|z [|u [|v [|w [|q r]]]]]]]; try (unfold zlen in L; cbn [List.length] in L; lia).
  assert (X : is_u8 x /\ is_u8 y /\ is_u8 z) by (inv F; inv H2; inv H4; auto). destruct X as (X & Y & W).
  unfold oui_text. change (get _ 0) with (Some x). change (get _ 1) with (Some y). change (get _ 2) with (Some z). cbn [bind].
  rewrite !hex2_ok by assumption. split; [|reflexivity]. reflexivity.
Qed.
Section Ap.
Variables (v51 v53 : bool) (k : akeys).
Hypothesis K1 : ak_auth k <> ak_standard k.
Hypothesis K2 : ak_auth k <> ak_oui k.
Hypothesis K3 : ak_standard k <> ak_oui k.
Definition ap_fine (p : option ap) : Prop := match p with Some p => bssid_ok p /\ is_u32 (ap_auth p) | None => True end.
Definition ap_says (seen : list Z) (p : ap) (ops : list mop) : Prop :=
  set_number (ak_channel k) ops = Some (ap_channel p) /\ set_text (ak_auth k) ops = Some (mode_name (ap_auth p)) /\
  set_text (ak_standard k) ops = Some (standard_text v51 v53 p) /\
  set_text (ak_oui k) ops = if list_eq_dec Z.eq_dec seen (ap_bssid p) then None else Some (maker (ap_bssid p)).
Lemma collect_ok seen p : ap_fine (Some p) -> exists ops, ap_collect v51 v53 k seen (Some p) = Some (ops, ap_bssid p) /\ ap_says seen p ops.
Proof.
  intros [[L F] A]. unfold ap_collect. destruct (auth_ok _ A) as [-> _]. cbn [bind]. unfold ap_says.
  destruct (list_eq_dec Z.eq_dec seen (ap_bssid p)) as [->|NE].
  - eexists. split; [reflexivity|]. cbn [set_number set_text]. rewrite !Z.eqb_refl, (proj2 (Z.eqb_neq _ _) K1), (proj2 (Z.eqb_neq _ _) K2), (proj2 (Z.eqb_neq _ _) K3). auto.
  - destruct (oui_ok _ L F) as [-> _]. cbn [bind]. eexists. split; [reflexivity|]. cbn [set_number set_text app].
    rewrite !Z.eqb_refl, (proj2 (Z.eqb_neq _ _) K1), (proj2 (Z.eqb_neq _ _) K2), (proj2 (Z.eqb_neq _ _) K3). auto.
Qed.
Definition step_seen (b : list Z) (p : option ap) : list Z := match p with Some p => ap_bssid p | None => b end.
Lemma ap_all l : forall seen, Forall ap_fine l -> exists os, ap_run v51 v53 k seen l = Some os /\
  forall pre p post, l = pre ++ p :: post -> exists ops, nth_error os (List.length pre) = Some ops /\
    match p with None => ops = [] | Some p => ap_says (fold_left step_seen pre seen) p ops end.
Proof.
  induction l as [|x l IH]; intros seen F.
  { exists []. split; [reflexivity|]. intros [|? ?] ? ?; discriminate. }
  inv F. cbn [ap_run]. assert (C : exists ops, ap_collect v51 v53 k seen x = Some (ops, step_seen seen x) /\ match x with None => ops = [] | Some p => ap_says seen p ops end).
  { destruct x as [p|]; [exact (collect_ok seen p H1)|]. exists []. auto. }
  destruct C as (ops & -> & S). cbn [bind]. destruct (IH (step_seen seen x) H2) as (os & -> & R). cbn [bind]. exists (ops :: os). split; [reflexivity|].
  intros [|y pre] p post E.
  - injection E as <- _. exists ops. split; [reflexivity|exact S].
  - injection E as <- E. exact (R pre p post E).
Qed.
End Ap.

(** ** The chip *)
Lemma nib_digit v : 0 <= v < 16 -> nib false v = digit (table false) v.
Proof. intros H. assert (In v [0;1;2;3;4;5;6;7;8;9;10;11;12;13;14;15]) as I by (cbn; lia). cbn in I. intuition subst; reflexivity. Qed.
Lemma hex6_ok v : 0 <= v < 16777216 -> hex6 v = in_hex (table false) [v / 65536; v / 256 mod 256; v mod 256].
Proof.
  intros H. unfold hex6. replace (268435456 <=? v) with false by lia. replace (16777216 <=? v) with false by lia. cbn [app].
  change 15 with (Z.ones 4). rewrite !Z.land_ones by lia. rewrite !Z.shiftr_div_pow2 by lia. change (2 ^ 4) with 16.
  rewrite !nib_digit by (apply Z.mod_pos_bound; lia). unfold in_hex. cbn [flat_map app].
  change (2 ^ (4 * 5)) with 1048576. change (2 ^ (4 * 4)) with 65536. change (2 ^ (4 * 3)) with 4096. change (2 ^ (4 * 2)) with 256.
  change (2 ^ (4 * 1)) with 16. change (2 ^ (4 * 0)) with 1. rewrite Z.div_1_r.
  replace (v / 1048576 mod 16) with (v / 65536 / 16) by (Z.to_euclidean_division_equations; lia).
  replace (v / 4096 mod 16) with (v / 256 mod 256 / 16) by (Z.to_euclidean_division_equations; lia).
  replace (v / 256 mod 16) with ((v / 256 mod 256) mod 16) by (Z.to_euclidean_division_equations; lia).
  replace (v / 16 mod 16) with (v mod 256 / 16) by (Z.to_euclidean_division_equations; lia).
  replace (v mod 16) with ((v mod 256) mod 16) by (Z.to_euclidean_division_equations; lia). reflexivity.
Qed.
Lemma print_small v : 0 <= v < 256 -> decimal_text v (print_int v) /\ zlen (print_int v) <= 3 /\ (v < 100 -> zlen (print_int v) <= 2).
Proof.
  intros H. unfold print_int. replace (v <? 0) with false by lia.
  assert (E : print_dec 10 v = print_dec 3 v).
  { cbn [print_dec]. destruct (v <? 10) eqn:A; [reflexivity|]. destruct (v / 10 <? 10) eqn:B; [reflexivity|].
    replace (v / 10 / 10 <? 10) with true; [reflexivity|]. symmetry. apply Z.ltb_lt. Z.to_euclidean_division_equations; lia. }
  rewrite E. destruct (print_dec_ok 3 v ltac:(change (10 ^ Z.of_nat 3) with 1000; lia) ltac:(lia)) as [D L]. split; [exact D|]. split; [lia|].
  intros C. assert (E2 : print_dec 3 v = print_dec 2 v).
  { cbn [print_dec]. destruct (v <? 10) eqn:A; [reflexivity|]. replace (v / 10 <? 10) with true; [reflexivity|]. symmetry. apply Z.ltb_lt. Z.to_euclidean_division_equations; lia. }
  rewrite E2. destruct (print_dec_ok 2 v ltac:(change (10 ^ Z.of_nat 2) with 100; lia) ltac:(lia)) as [_ L2]. lia.
Qed.
Lemma revision_ok target rev : 0 <= rev < 25600 ->
  revision target rev (take (zlen target + 1 + 7 - 1) (target ++ [45] ++ print_int (u8 (rev / 100)) ++ [46] ++ print_int (u8 (rev mod 100)))).
Proof.
  intros R. assert (A : 0 <= rev / 100 < 256) by (Z.to_euclidean_division_equations; lia). assert (B : 0 <= rev mod 100 < 100) by (apply Z.mod_pos_bound; lia).
  unfold u8. rewrite (Z.mod_small (rev / 100)) by lia. rewrite (Z.mod_small (rev mod 100)) by lia.
  destruct (print_small _ A) as (D1 & L1 & _). destruct (print_small (rev mod 100) ltac:(lia)) as (D2 & _ & L2). specialize (L2 ltac:(lia)).
  rewrite take_all; [|rewrite !zlen_app; change (zlen [45]) with 1; change (zlen [46]) with 1; lia].
  exists (print_int (rev / 100)), (print_int (rev mod 100)). auto.
Qed.
Lemma chip_first k target f rev l : 0 <= rev < 25600 -> ck_flash k <> ck_chip k -> match f with Some v => 0 <= v < 16777216 | None => True end ->
  exists ops, chip_run k target false ((f, rev) :: l) = ops :: map (fun _ => []) l /\
    (exists t, set_text (ck_chip k) ops = Some t /\ revision target rev t) /\
    set_text (ck_flash k) ops = match f with Some v => Some (in_hex (table false) [v / 65536; v / 256 mod 256; v mod 256]) | None => None end.
Proof.
  intros R K F. cbn [chip_run]. eexists. unfold chip_collect at 1. split; [f_equal|].
  - clear. induction l as [|[f v] l IH]; [reflexivity|]. cbn [chip_run chip_collect map]. now rewrite IH.
  - pose proof (revision_ok target rev R) as RV. set (t := take _ _) in *. destruct f as [v|]; cbn [app set_text].
    + rewrite !Z.eqb_refl, (proj2 (Z.eqb_neq _ _) K). split; [exists t; auto|]. rewrite hex6_ok by exact F. f_equal.
    + rewrite !Z.eqb_refl, (proj2 (Z.eqb_neq (ck_chip k) (ck_flash k)) (not_eq_sym K)). split; [exists t; auto|reflexivity].
Qed.
