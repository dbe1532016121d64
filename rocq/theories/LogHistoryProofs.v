From Coq Require Import Sorted.
From Verif Require Import Base CircularBuffer CircularBufferProofs Log LogSpec LogLists LogProofs.

(** ** The kept list and the indices *)
Definition sl (next sent i : Z) (e : hlog) : slog := mk_slog (l_level e) (l_type e) (l_ts e) (l_text e) (i <? next) (i <? sent).
Fixpoint flag (next sent i : Z) (l : list hlog) : list slog :=
  match l with [] => [] | e :: r => sl next sent i e :: flag next sent (i + 1) r end.
Lemma flag_app next sent l r : forall i, flag next sent i (l ++ r) = flag next sent i l ++ flag next sent (i + zlen l) r.
Proof.
  induction l as [|e l IH]; intros i; cbn [flag app]; [change (zlen (@nil hlog)) with 0; now rewrite Z.add_0_r|].
  rewrite IH, zlen_cons. do 3 f_equal. lia.
Qed.
Lemma flag_len next sent l : forall i, zlen (flag next sent i l) = zlen l.
Proof. induction l; intros i; cbn [flag]; [reflexivity|]. rewrite !zlen_cons, IHl. reflexivity. Qed.
Lemma flag_rooms next sent l : forall i, rooms (flag next sent i l) = hrooms l.
Proof. induction l; intros i; cbn [flag rooms hrooms fold_right]; [reflexivity|]. rewrite IHl. reflexivity. Qed.
Lemma hroom_pos e : 2 <= hroom e.
Proof. unfold hroom, ts_room. pose proof (zlen_nonneg (l_text e)). destruct (l_ts e); lia. Qed.
Lemma hrooms_app a b : hrooms (a ++ b) = hrooms a + hrooms b.
Proof. unfold hrooms. induction a; cbn [fold_right app]; lia. Qed.
Lemma hrooms_nonneg l : 0 <= hrooms l.
Proof. unfold hrooms. induction l; cbn [fold_right]; [lia|]. pose proof (hroom_pos a). lia. Qed.

Fixpoint hevict (cap need : Z) (l : list hlog) : list hlog * list hlog :=
  match l with
  | [] => ([], [])
  | e :: r => if hrooms l + need <=? cap then ([], l) else let (gone, kept) := hevict cap need r in (e :: gone, kept)
  end.
Lemma hevict_app cap need l : fst (hevict cap need l) ++ snd (hevict cap need l) = l.
Proof. induction l as [|e l IH]; cbn [hevict]; [reflexivity|]. destruct (_ <=? _); [reflexivity|]. destruct (hevict cap need l); cbn [fst snd app] in *. now rewrite IH. Qed.
Lemma evict_flag cap need next sent l : forall i, evict cap need (flag next sent i l) =
  (flag next sent i (fst (hevict cap need l)), flag next sent (i + zlen (fst (hevict cap need l))) (snd (hevict cap need l))).
Proof.
  induction l as [|e l IH]; intros i; cbn [flag evict hevict]; [reflexivity|].
  change (sl next sent i e :: flag next sent (i + 1) l) with (flag next sent i (e :: l)). rewrite flag_rooms.
  destruct (_ <=? _); cbn [fst snd].
  - cbn [flag]. change (zlen (@nil hlog)) with 0. rewrite Z.add_0_r. reflexivity.
  - rewrite IH. destruct (hevict cap need l) as [g k]; cbn [fst snd flag]. rewrite zlen_cons. do 2 f_equal. lia.
Qed.
Lemma fit_snoc cap e l : hroom e <= cap -> fit cap (l ++ [e]) = snd (hevict cap (hroom e) (fit cap l)) ++ [e].
Proof.
  intros He.
  assert (G : forall m, fit cap (m ++ [e]) = snd (hevict cap (hroom e) m) ++ [e]).
  { induction m as [|x m IH]; cbn [app fit hevict].
    - replace (hrooms [e] <=? cap) with true by (unfold hrooms; cbn [fold_right]; lia). reflexivity.
    - replace (hrooms (x :: m ++ [e])) with (hrooms (x :: m) + hroom e) by (change (x :: m ++ [e]) with ((x :: m) ++ [e]); rewrite hrooms_app; unfold hrooms at 3; cbn [fold_right]; lia).
      destruct (_ <=? _); [reflexivity|]. rewrite IH. destruct (hevict cap (hroom e) m); reflexivity. }
  induction l as [|x l IH]; [apply (G [])|]. cbn [fit]. destruct (hrooms (x :: l) <=? cap) eqn:E; [apply (G (x :: l))|].
  cbn [app fit]. replace (hrooms (x :: l ++ [e])) with (hrooms (x :: l) + hroom e) by (change (x :: l ++ [e]) with ((x :: l) ++ [e]); rewrite hrooms_app; unfold hrooms at 3; cbn [fold_right]; lia).
  pose proof (hroom_pos e). replace (_ <=? cap) with false by lia. exact IH.
Qed.
Lemma fit_suffix cap l : exists a, l = a ++ fit cap l /\ zlen a = first cap l.
Proof.
  induction l as [|e l IH]; unfold first; cbn [fit]; [now exists []|]. destruct (_ <=? _).
  - exists []. split; [reflexivity|]. change (zlen (@nil hlog)) with 0. lia.
  - destruct IH as (a & E & L). exists (e :: a). cbn [app]. split; [now rewrite <- E|]. unfold first in L. rewrite !zlen_cons. lia.
Qed.
Lemma fit_fits cap l : 0 <= cap -> hrooms (fit cap l) <= cap.
Proof. intros H. induction l as [|e l IH]; cbn [fit]; [exact H|]. destruct (_ <=? _) eqn:E; [lia|exact IH]. Qed.
(** Nothing longer fits. *)
Lemma fit_longest cap l b e a : l = a ++ e :: b -> fit cap l = b -> cap < hrooms (e :: b).
Proof.
  revert a. induction l as [|x l IH]; intros a E F; [destruct a; discriminate|]. cbn [fit] in F.
  destruct (hrooms (x :: l) <=? cap) eqn:EX.
  - subst b. apply (f_equal (@length hlog)) in E. rewrite app_length in E. cbn [length] in E. lia.
  - destruct a as [|y a]; cbn [app] in E; injection E as <- E.
    + rewrite <- E in *. lia.
    + exact (IH a E F).
Qed.

Lemma lost_flag next sent l : forall i, lost (flag next sent i l) = Z.max 0 (i + zlen l - Z.max i (Z.max next sent)).
Proof.
  induction l as [|e l IH]; intros i; cbn [flag].
  - rewrite lost_nil. change (zlen (@nil hlog)) with 0. lia.
  - rewrite lost_cons, IH, zlen_cons. cbn [sl g_read g_sent]. pose proof (zlen_nonneg l).
    destruct (i <? next) eqn:E1, (i <? sent) eqn:E2; cbn [negb andb]; lia.
Qed.
Lemma sane_flag next sent l : forall i, forallb (fun e => implb (g_sent e) (g_read e)) (flag next sent i l) =
  (Z.min (i + zlen l) sent <=? Z.max i next).
Proof.
  induction l as [|e l IH]; intros i; cbn [flag forallb].
  - change (zlen (@nil hlog)) with 0. lia.
  - rewrite IH, zlen_cons. cbn [sl g_read g_sent]. pose proof (zlen_nonneg l).
    destruct (i <? next) eqn:E1, (i <? sent) eqn:E2; cbn [implb andb]; lia.
Qed.
Lemma unread_flag next sent l : forall i, next <= i + zlen l ->
  first_unread (flag next sent i l) =
  match nth_error l (Z.to_nat (Z.max i next - i)) with
  | Some e => Some (sl next sent (Z.max i next) e, flag (Z.max i next + 1) sent i l)
  | None => None
  end.
Proof.
  induction l as [|e l IH]; intros i Hn; cbn [flag first_unread].
  - now destruct (Z.to_nat _).
  - rewrite zlen_cons in Hn. cbn [sl g_read]. destruct (i <? next) eqn:E.
    + rewrite IH by lia. replace (Z.to_nat (Z.max i next - i)) with (S (Z.to_nat (Z.max (i + 1) next - (i + 1)))) by lia. cbn [nth_error].
      destruct (nth_error l _); [|reflexivity]. replace (Z.max (i + 1) next) with (Z.max i next) by lia. cbn [flag]. do 3 f_equal. unfold sl. f_equal. lia.
    + replace (Z.max i next) with i by lia. rewrite Z.sub_diag. change (Z.to_nat 0) with 0%nat. cbn [nth_error]. f_equal. f_equal.
      assert (X : forall m j, next <= j -> i + 1 <= j -> flag next sent j m = flag (i + 1) sent j m).
      { induction m as [|y m IHm]; intros j H1 H2; cbn [flag]; [reflexivity|]. rewrite IHm by lia. unfold sl. f_equal. f_equal. lia. }
      cbn [flag]. rewrite <- X by lia. f_equal. unfold set_read, sl. cbn [g_level g_type g_ts g_text g_sent]. f_equal. lia.
Qed.
Lemma unsent_flag next sent l : forall i, unsent (flag next sent i l) = Z.max 0 (i + zlen l - Z.max i sent).
Proof.
  unfold unsent. induction l as [|e l IH]; intros i; cbn [flag filter].
  - change (zlen (@nil hlog)) with 0. change (zlen (@nil slog)) with 0. lia.
  - cbn [sl g_sent]. rewrite zlen_cons. pose proof (zlen_nonneg l). destruct (i <? sent) eqn:E; cbn [negb]; rewrite ?zlen_cons, IH; lia.
Qed.
Lemma mark_flag next l : forall sent i n, 0 <= n -> sent <= i + zlen l -> Z.max i sent + n <= i + zlen l ->
  mark_sent n (flag next sent i l) = flag next (Z.max i sent + n) i l.
Proof.
  induction l as [|e l IH]; intros sent i n Hn Hs Hl; cbn [flag mark_sent]; [reflexivity|]. rewrite zlen_cons in *. cbn [sl g_sent].
  destruct (i <? sent) eqn:E.
  - rewrite IH by lia. replace (Z.max (i + 1) sent) with (Z.max i sent) by lia. f_equal. unfold sl. f_equal. lia.
  - destruct (n <=? 0) eqn:EN.
    + replace (Z.max i sent + n) with i by lia. f_equal; [unfold sl; f_equal; lia|].
      assert (X : forall m j, sent <= j -> i <= j -> flag next sent j m = flag next i j m).
      { induction m as [|y m IHm]; intros j H1 H2; cbn [flag]; [reflexivity|]. rewrite IHm by lia. unfold sl. f_equal. f_equal. lia. }
      apply X; lia.
    + assert (X : forall m j, sent <= j -> i + 1 <= j -> flag next sent j m = flag next (i + 1) j m).
      { induction m as [|y m IHm]; intros j H1 H2; cbn [flag]; [reflexivity|]. rewrite IHm by lia. unfold sl. f_equal. f_equal. lia. }
      rewrite X by lia. rewrite IH by lia. replace (Z.max (i + 1) (i + 1) + (n - 1)) with (Z.max i sent + n) by lia. f_equal.
      unfold set_sent, sl. cbn [g_level g_type g_ts g_text g_read]. f_equal. lia.
Qed.

(** ** The histories and the lists *)
Record hsim (cap : Z) (h : hist) (v : slg) : Prop := {
  q_logs : v_logs v = flag (h_next h) (h_sent h) (first cap (h_saved h)) (fit cap (h_saved h));
  q_min : v_min v = h_min h;
  q_drop : v_dropped v = wrap32 (h_lost h);
  q_rec : v_recorded v = wrap32 (zlen (h_saved h));
  q_last : v_last v = h_seen h;
  q_trig : v_trig v = match h_up h with Some _ => true | None => false end;
  q_num : match h_up h with
          | Some n => 0 <= v_num v /\ n = Z.max (first cap (h_saved h)) (h_sent h) + v_num v /\ n <= zlen (h_saved h)
          | None => True end;
  q_sane : v_sane v = h_sane h;
  q_le : h_next h <= zlen (h_saved h) /\ h_sent h <= zlen (h_saved h) /\ 0 <= h_next h }.

Lemma wrap_succ x : wrap32 (wrap32 x + 1) = wrap32 (x + 1).
Proof. unfold wrap32. now rewrite Zplus_mod_idemp_l. Qed.
Lemma wrap_plus x y : wrap32 (wrap32 x + y) = wrap32 (x + y).
Proof. unfold wrap32. now rewrite Zplus_mod_idemp_l. Qed.
Lemma first_range cap l : 0 <= first cap l <= zlen l /\ zlen (fit cap l) = zlen l - first cap l.
Proof. destruct (fit_suffix cap l) as (a & E & L). pose proof (zlen_nonneg a). pose proof (zlen_nonneg (fit cap l)). unfold first in *. lia. Qed.
Lemma nth_fit cap l k : first cap l <= k -> nth_error (fit cap l) (Z.to_nat (k - first cap l)) = nth_error l (Z.to_nat k).
Proof.
  intros Hk. destruct (fit_suffix cap l) as (a & E & L). rewrite E at 3. rewrite nth_error_app2 by (unfold zlen in L; lia).
  f_equal. unfold zlen in L. lia.
Qed.

Ltac hs := constructor; cbn [h_saved h_min h_next h_sent h_up h_lost h_seen h_sane h_reads h_ups v_logs v_min v_dropped v_recorded v_last v_trig v_num v_time v_sane]; try assumption; try reflexivity.
Lemma hist_step_ok M cap h v o r h' : lcap cap -> hsim cap h v -> hist_step M cap h o = Some (r, h') ->
  exists v', slg_step M cap v o = Some (r, v') /\ hsim cap h' v'.
Proof.
  intros Hcap K HS. unfold lcap in Hcap. pose proof K as [Q1 Q2 Q3 Q4 Q5 Q6 Q7 Q8 (Q9 & Q10 & Q11)].
  destruct (first_range cap (h_saved h)) as (FR & FL). set (f := first cap (h_saved h)) in *.
  destruct o as [level type ts text| |time| | |l| |]; cbn [hist_step slg_step] in *; fold f in HS.
  - set (e := mk_hlog level type ts (take (M - ts_room ts) text)) in *. set (e' := mk_slog level type ts (take (M - ts_room ts) text) false false).
    assert (RE : room e' = hroom e) by reflexivity.
    unfold hist_save, slg_save in *. change (g_level e') with level. change (l_level e) with level in HS. rewrite Q2. rewrite RE.
    destruct (level <? h_min h); [injection HS as <- <-; eexists; split; [reflexivity|exact K]|].
    rewrite Q6, Q1, flag_rooms.
    replace ((cap <? hroom e) || (match h_up h with Some _ => true | None => false end && (cap <? hrooms (fit cap (h_saved h)) + hroom e)))
      with ((cap <? hroom e) || match h_up h with Some _ => cap <? hrooms (fit cap (h_saved h)) + hroom e | None => false end) by (destruct (h_up h); reflexivity).
    destruct ((cap <? hroom e) || match h_up h with Some _ => cap <? hrooms (fit cap (h_saved h)) + hroom e | None => false end) eqn:EB.
    + injection HS as <- <-. eexists. split; [reflexivity|]. hs.
      * now rewrite Q3, wrap_succ.
      * auto.
    + rewrite evict_flag. injection HS as <- <-.
      assert (HR : hroom e <= cap) by (clear -EB; lia).
      pose proof (fit_snoc cap e (h_saved h) HR) as FS. pose proof (hevict_app cap (hroom e) (fit cap (h_saved h))) as HA.
      destruct (hevict cap (hroom e) (fit cap (h_saved h))) as [gone kept] eqn:EV. cbn [fst snd] in *.
      assert (F' : first cap (h_saved h ++ [e]) = f + zlen gone).
      { unfold first. rewrite FS, !zlen_app. change (zlen [e]) with 1. rewrite <- HA, zlen_app in FL. lia. }
      assert (FL' : f + zlen gone + zlen kept = zlen (h_saved h)) by (rewrite <- HA, zlen_app in FL; lia).
      pose proof (zlen_nonneg gone). pose proof (zlen_nonneg kept).
      eexists. split; [reflexivity|]. hs.
      * rewrite FS, flag_app, F'. f_equal. cbn [flag]. f_equal. unfold e', sl. cbn [l_level l_type l_ts l_text e]. f_equal; lia.
      * rewrite lost_flag, F', Q3, wrap_plus. reflexivity.
      * rewrite Q4, wrap_plus, zlen_app. reflexivity.
      * rewrite F', zlen_app. change (zlen [e]) with 1. destruct (h_up h); [|exact I]. destruct Q7 as (Q7a & Q7b & Q7c).
        assert (GN : gone = []).
        { clear -EV EB. destruct (fit cap (h_saved h)); cbn [hevict] in EV; [now injection EV as <- <-|]. replace (_ <=? cap) with true in EV by lia. now injection EV as <- <-. }
        subst gone. change (zlen (@nil hlog)) with 0 in *. split; [exact Q7a|]. split; lia.
      * rewrite sane_flag, F', Q8. reflexivity.
      * rewrite zlen_app. change (zlen [e]) with 1. lia.
  - rewrite Q5, Q3. destruct (negb (h_seen h =? wrap32 (h_lost h)) && (0 <? wrap32 (h_lost h))).
    + injection HS as <- <-. eexists. split; [reflexivity|]. hs. auto.
    + rewrite Q8. destruct (h_sane h); [|discriminate]. fold f in HS.
      assert (U : first_unread (v_logs v) = match nth_error (h_saved h) (Z.to_nat (Z.max f (h_next h))) with
         | Some e => Some (sl (h_next h) (h_sent h) (Z.max f (h_next h)) e, flag (Z.max f (h_next h) + 1) (h_sent h) f (fit cap (h_saved h))) | None => None end).
      { rewrite Q1, unread_flag by lia. rewrite nth_fit by lia. reflexivity. }
      rewrite U. destruct (nth_error (h_saved h) (Z.to_nat (Z.max f (h_next h)))) as [e|] eqn:EN; injection HS as <- <-; (eexists; split; [reflexivity|]); hs.
      * assert (X : (Z.to_nat (Z.max f (h_next h)) < length (h_saved h))%nat) by (apply nth_error_Some; congruence). unfold zlen in *. lia.
      * auto.
  - rewrite Q6. injection HS as <- <-. destruct (h_up h) eqn:EU; cbn [orb]; [eexists; split; [reflexivity|exact K]|].
    rewrite Q1, unsent_flag, FL. replace (f + (zlen (h_saved h) - f)) with (zlen (h_saved h)) by lia.
    destruct (Z.max f (h_sent h) <? zlen (h_saved h)) eqn:EX.
    + replace (Z.max 0 (zlen (h_saved h) - Z.max f (h_sent h)) =? 0) with false by lia. eexists. split; [reflexivity|]. hs.
      * fold f. lia.
      * auto.
    + replace (Z.max 0 (zlen (h_saved h) - Z.max f (h_sent h)) =? 0) with true by lia. eexists. split; [reflexivity|exact K].
  - rewrite Q6. destruct (h_up h) as [n|] eqn:EU; [|discriminate]. injection HS as <- <-. eexists. split; [reflexivity|].
    destruct Q7 as (Q7a & Q7b & Q7c). hs.
    + rewrite Q1. fold f. rewrite mark_flag by lia. rewrite Q7b. reflexivity.
    + auto.
  - injection HS as <- <-. rewrite Q1, unsent_flag, FL. replace (f + (zlen (h_saved h) - f)) with (zlen (h_saved h)) by lia.
    exists v. split; [|exact K]. do 3 f_equal. lia.
  - injection HS as <- <-. eexists. split; [reflexivity|]. hs. auto.
  - injection HS as <- <-. rewrite Q3. eexists. split; [reflexivity|exact K].
  - injection HS as <- <-. rewrite Q4. eexists. split; [reflexivity|exact K].
Qed.
Lemma hist_run_ok M cap ops : lcap cap -> forall h v rs h', hsim cap h v -> hist_run M cap h ops = Some (rs, h') ->
  exists v', slg_run M cap v ops = Some (rs, v') /\ hsim cap h' v'.
Proof.
  intros Hcap. induction ops as [|o ops IH]; intros h v rs h' K H; cbn [hist_run slg_run] in *.
  - injection H as <- <-. eauto.
  - apply bind_inv in H. destruct H as ((r & h1) & E & H). apply bind_inv in H. destruct H as ((rs1 & h2) & E2 & H). injection H as <- <-.
    destruct (hist_step_ok _ _ _ _ _ _ _ Hcap K E) as (v1 & E1 & K1). rewrite E1. cbn [bind].
    destruct (IH _ _ _ _ K1 E2) as (v2 & E3 & K2). rewrite E3. cbn [bind]. eauto.
Qed.
Lemma hist_init_ok cap min : hsim cap (hist_init min) (slg_init min).
Proof. constructor; try reflexivity; try exact I. change (zlen (h_saved (hist_init min))) with 0. cbn [hist_init h_next h_sent]. lia. Qed.

(** ** The bytes of the buffer *)
Definition unflag (e : slog) : hlog * (bool * bool) := (mk_hlog (g_level e) (g_type e) (g_ts e) (g_text e), (g_read e, g_sent e)).
Definition bit_facts (level type : Z) (t s r : bool) : bool :=
  let h := hdr_byte level type t s r in
  (h mod 8 =? level) && (h / 8 mod 2 =? type) && Bool.eqb (bit h 4) t && Bool.eqb (bit h 6) s && Bool.eqb (bit h 7) r.
Lemma bit_facts_all : forallb (fun l => forallb (fun ty => forallb (fun t => forallb (fun s => forallb (bit_facts l ty t s)
   [true; false]) [true; false]) [true; false]) [0; 1]) [0; 1; 2; 3; 4; 5; 6; 7] = true.
Proof. vm_compute. reflexivity. Qed.
Lemma bit_facts_ok l ty t s r : 0 <= l < 8 -> 0 <= ty < 2 -> bit_facts l ty t s r = true.
Proof.
  intros Hl Ht. pose proof bit_facts_all as H.
  assert (In l [0; 1; 2; 3; 4; 5; 6; 7]) by (cbn; lia). assert (In ty [0; 1]) by (cbn; lia).
  rewrite forallb_forall in H. specialize (H _ H0). rewrite forallb_forall in H. specialize (H _ H1).
  rewrite forallb_forall in H. specialize (H _ (in_bools t)). rewrite forallb_forall in H. specialize (H _ (in_bools s)).
  rewrite forallb_forall in H. exact (H _ (in_bools r)).
Qed.
Lemma le_value_le32 t : is_u32 t -> le_value (le32 t) = t.
Proof.
  intros H. rewrite <- (le32_value t H) at 2. unfold le32, le_value. cbn [fold_right]. lia.
Qed.
Lemma parse_lenc M tse l : Forall (fine M tse) l -> forall fuel, (length l <= fuel)%nat -> parse_logs fuel (lenc l) = Some (map unflag l).
Proof.
  induction l as [|e l IH]; intros F fuel Hf.
  - destruct fuel; reflexivity.
  - destruct fuel as [|fuel]; [cbn in Hf; lia|]. cbn [length] in Hf. rewrite lenc_cons. unfold ebytes. cbn [app parse_logs map].
    pose proof (Forall_inv F) as Fe. pose proof Fe as (F1 & F2 & F3 & F4 & F5 & F6).
    pose proof (bit_facts_ok (g_level e) (g_type e) (has_ts e) (g_sent e) (g_read e) F1 F2) as B. unfold bit_facts in B. cbn zeta in B.
    fold (hdr_e e) in B. repeat (apply andb_prop in B; let X := fresh "B" in destruct B as [B X]).
    apply eqb_prop in B0, B1, B2. apply Z.eqb_eq in B, B3. rewrite B, B0, B1, B2, B3.
    rewrite zlen_app. pose proof (zlen_nonneg (lenc l)). replace (zlen (payload e) <=? _) with true by lia.
    rewrite drop_app_exact, take_app_exact by reflexivity. rewrite IH by (try exact (Forall_inv_tail F); lia). unfold unflag at 2.
    unfold has_ts, payload. destruct (g_ts e) as [t|].
    + rewrite zlen_app. change (zlen (le32 t)) with 4. pose proof (zlen_nonneg (g_text e)). replace (4 <=? 4 + zlen (g_text e)) with true by lia.
      cbn [andb bind]. rewrite take_app_exact, drop_app_exact by reflexivity. rewrite le_value_le32 by apply F6. reflexivity.
    + reflexivity.
Qed.
Lemma unflag_flag next sent l : forall i, map unflag (flag next sent i l) = flagged next sent i l.
Proof. induction l as [|e l IH]; intros i; cbn [flag map flagged]; [reflexivity|]. rewrite IH. destruct e; reflexivity. Qed.

(** ** From boot *)
Lemma log_history M tse storage min ops rs h : lcap (zlen storage) -> 4 <= M <= 255 -> Forall (log_op_ok tse) ops ->
  hist_run M (zlen storage) (hist_init min) ops = Some (rs, h) ->
  exists s s', log_boot storage (zlen storage) min = Some (Some s) /\ log_run M tse s ops = Some (rs, s') /\
    parse_logs (Z.to_nat (zlen storage)) (content (lg_cb s')) =
      Some (flagged (h_next h) (h_sent h) (first (zlen storage) (h_saved h)) (fit (zlen storage) (h_saved h))).
Proof.
  intros Hc HM HO H. destruct (log_boot_ok M tse storage min Hc) as (s & EB & K).
  destruct (hist_run_ok M _ ops Hc _ _ _ _ (hist_init_ok _ min) H) as (v & EV & KV).
  destruct (log_run_ok M tse _ ops Hc HM _ _ _ _ K HO EV) as (s' & ER & KS).
  exists s, s'. split; [exact EB|]. split; [exact ER|].
  pose proof (k_cb _ _ _ _ _ KS) as CB. destruct (cb_is_sz _ _ _ CB) as (_ & _ & RR). destruct CB as (_ & _ & C). rewrite C.
  rewrite (parse_lenc M tse) by (try apply KS; pose proof (rooms_zlen (v_logs v)); unfold zlen in *; lia).
  rewrite (q_logs _ _ _ KV), unflag_flag. reflexivity.
Qed.

(** ** What the history says *)
Definition mem (i : Z) (l : list Z) : bool := existsb (Z.eqb i) l.
Lemma mem_In i l : mem i l = true <-> In i l.
Proof. unfold mem. rewrite existsb_exists. split; [intros (x & H & E); apply Z.eqb_eq in E; now subst|intros H; exists i; split; [exact H|lia]]. Qed.
Lemma mem_app i a b : mem i (a ++ b) = mem i a || mem i b.
Proof. unfold mem. apply existsb_app. Qed.
Lemma In_zrange a b i : In i (zrange a b) <-> a <= i < b.
Proof.
  unfold zrange. rewrite in_map_iff. split.
  - intros (k & E & H). apply in_seq in H. lia.
  - intros H. exists (Z.to_nat (i - a)). split; [lia|]. apply in_seq. lia.
Qed.

Lemma zrange_nil a b : b <= a -> zrange a b = [].
Proof. intros H. unfold zrange. now replace (Z.to_nat (b - a)) with 0%nat by lia. Qed.
Lemma zrange_cons a b : a < b -> zrange a b = a :: zrange (a + 1) b.
Proof.
  intros H. unfold zrange. replace (Z.to_nat (b - a)) with (S (Z.to_nat (b - (a + 1)))) by lia. cbn [seq map].
  f_equal; [lia|]. rewrite <- seq_shift, map_map. apply map_ext. intros k. lia.
Qed.
Lemma zrange_split a b c : a <= b <= c -> zrange a c = zrange a b ++ zrange b c.
Proof.
  intros H. remember (Z.to_nat (b - a)) as n. revert a H Heqn. induction n as [|n IH]; intros a H E.
  - replace b with a by lia. now rewrite (zrange_nil a a) by lia.
  - rewrite (zrange_cons a c), (zrange_cons a b) by lia. cbn [app]. f_equal. apply IH; lia.
Qed.
Definition untouched (h : hist) (i : Z) : bool := negb (mem i (h_reads h)) && negb (mem i (h_ups h)).
Definition gone_count (cap : Z) (h : hist) : Z := zlen (filter (untouched h) (zrange 0 (first cap (h_saved h)))).

Record ginv (cap : Z) (h : hist) : Prop := {
  i_reads : forall i, first cap (h_saved h) <= i < h_next h -> In i (h_reads h);
  i_reads' : forall i, In i (h_reads h) -> 0 <= i < h_next h;
  i_ups : forall i, first cap (h_saved h) <= i < h_sent h -> In i (h_ups h);
  i_ups' : forall i, In i (h_ups h) -> i < h_sent h;
  i_sorted : StronglySorted Z.lt (h_reads h);
  i_next : 0 <= h_next h <= zlen (h_saved h);
  i_sent : h_sent h <= zlen (h_saved h);
  i_up : match h_up h with Some n => h_sent h <= n <= zlen (h_saved h) | None => True end }.

Lemma filter_ext_in' {A} (f g : A -> bool) l : (forall x, In x l -> f x = g x) -> filter f l = filter g l.
Proof. intros H. induction l as [|x l IH]; cbn [filter]; [reflexivity|]. rewrite H by now left. rewrite IH by (intros; apply H; now right). reflexivity. Qed.
Lemma filter_zrange (p : Z -> bool) m a b : a <= b -> (forall i, a <= i < b -> p i = (m <=? i)) -> zlen (filter p (zrange a b)) = Z.max 0 (b - Z.max a m).
Proof.
  intros H HP. remember (Z.to_nat (b - a)) as n. revert a H Heqn HP. induction n as [|n IH]; intros a H E HP.
  - rewrite zrange_nil by lia. change (zlen (filter p [])) with 0. lia.
  - rewrite zrange_cons by lia. cbn [filter]. rewrite HP by lia. specialize (IH (a + 1) ltac:(lia) ltac:(lia) ltac:(intros; apply HP; lia)).
    destruct (m <=? a) eqn:EM; rewrite ?zlen_cons, IH; lia.
Qed.
Lemma untouched_range cap h i : ginv cap h -> first cap (h_saved h) <= i -> untouched h i = (Z.max (h_next h) (h_sent h) <=? i).
Proof.
  intros [A A' B B' _ _ _ _] Hi. unfold untouched.
  assert (E1 : mem i (h_reads h) = (i <? h_next h)).
  { apply eq_true_iff_eq. rewrite mem_In. split; [intros X; apply A' in X; lia|intros X; apply A; lia]. }
  assert (E2 : mem i (h_ups h) = (i <? h_sent h)).
  { apply eq_true_iff_eq. rewrite mem_In. split; [intros X; apply B' in X; lia|intros X; apply B; lia]. }
  rewrite E1, E2. lia.
Qed.
Lemma first_snoc cap e l : hroom e <= cap -> first cap l <= first cap (l ++ [e]).
Proof.
  intros H. unfold first. rewrite (fit_snoc cap e l H), !zlen_app. change (zlen [e]) with 1.
  pose proof (hevict_app cap (hroom e) (fit cap l)) as HA. apply (f_equal zlen) in HA. rewrite zlen_app in HA.
  pose proof (zlen_nonneg (fst (hevict cap (hroom e) (fit cap l)))). lia.
Qed.
Lemma sorted_snoc l x : StronglySorted Z.lt l -> (forall i, In i l -> i < x) -> StronglySorted Z.lt (l ++ [x]).
Proof.
  induction l as [|y l IH]; intros S H; cbn [app]; [repeat constructor|]. inversion S as [|? ? S1 S2]; subst. constructor.
  - apply IH; [exact S1|]. intros i Hi. apply H. now right.
  - apply Forall_app. split; [exact S2|]. constructor; [apply H; now left|constructor].
Qed.

(** One step. *)
Lemma gstep M cap h o r h' : 0 < cap -> ginv cap h -> hist_step M cap h o = Some (r, h') ->
  ginv cap h' /\ h_saved h' = h_saved h ++ accepted M [o] [r] /\
  h_lost h' - gone_count cap h' = h_lost h - gone_count cap h + refused (h_min h) [o] [r] /\
  (h_min h' = match o with LSetMin l => l | _ => h_min h end) /\
  exists new, h_reads h' = h_reads h ++ new /\ reads_logs M (h_saved h) (returned [r]) new.
Proof.
  intros Hcap G HS. pose proof G as [A A' B B' D N S U]. destruct (first_range cap (h_saved h)) as (FR & _).
  assert (NOTHING : r = RDone \/ (exists n, r = RCount n) -> h' = h -> (match o with LSave _ _ _ _ | LSetMin _ | LRead => False | _ => True end) ->
     ginv cap h' /\ h_saved h' = h_saved h ++ accepted M [o] [r] /\
     h_lost h' - gone_count cap h' = h_lost h - gone_count cap h + refused (h_min h) [o] [r] /\
     (h_min h' = match o with LSetMin l => l | _ => h_min h end) /\
     exists new, h_reads h' = h_reads h ++ new /\ reads_logs M (h_saved h) (returned [r]) new).
  { intros Hr -> Ho. split; [exact G|]. destruct o; try destruct Ho; cbn [accepted refused]; rewrite !app_nil_r;
    (split; [reflexivity|split; [lia|split; [reflexivity|exists []; rewrite app_nil_r; split; [reflexivity|destruct Hr as [->|(n & ->)]; constructor]]]]). }
  destruct o as [level type ts text| |time| | |l| |]; cbn [hist_step] in HS; set (f := first cap (h_saved h)) in *.
  - set (e := mk_hlog level type ts (take (M - ts_room ts) text)) in *. unfold hist_save in HS. change (l_level e) with level in HS.
    destruct (level <? h_min h) eqn:EM; [injection HS as <- <-|].
    + cbn [accepted refused returned]. rewrite EM, app_nil_r. split; [exact G|]. split; [reflexivity|]. split; [lia|]. split; [reflexivity|].
      exists []. rewrite app_nil_r. split; [reflexivity|constructor].
    + destruct ((cap <? hroom e) || match h_up h with Some _ => cap <? hrooms (fit cap (h_saved h)) + hroom e | None => false end) eqn:EB; injection HS as <- <-;
        cbn [accepted refused returned h_saved h_min h_lost h_reads h_ups h_next h_sent]; try rewrite EM.
      * rewrite app_nil_r. split; [constructor; assumption|]. split; [reflexivity|]. split.
        { replace (gone_count cap _) with (gone_count cap h) by reflexivity. lia. }
        split; [reflexivity|]. exists []. rewrite app_nil_r. split; [reflexivity|constructor].
      * fold e. pose proof (first_snoc cap e (h_saved h) ltac:(clear -EB; lia)) as FM. fold f in FM. set (f' := first cap (h_saved h ++ [e])) in *.
        destruct (first_range cap (h_saved h ++ [e])) as (FR' & _). fold f' in FR'. rewrite zlen_app in *. change (zlen [e]) with 1 in *.
        split; [constructor; cbn [h_saved h_min h_lost h_reads h_ups h_next h_sent h_up]; rewrite ?zlen_app; change (zlen [e]) with 1; fold f'|].
        -- intros i Hi. apply A. lia.
        -- exact A'.
        -- intros i Hi. apply B. lia.
        -- exact B'.
        -- exact D.
        -- lia.
        -- lia.
        -- destruct (h_up h); [lia|exact I].
        -- split; [reflexivity|]. split; [|split; [reflexivity|exists []; rewrite app_nil_r; split; [reflexivity|constructor]]].
           unfold gone_count at 1. cbn [h_saved]. fold f'. rewrite (zrange_split 0 f f') by lia. rewrite filter_app, zlen_app.
           rewrite (filter_ext_in' _ (untouched h) (zrange f f')) by reflexivity.
           rewrite (filter_zrange (untouched h) (Z.max (h_next h) (h_sent h)) f f' ltac:(lia)).
           2:{ intros i Hi. apply (untouched_range cap); [exact G|fold f; lia]. }
           unfold gone_count. fold f. rewrite (filter_ext_in' _ (untouched h) (zrange 0 f)) by reflexivity. lia.
  - destruct (negb (h_seen h =? wrap32 (h_lost h)) && (0 <? wrap32 (h_lost h))).
    + injection HS as <- <-. cbn [accepted refused returned h_saved h_min h_lost h_reads h_ups]. rewrite app_nil_r.
      split; [constructor; assumption|]. split; [reflexivity|]. split; [change (gone_count cap _) with (gone_count cap h); lia|]. split; [reflexivity|].
      exists []. rewrite app_nil_r. split; [reflexivity|constructor; constructor].
    + destruct (h_sane h); [|discriminate]. destruct (nth_error (h_saved h) (Z.to_nat (Z.max f (h_next h)))) as [e|] eqn:EN; injection HS as <- <-;
        cbn [accepted refused returned h_saved h_min h_lost h_reads h_ups]; rewrite app_nil_r.
      * assert (X : (Z.to_nat (Z.max f (h_next h)) < length (h_saved h))%nat) by (apply nth_error_Some; congruence).
        split; [constructor; cbn [h_saved h_min h_lost h_reads h_ups h_next h_sent h_up]; fold f|].
        -- intros i Hi. apply in_or_app. destruct (Z.lt_ge_cases i (h_next h)); [left; apply A; lia|]. right. left. lia.
        -- intros i Hi. apply in_app_or in Hi. destruct Hi as [Hi|[Hi|[]]]; [apply A' in Hi; lia|lia].
        -- exact B.
        -- exact B'.
        -- apply sorted_snoc; [exact D|]. intros i Hi. apply A' in Hi. lia.
        -- unfold zlen. lia.
        -- exact S.
        -- exact U.
        -- split; [reflexivity|]. split; [|split; [reflexivity|]].
           ++ unfold gone_count at 1. cbn [h_saved]. fold f. rewrite (filter_ext_in' _ (untouched h) (zrange 0 f)); [unfold gone_count; fold f; lia|].
              intros i Hi. apply In_zrange in Hi. unfold untouched. cbn [h_reads h_ups]. rewrite mem_app. replace (mem i [Z.max f (h_next h)]) with false; [now rewrite orb_false_r|].
              unfold mem. cbn [existsb]. lia.
           ++ exists [Z.max f (h_next h)]. split; [reflexivity|]. constructor; [exact EN|constructor].
      * split; [constructor; assumption|]. split; [reflexivity|]. split; [change (gone_count cap _) with (gone_count cap h); lia|]. split; [reflexivity|].
        exists []. rewrite app_nil_r. split; [reflexivity|constructor].
  - injection HS as <- <-. destruct (h_up h) eqn:EU; [apply NOTHING; auto|]. destruct (Z.max f (h_sent h) <? zlen (h_saved h)) eqn:EX; [|apply NOTHING; auto].
    cbn [accepted refused returned h_saved h_min h_lost h_reads h_ups]. rewrite !app_nil_r.
    split; [constructor; cbn [h_saved h_min h_lost h_reads h_ups h_next h_sent h_up]; try assumption; lia|]. split; [reflexivity|].
    split; [change (gone_count cap _) with (gone_count cap h); lia|]. split; [reflexivity|]. exists []. rewrite app_nil_r. split; [reflexivity|constructor].
  - destruct (h_up h) as [n|] eqn:EU; [|discriminate]. injection HS as <- <-. cbn [accepted refused returned h_saved h_min h_lost h_reads h_ups]. rewrite !app_nil_r.
    split; [constructor; cbn [h_saved h_min h_lost h_reads h_ups h_next h_sent h_up]; try assumption; fold f|].
    + intros i Hi. apply in_or_app. destruct (Z.lt_ge_cases i (h_sent h)); [left; apply B; lia|]. right. apply In_zrange. lia.
    + intros i Hi. apply in_app_or in Hi. destruct Hi as [Hi|Hi]; [apply B' in Hi; lia|apply In_zrange in Hi; lia].
    + lia.
    + exact I.
    + split; [reflexivity|]. split; [|split; [reflexivity|exists []; rewrite app_nil_r; split; [reflexivity|constructor]]].
      unfold gone_count at 1. cbn [h_saved]. fold f. rewrite (filter_ext_in' _ (untouched h) (zrange 0 f)); [unfold gone_count; fold f; lia|].
      intros i Hi. apply In_zrange in Hi. unfold untouched. cbn [h_reads h_ups]. rewrite mem_app. replace (mem i (zrange (Z.max f (h_sent h)) n)) with false; [now rewrite orb_false_r|].
      symmetry. apply not_true_iff_false. rewrite mem_In, In_zrange. lia.
  - injection HS as <- <-. apply NOTHING; eauto.
  - injection HS as <- <-. cbn [accepted refused returned h_saved h_min h_lost h_reads h_ups]. rewrite !app_nil_r.
    split; [constructor; assumption|]. split; [reflexivity|]. split; [change (gone_count cap _) with (gone_count cap h); lia|]. split; [reflexivity|].
    exists []. rewrite app_nil_r. split; [reflexivity|constructor].
  - injection HS as <- <-. apply NOTHING; eauto.
  - injection HS as <- <-. apply NOTHING; eauto.
Qed.
Lemma accepted_cons M o ops r rs : accepted M (o :: ops) (r :: rs) = accepted M [o] [r] ++ accepted M ops rs.
Proof. destruct o; try reflexivity. destruct r as [b| | |]; try reflexivity. destruct b; reflexivity. Qed.
Lemma refused_cons m o ops r rs : refused m (o :: ops) (r :: rs) = refused m [o] [r] + refused (match o with LSetMin l => l | _ => m end) ops rs.
Proof. destruct o; try reflexivity. destruct r as [b| | |]; try reflexivity. destruct b; cbn [refused]; lia. Qed.
Lemma returned_cons r rs : returned (r :: rs) = returned [r] ++ returned rs.
Proof. destruct r as [|[x|]| |]; reflexivity. Qed.
Lemma reads_logs_app M saved a i b j : reads_logs M saved a i -> reads_logs M saved b j -> reads_logs M saved (a ++ b) (i ++ j).
Proof. intros H1 H2. induction H1; cbn [app]; [exact H2|constructor; assumption|econstructor; eassumption]. Qed.
Lemma reads_logs_more M saved more a i : reads_logs M saved a i -> reads_logs M (saved ++ more) a i.
Proof.
  intros H. induction H; [constructor|constructor; assumption|]. econstructor; [|eassumption].
  rewrite nth_error_app1; [eassumption|]. apply nth_error_Some. congruence.
Qed.
Lemma grun M cap ops : 0 < cap -> forall h rs h', ginv cap h -> hist_run M cap h ops = Some (rs, h') ->
  ginv cap h' /\ h_saved h' = h_saved h ++ accepted M ops rs /\
  h_lost h' - gone_count cap h' = h_lost h - gone_count cap h + refused (h_min h) ops rs /\
  exists new, h_reads h' = h_reads h ++ new /\ reads_logs M (h_saved h') (returned rs) new.
Proof.
  intros Hcap. induction ops as [|o ops IH]; intros h rs h' G H; cbn [hist_run] in H.
  - injection H as <- <-. cbn [accepted refused returned]. rewrite app_nil_r. split; [exact G|]. split; [reflexivity|]. split; [lia|].
    exists []. rewrite app_nil_r. split; [reflexivity|constructor].
  - apply bind_inv in H. destruct H as ((r & h1) & E & H). apply bind_inv in H. destruct H as ((rs1 & h2) & E2 & H). injection H as <- <-.
    destruct (gstep _ _ _ _ _ _ Hcap G E) as (G1 & S1 & L1 & M1 & n1 & R1 & RL1).
    destruct (IH _ _ _ G1 E2) as (G2 & S2 & L2 & n2 & R2 & RL2).
    split; [exact G2|]. rewrite accepted_cons, refused_cons, returned_cons. split; [rewrite S2, S1, app_assoc; reflexivity|].
    split; [rewrite M1 in L2; lia|]. exists (n1 ++ n2). split; [rewrite R2, R1, app_assoc; reflexivity|].
    apply reads_logs_app; [|exact RL2]. rewrite S2, S1, <- app_assoc. now apply reads_logs_more.
Qed.
Lemma ginv_init cap min : ginv cap (hist_init min).
Proof.
  constructor; cbn [hist_init h_saved h_min h_lost h_reads h_ups h_next h_sent h_up]; change (first cap []) with 0; change (zlen (@nil hlog)) with 0; try (intros; lia); try (intros i []); try lia; try exact I.
  constructor.
Qed.
Lemma hist_run_app M cap a : forall b h rs h' rs2 h'', hist_run M cap h a = Some (rs, h') -> hist_run M cap h' b = Some (rs2, h'') ->
  hist_run M cap h (a ++ b) = Some (rs ++ rs2, h'').
Proof.
  induction a as [|o a IH]; intros b h rs h' rs2 h'' H H2; cbn [hist_run app] in *.
  - injection H as <- <-. exact H2.
  - apply bind_inv in H. destruct H as ((r & h1) & E & H). apply bind_inv in H. destruct H as ((rs1 & h2) & E2 & H). injection H as <- <-.
    rewrite E. cbn [bind]. rewrite (IH _ _ _ _ _ _ E2 H2). reflexivity.
Qed.
