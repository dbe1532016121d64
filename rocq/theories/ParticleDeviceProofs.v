From Coq Require Import String.
From Verif Require Import Base BuildId BuildIdSpec BuildIdProofs HttpRequest HttpUtilsSpec HttpRequestSpec HttpRequestProofs ParticleDevice ParticleDeviceSpec.

Lemma text_take n s : text_ok s -> text_ok (take n s).
Proof. unfold text_ok. rewrite !Forall_forall. intros H x X. apply H. unfold take in X. rewrite <- (firstn_skipn (Z.to_nat n) s). apply in_or_app. now left. Qed.
Lemma text_app s t : text_ok s -> text_ok t -> text_ok (s ++ t).
Proof. intros. apply Forall_app. auto. Qed.

Lemma snprintf_at s rest space t : zlen (s ++ 0 :: rest) = zlen s + space -> 0 < space -> text_ok t -> text_ok s ->
  exists buf, pd_snprintf (s ++ 0 :: rest) (zlen s) space t = Some buf /\ zlen buf = zlen (s ++ 0 :: rest) /\ holds buf (s ++ take (space - 1) t).
Proof.
  intros L P T S. unfold pd_snprintf. replace (space <=? 0) with false by lia.
  assert (Lt : zlen (take (space - 1) t ++ [0]) <= space).
  { rewrite zlen_app, zlen_take. change (zlen [0]) with 1. lia. }
  rewrite splice_some by (rewrite ?L; znn; lia). rewrite take_app_exact by reflexivity. eexists. split; [reflexivity|]. split.
  - rewrite !zlen_app, zlen_drop. rewrite zlen_app in *. znn. lia.
  - split; [apply text_app; [exact S|now apply text_take]|]. eexists. rewrite <- !app_assoc. cbn [app]. reflexivity.
Qed.
Lemma snprintf_all buf t : zlen buf = 32 -> text_ok t ->
  exists buf', pd_snprintf buf 0 32 t = Some buf' /\ zlen buf' = 32 /\ holds buf' (take 31 t).
Proof.
  intros L T. unfold pd_snprintf. change (32 <=? 0) with false. cbv iota. change (32 - 1) with 31.
  assert (Lt : zlen (take 31 t ++ [0]) <= 32).
  { rewrite zlen_app, zlen_take. change (zlen [0]) with 1. lia. }
  rewrite splice_some by lia. eexists. split; [reflexivity|]. split.
  - rewrite !zlen_app, zlen_drop, zlen_take. rewrite zlen_app in *. znn. lia.
  - split; [now apply text_take|]. exists (drop (0 + zlen (take 31 t ++ [0])) buf). rewrite <- !app_assoc. reflexivity.
Qed.

Lemma decimal_text_ok v ds : decimal_text v ds -> text_ok ds.
Proof. intros (D & _). eapply Forall_impl; [|exact D]. cbn. lia. Qed.
Lemma print_int_ok v : - 2 ^ 31 <= v < 2 ^ 31 -> int_text v (print_int v) /\ text_ok (print_int v).
Proof.
  intros R. unfold int_text, print_int. destruct (Z.ltb_spec v 0).
  - destruct (print_dec_ok 10 (- v)) as [D _]; [change (10 ^ Z.of_nat 10) with 10000000000; lia|lia|]. split; [eexists; split; [reflexivity|exact D]|].
    constructor; [lia|exact (decimal_text_ok _ _ D)].
  - destruct (print_dec_ok 10 v) as [D _]; [change (10 ^ Z.of_nat 10) with 10000000000; lia|lia|]. split; [exact D|exact (decimal_text_ok _ _ D)].
Qed.
Lemma str_ok_rev : text_ok (str "-rev"). Proof. repeat (apply Forall_cons; [cbn; lia|]). apply Forall_nil. Qed.
Lemma str_ok_v : text_ok (str "v"). Proof. repeat (apply Forall_cons; [cbn; lia|]). apply Forall_nil. Qed.
Lemma str_ok_plus : text_ok (str "+"). Proof. repeat (apply Forall_cons; [cbn; lia|]). apply Forall_nil. Qed.
Lemma str_ok_os : text_ok (str ".os"). Proof. repeat (apply Forall_cons; [cbn; lia|]). apply Forall_nil. Qed.

Lemma s32_range v : - 2 ^ 31 <= s32 v < 2 ^ 31.
Proof. unfold s32. change (2 ^ 31) with 2147483648. change (2 ^ 32) with 4294967296. pose proof (Z.mod_pos_bound (v + 2147483648) 4294967296). lia. Qed.

Lemma hw_ok b c hw : given_ok b c -> zlen hw = 32 -> exists hw' s, pd_hw b c hw = Some hw' /\ zlen hw' = 32 /\ hardware_text b c s /\ holds hw' (take 31 s).
Proof.
  intros (_ & P & _ & _ & H) L. unfold pd_hw, hardware_text. destruct (ct_hw c) as [h|].
  - destruct (snprintf_all hw h L (H _ eq_refl)) as (x & E & L2 & Q). exists x, h. auto.
  - set (r := match bd_rev b with Some r => r | None => 0 end). destruct (print_int_ok (s32 r) (s32_range r)) as [D T].
    destruct (snprintf_all hw (bd_platform b ++ str "-rev" ++ print_int (s32 r)) L) as (x & E & L2 & Q); [apply text_app; [exact P|apply text_app; [exact str_ok_rev|exact T]]|].
    exists x. eexists. split; [exact E|]. split; [exact L2|]. split; [|exact Q]. exists (print_int (s32 r)). auto.
Qed.

Lemma hex_text h l : BuildIdSpec.digits h = Some l -> text_ok h.
Proof.
  revert l. induction h as [|c h IH]; intros l E; [constructor|]. cbn [BuildIdSpec.digits] in E. apply bind_inv in E as (d & E1 & E). apply bind_inv in E as (r & E2 & _).
  constructor; [|eapply IH; exact E2]. intros ->. discriminate E1.
Qed.

Lemma sw_ok b id c sw : given_ok b c -> the_id id (bd_idtype b) (bd_idmem b) -> zlen sw = 32 ->
  exists sw' s, pd_sw b c sw = Some sw' /\ zlen sw' = 32 /\ software_text b id c s /\ holds sw' (take 31 s).
Proof.
  intros (R & _ & S & M & _) HI L. unfold pd_sw. destruct (print_int_ok (ct_product c)) as [D T]; [unfold is_u16 in R; lia|].
  assert (D0 : decimal_text (ct_product c) (print_int (ct_product c))).
  { unfold int_text in D. unfold is_u16 in R. replace (ct_product c <? 0) with false in D by lia. exact D. }
  set (head := str "v" ++ print_int (ct_product c) ++ str ".os" ++ bd_system b).
  assert (Th : text_ok head) by (unfold head; apply text_app; [exact str_ok_v|apply text_app; [exact T|apply text_app; [exact str_ok_os|exact S]]]).
  destruct (snprintf_all sw head L Th) as (b1 & E1 & L1 & (T1 & rest & Q1)). rewrite E1. cbn [bind].
  assert (Hx : exists e x, match ct_meta c with
              | Some m => Some (Some m)
              | None => do r <- bi_get_string (bd_idtype b) (bd_idmem b) (fill 6 0) 6;
                        let (ok, s) := (r : bool * list Z) in
                        if ok then do s <- bi_cstr s; Some (Some s) else Some None
              end = Some e /\ extra_text id c x /\ (match e with Some e => x = str "+" ++ e /\ text_ok e | None => x = [] end)).
  { unfold extra_text. destruct (ct_meta c) as [m|]; [exists (Some m); eexists; split; [reflexivity|]; split; [reflexivity|]; split; [reflexivity|exact (M _ eq_refl)]|].
    destruct id as [i|].
    - destruct HI as [HI HB]. destruct (get_string_ok i (bd_idtype b) (bd_idmem b) (fill 6 0) 6 HI HB ltac:(change (zlen (fill 6 0)) with 6; lia)) as (hex & E & LH & DH & _).
      change (Z.min 40 (6 - 1)) with 5 in *. rewrite E. cbn [bind]. change ([0] ++ drop (5 + 1) (fill 6 0)) with (0 :: drop 6 (fill 6 0)). rewrite cstr_nul by exact (hex_text _ _ DH). cbn [bind].
      exists (Some hex), (str "+" ++ hex). split; [reflexivity|]. split; [exists hex; auto|]. split; [reflexivity|exact (hex_text _ _ DH)].
    - destruct HI as [H2 H3]. unfold bi_get_string, bi_read. replace (bd_idtype b =? 3) with false by lia. replace (bd_idtype b =? 2) with false by lia. cbn [bind].
      exists None, []. auto. }
  destruct Hx as (e & x & -> & X1 & X2). cbn [bind].
  assert (ST : software_text b id c (head ++ x)).
  { exists (print_int (ct_product c)), x. split; [exact D0|]. split; [exact X1|]. unfold head. now rewrite <- !app_assoc. }
  destruct e as [e|].
  - destruct X2 as [-> Te]. rewrite Q1, cstr_nul by exact T1. cbn [bind].
    assert (L31 : zlen (take 31 head) = Z.min 31 (zlen head)) by (rewrite zlen_take; znn; lia).
    rewrite u32_id by (unfold is_u32; znn; lia).
    destruct (snprintf_at (take 31 head) rest (32 - zlen (take 31 head)) (str "+" ++ e)) as (b2 & E2 & L2 & Q2); [rewrite <- Q1, L1; lia|lia|apply text_app; [exact str_ok_plus|exact Te]|exact T1|].
    rewrite E2. exists b2, (head ++ str "+" ++ e). split; [reflexivity|]. split; [rewrite L2, <- Q1; exact L1|]. split; [exact ST|].
    replace (take 31 (head ++ str "+" ++ e)) with (take 31 head ++ take (32 - zlen (take 31 head) - 1) (str "+" ++ e)); [exact Q2|].
    rewrite L31. destruct (Z.le_gt_cases (zlen head) 31).
    + rewrite Z.min_r by lia. rewrite (take_all 31 head) by lia. rewrite (take_app_ge 31 head) by lia. f_equal. f_equal. lia.
    + rewrite Z.min_l by lia. change (32 - 31 - 1) with 0. rewrite (take_app_le 31 head) by lia. unfold take at 2. cbn [Z.to_nat firstn]. apply app_nil_r.
  - subst x. rewrite app_nil_r in ST. exists b1, head. split; [reflexivity|]. split; [exact L1|]. split; [exact ST|]. split; [exact T1|eauto].
Qed.

Theorem construct_ok b id c n : given_ok b c -> the_id id (bd_idtype b) (bd_idmem b) -> zlen (nm_hw n) = 32 -> zlen (nm_sw n) = 32 ->
  exists n' h s, construct b c n = Some n' /\ zlen (nm_hw n') = 32 /\ zlen (nm_sw n') = 32 /\
    hardware_text b c h /\ software_text b id c s /\ reported n' = Some (take 31 h, take 31 s).
Proof.
  intros G HI L1 L2. destruct (hw_ok b c _ G L1) as (hw & h & E1 & L3 & H1 & (T1 & r1 & Q1)). destruct (sw_ok b id c _ G HI L2) as (sw & s & E2 & L4 & H2 & (T2 & r2 & Q2)).
  exists (mk_nm hw sw), h, s. unfold construct. rewrite E1. cbn [bind]. rewrite E2. cbn [bind]. split; [reflexivity|]. do 4 (split; [assumption|]).
  unfold reported. cbn [nm_hw nm_sw]. rewrite Q1, Q2, !cstr_nul by assumption. reflexivity.
Qed.

Lemma digits_then ds1 ds2 r1 r2 : HttpUtilsSpec.digits ds1 -> HttpUtilsSpec.digits ds2 -> ds1 ++ 46 :: r1 = ds2 ++ 46 :: r2 -> ds1 = ds2 /\ r1 = r2.
Proof.
  revert ds2. induction ds1 as [|x l IH]; intros ds2 F1 F2 E.
  - destruct ds2 as [|y m]; cbn [app] in E; [injection E as ->; auto|]. injection E as <- _. pose proof (Forall_inv F2). cbn in *. lia.
  - destruct ds2 as [|y m]; cbn [app] in E; [injection E as -> _; pose proof (Forall_inv F1); cbn in *; lia|]. injection E as <- E.
    destruct (IH m (Forall_inv_tail F1) (Forall_inv_tail F2) E) as [-> ->]. auto.
Qed.
Theorem told_apart b id1 id2 c1 c2 s1 s2 : software_text b id1 c1 s1 -> software_text b id2 c2 s2 -> zlen s1 <= 31 -> zlen s2 <= 31 -> take 31 s1 = take 31 s2 ->
  ct_product c1 = ct_product c2 /\ exists x, extra_text id1 c1 x /\ extra_text id2 c2 x.
Proof.
  intros (d1 & x1 & D1 & X1 & ->) (d2 & x2 & D2 & X2 & ->) L1 L2 E. rewrite !take_all in E by lia.
  injection E as E. destruct (digits_then d1 d2 _ _ (proj1 D1) (proj1 D2) E) as [-> E2]. injection E2 as E2. apply app_inv_head in E2. subst x2.
  split; [|eauto]. destruct D1 as (_ & <- & _). destruct D2 as (_ & <- & _). reflexivity.
Qed.

Lemma boots_kept l : forall p cb, timer_boots l (mk_ptm (Some p) cb) = Some (map (fun _ => true) l, mk_ptm (Some p) cb).
Proof. induction l as [|[[m q] c] l IH]; intros p cb; [reflexivity|]. cbn [timer_boots timer_boot pt_period bind map]. rewrite IH. reflexivity. Qed.

Lemma find_command_ok name : forall l i,
  match find_command name i l with
  | Some j => i <= j < i + zlen l /\ nth_error l (Z.to_nat (j - i)) = Some name /\ forall k, (k < Z.to_nat (j - i))%nat -> nth_error l k <> Some name
  | None => ~ In name l
  end.
Proof.
  induction l as [|c l IH]; intros i; [intros []|]. cbn [find_command]. destruct (list_eq_dec Z.eq_dec name c) as [<-|N].
  - rewrite zlen_cons. split; [znn; lia|]. rewrite Z.sub_diag. split; [reflexivity|]. intros k K. cbn in K. lia.
  - specialize (IH (i + 1)). destruct (find_command name (i + 1) l) as [j|].
    + destruct IH as (A & B & C). rewrite zlen_cons. split; [lia|]. replace (Z.to_nat (j - i)) with (S (Z.to_nat (j - (i + 1)))) by lia. split; [exact B|].
      intros k K. destruct k; cbn [nth_error]; [congruence|]. apply C. lia.
    + intros [X|X]; [congruence|contradiction].
Qed.
