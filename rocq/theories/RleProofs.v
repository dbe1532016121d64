From Verif Require Import Base Varint VarintSpec VarintProofs Rle RleSpec.

(** ** Segments: what the writes mean *)
Inductive seg := Lit (x : list Z) | Run (b n : Z).
Definition exp_seg (s : seg) : list Z := match s with Lit x => x | Run b n => repeat b (Z.to_nat n) end.
Definition exp_all (l : list seg) : list Z := concat (map exp_seg l).

Fixpoint ws_ok (off : Z) (segs : list seg) (ws : list rle_write) : Prop :=
  match segs, ws with
  | [], [] => True
  | Lit x :: segs, w :: ws => exists h, varint_si32 (- zlen x) = Some h /\ zlen x <= 2147483648 /\
        w = mk_rw true h off (zlen x) /\ ws_ok (off + zlen x) segs ws
  | Run b n :: segs, w :: ws => exists h, varint_si32 n = Some h /\ 2 <= n < 2147483648 /\
        w = mk_rw true h off 1 /\ ws_ok (off + n) segs ws
  | _, _ => False
  end.
Definition sumsz (ws : list rle_write) : Z := fold_right (fun w a => zlen (w_header w) + w_len w + a) 0 ws.

Lemma exp_all_app a b : exp_all (a ++ b) = exp_all a ++ exp_all b.
Proof. unfold exp_all. now rewrite map_app, concat_app. Qed.
Lemma zlen_repeat {A} (b : A) n : 0 <= n -> zlen (repeat b (Z.to_nat n)) = n.
Proof. intros. unfold zlen. rewrite repeat_length. lia. Qed.
Lemma repeat_snoc {A} (b : A) n : 0 <= n -> repeat b (Z.to_nat (n + 1)) = repeat b (Z.to_nat n) ++ [b].
Proof.
  intros. replace (Z.to_nat (n + 1)) with (Z.to_nat n + 1)%nat by lia. now rewrite repeat_app.
Qed.

Lemma ws_ok_app segs : forall ws off s w, ws_ok off segs ws -> ws_ok (off + zlen (exp_all segs)) [s] [w] ->
  ws_ok off (segs ++ [s]) (ws ++ [w]).
Proof.
  induction segs as [|s0 segs IH]; intros ws off s w H H1.
  - destruct ws; [|contradiction]. unfold exp_all in H1. cbn in H1. rewrite zlen_nil, Z.add_0_r in H1. exact H1.
  - destruct ws as [|w0 ws]; [destruct s0; contradiction|].
    unfold exp_all in *. destruct s0 as [x|b n]; cbn [ws_ok app map concat exp_seg] in *.
    + destruct H as (h & Hh & Hl & Hw & H). exists h. repeat split; try assumption.
      apply IH; [assumption|]. now rewrite zlen_app, Z.add_assoc in H1.
    + destruct H as (h & Hh & Hl & Hw & H). exists h. repeat split; try assumption; try lia.
      apply IH; [assumption|]. rewrite zlen_app, zlen_repeat, Z.add_assoc in H1 by lia. exact H1.
Qed.
Lemma sumsz_app a b : sumsz (a ++ b) = sumsz a + sumsz b.
Proof. unfold sumsz. induction a; cbn [app fold_right]; lia. Qed.

(** ** Decoding *)
Lemma leb_nonempty l u r : leb_read l = Some (u, r) -> l <> [].
Proof. destruct l; [discriminate|congruence]. Qed.

Lemma decode_ok segs : forall off ws pre post,
  ws_ok off segs ws -> zlen pre = off ->
  exists s, rle_emit_all (pre ++ exp_all segs ++ post) ws = Some s /\ zlen s = sumsz ws /\
    forall f, (length s <= f)%nat -> rle_decode_fuel f s = Some (exp_all segs).
Proof.
  induction segs as [|sg segs IH]; intros off ws pre post H Hp.
  - destruct ws; [|contradiction]. exists []. cbn. split; [reflexivity|]. split; [reflexivity|]. now intros [|].
  - destruct ws as [|w ws]; [destruct sg; contradiction|]. unfold exp_all in *.
    destruct sg as [x|b n]; cbn [ws_ok map concat exp_seg] in *; destruct H as (h & Hh & Hl & -> & H).
    + destruct (IH (off + zlen x) ws (pre ++ x) post H ltac:(zl)) as (s & Es & Ls & Hs).
      rewrite <- !app_assoc in Es. rewrite <- app_assoc.
      exists ((h ++ x) ++ s). cbn [rle_emit_all]. unfold rle_emit. cbn [w_start w_len w_header].
      rewrite read_at_some by zl. cbn [bind]. rewrite Es. cbn [bind].
      rewrite drop_app_exact by lia. rewrite take_app_exact by lia.
      split; [reflexivity|]. split; [cbn [sumsz fold_right w_header w_len]; fold (sumsz ws); zl|].
      intros f Hf. destruct (varint_si32_correct (- zlen x)) as (e & Ee & Hbe & Le & Re & _); [unfold is_s32; zl|].
      rewrite Hh in Ee. injection Ee as <-.
      destruct (Re (x ++ s)) as (u & Eu & Uu).
      rewrite !app_length in Hf. destruct h as [|h0 h]; [zl|]. cbn [length] in Hf.
      destruct f as [|f]; [lia|]. rewrite <- app_assoc. cbn [app]. cbn [rle_decode_fuel].
      cbn [app] in Eu. rewrite Eu, Uu. ifz. rewrite Z.opp_involutive.
      rewrite drop_app_exact by lia. rewrite take_app_exact by lia. rewrite Hs by lia. reflexivity.
    + destruct (IH (off + n) ws (pre ++ repeat b (Z.to_nat n)) post H ltac:(rewrite zlen_app, zlen_repeat; lia)) as (s & Es & Ls & Hs).
      rewrite <- !app_assoc in Es. rewrite <- app_assoc.
      assert (Er : repeat b (Z.to_nat n) = b :: repeat b (Z.to_nat (n - 1))).
      { replace (Z.to_nat n) with (S (Z.to_nat (n - 1))) by lia. reflexivity. }
      exists ((h ++ [b]) ++ s). cbn [rle_emit_all]. unfold rle_emit. cbn [w_start w_len w_header].
      rewrite read_at_some; [|zl|lia|rewrite !zlen_app, zlen_repeat by lia; znn; lia]. cbn [bind]. rewrite Es. cbn [bind].
      rewrite drop_app_exact by lia. rewrite Er at 1. cbn [app].
      replace (take 1 (b :: repeat b (Z.to_nat (n - 1)) ++ concat (map exp_seg segs) ++ post)) with [b] by reflexivity.
      split; [reflexivity|]. split; [cbn [sumsz fold_right w_header w_len]; fold (sumsz ws); zl|].
      intros f Hf. destruct (varint_si32_correct n) as (e & Ee & Hbe & Le & Re & _); [unfold is_s32; zl|].
      rewrite Hh in Ee. injection Ee as <-.
      destruct (Re (b :: s)) as (u & Eu & Uu).
      rewrite !app_length in Hf. destruct h as [|h0 h]; [zl|]. cbn [length] in Hf.
      destruct f as [|f]; [lia|]. rewrite <- app_assoc. cbn [app]. cbn [rle_decode_fuel].
      cbn [app] in Eu. rewrite Eu, Uu. ifz. rewrite Hs by lia. reflexivity.
Qed.

(** ** The encoder byte by byte *)
Definition core (c : rle_ctx) : rle_ctx :=
  mk_rle (total_rle_size c) rle_no_write (last_byte c) (seq_start c) (rstate c) (seq_count c)
         (num_repeats c) (curr_offset c).
Definition out_of (c : rle_ctx) : list rle_write := if w_available (write_info c) then [write_info c] else [].
Fixpoint bytes_run (c : rle_ctx) (l : list Z) : option (list rle_write * rle_ctx) :=
  match l with
  | [] => Some ([], c)
  | b :: r => do c' <- rle_byte (core c) b;
              do y <- bytes_run (core c') r;
              Some (out_of c' ++ fst y, snd y)
  end.

Record inv (p : list Z) (ws : list rle_write) (segs : list seg) (pend : list Z) (c : rle_ctx) : Prop := {
  iv_p : p = exp_all segs ++ pend;
  iv_ws : ws_ok 0 segs ws;
  iv_sc : seq_count c = zlen pend;
  iv_ss : seq_start c = zlen (exp_all segs);
  iv_cur : curr_offset c = zlen p;
  iv_tot : total_rle_size c = sumsz ws;
  iv_bnd : 0 <= sumsz ws <= 2 * zlen (exp_all segs);
  iv_in : Forall (fun w => 1 <= w_len w /\ 0 <= w_start w /\ w_start w + w_len w <= zlen (exp_all segs) /\ 1 <= zlen (w_header w) <= 5) ws;
  iv_st : match rstate c with
          | RInit => p = []
          | RRepeat => pend = repeat (last_byte c) (Z.to_nat (num_repeats c + 1)) /\ 1 <= num_repeats c
          | RNonRepeat => exists q, pend = q ++ repeat (last_byte c) (Z.to_nat (num_repeats c + 1)) /\
                 0 <= num_repeats c <= 1 /\ (q = [] -> num_repeats c = 0)
          end }.

Lemma inv_init : inv [] [] [] [] rle_init.
Proof. constructor; try reflexivity; try apply Forall_nil; try exact I; cbn; rewrite ?zlen_nil. all: unfold zlen; cbn; lia. Qed.
Lemma inv_core p ws segs pend c : inv p ws segs pend c -> inv p ws segs pend (core c).
Proof. intros []. constructor; assumption. Qed.

Lemma hdr_ok v : is_s32 v -> exists h, varint_si32 v = Some h /\ 1 <= zlen h <= 5 /\ (-64 <= v < 64 -> zlen h = 1).
Proof. intros H. destruct (varint_si32_correct v H) as (e & ? & _ & ? & _ & ?). eauto. Qed.

Lemma in_mono ws a b : a <= b ->
  Forall (fun w => 1 <= w_len w /\ 0 <= w_start w /\ w_start w + w_len w <= a /\ 1 <= zlen (w_header w) <= 5) ws ->
  Forall (fun w => 1 <= w_len w /\ 0 <= w_start w /\ w_start w + w_len w <= b /\ 1 <= zlen (w_header w) <= 5) ws.
Proof. intros Hab. apply Forall_impl. intros; lia. Qed.

(** Flushing a repeat run. *)
Lemma change_rep p ws segs pend c : inv p ws segs pend c -> rstate c = RRepeat -> zlen p < 2147483648 ->
  exists w c', rle_change c = Some c' /\ write_info c' = w /\ w_available w = true /\
    total_rle_size c' = sumsz (ws ++ [w]) /\ seq_start c' = curr_offset c /\ seq_count c' = 0 /\
    num_repeats c' = num_repeats c /\ curr_offset c' = curr_offset c /\ last_byte c' = last_byte c /\ rstate c' = RRepeat /\
    let segs' := segs ++ [Run (last_byte c) (seq_count c)] in
    exp_all segs' = p /\ ws_ok 0 segs' (ws ++ [w]) /\ 0 <= sumsz (ws ++ [w]) <= 2 * zlen p /\
    Forall (fun w => 1 <= w_len w /\ 0 <= w_start w /\ w_start w + w_len w <= zlen p /\ 1 <= zlen (w_header w) <= 5) (ws ++ [w]).
Proof.
  intros I Es Hp. destruct I as [Ip Iw Isc Iss Icur Itot Ibnd Iin Ist]. rewrite Es in Ist. destruct Ist as [Hpend Hnr].
  assert (Lp : zlen p = zlen (exp_all segs) + zlen pend) by (rewrite Ip; zl).
  assert (Lpend : zlen pend = num_repeats c + 1) by (rewrite Hpend, zlen_repeat; lia).
  pose proof (zlen_nonneg (exp_all segs)).
  unfold rle_change. rewrite Es.
  replace (s32 (seq_count c)) with (seq_count c)
    by (unfold s32; change (2^31) with 2147483648; change (2^32) with 4294967296; rewrite Z.mod_small; lia).
  destruct (hdr_ok (seq_count c)) as (h & Eh & Lh & L1); [unfold is_s32; lia|]. rewrite Eh. cbn [bind].
  eexists _, _. split; [reflexivity|]. cbn [write_info total_rle_size seq_start seq_count num_repeats curr_offset last_byte rstate].
  split; [reflexivity|]. split; [reflexivity|].
  rewrite sumsz_app. cbn [sumsz fold_right w_header w_len].
  assert (Hb : zlen h + 1 <= 2 * zlen pend).
  { destruct (Z.lt_ge_cases (seq_count c) 64); [rewrite L1 by lia; lia|lia]. }
  split; [rewrite Itot; fold (sumsz ws); rewrite u32_id by (unfold is_u32; lia); lia|].
  do 6 (split; [reflexivity|]). cbv zeta. rewrite exp_all_app. unfold exp_all at 2. cbn [map concat exp_seg]. rewrite app_nil_r.
  split; [rewrite Ip, Hpend; do 2 f_equal; lia|].
  split.
  { apply ws_ok_app; [assumption|]. cbn. exists h. rewrite Iss. repeat split; try assumption; lia. }
  split; [fold (sumsz ws); lia|].
  apply Forall_app. split; [eapply in_mono; [|exact Iin]; lia|]. constructor; [|constructor]. cbn [w_len w_start w_header]. lia.
Qed.

(** Flushing literals [q] when the pending bytes are [q ++ r] and the sequence count has been
    set to [zlen q]. *)
Lemma change_lit p ws segs pend c q r : inv p ws segs pend c -> pend = q ++ r -> q <> [] -> zlen p < 2147483648 ->
  forall d, d = set_sc c (zlen q) -> rstate d = RNonRepeat -> 
  exists w c', rle_change d = Some c' /\ write_info c' = w /\ w_available w = true /\
    total_rle_size c' = sumsz (ws ++ [w]) /\ seq_start c' = u32 (curr_offset c - num_repeats c) /\ seq_count c' = num_repeats c /\
    num_repeats c' = num_repeats c /\ curr_offset c' = curr_offset c /\ last_byte c' = last_byte c /\ rstate c' = RNonRepeat /\
    let segs' := segs ++ [Lit q] in
    p = exp_all segs' ++ r /\ ws_ok 0 segs' (ws ++ [w]) /\ 0 <= sumsz (ws ++ [w]) <= 2 * zlen (exp_all segs') /\
    Forall (fun w => 1 <= w_len w /\ 0 <= w_start w /\ w_start w + w_len w <= zlen (exp_all segs') /\ 1 <= zlen (w_header w) <= 5) (ws ++ [w]).
Proof.
  intros I Hpend Hq Hp d -> Es. destruct I as [Ip Iw Isc Iss Icur Itot Ibnd Iin _].
  assert (Lp : zlen p = zlen (exp_all segs) + zlen q + zlen r) by (rewrite Ip, Hpend; zl).
  pose proof (zlen_nonneg (exp_all segs)). pose proof (zlen_nonneg r).
  assert (0 < zlen q) by (destruct q; [congruence|zl]).
  unfold rle_change. rewrite Es. cbn [set_sc seq_count].
  replace (s32 (u32 (- zlen q))) with (- zlen q).
  2:{ unfold s32, u32. change (2^31) with 2147483648. change (2^32) with 4294967296. 
      replace ((- zlen q) mod 4294967296) with (4294967296 - zlen q) by (apply Z.mod_unique with (-1); lia).
      replace (4294967296 - zlen q + 2147483648) with (2147483648 - zlen q + 1 * 4294967296) by lia.
      rewrite Z.mod_add by lia. rewrite Z.mod_small; lia. }
  destruct (hdr_ok (- zlen q)) as (h & Eh & Lh & L1); [unfold is_s32; lia|]. rewrite Eh. cbn [bind].
  eexists _, _. split; [reflexivity|].
  cbn [write_info total_rle_size seq_start seq_count num_repeats curr_offset last_byte rstate set_sc].
  split; [reflexivity|]. split; [reflexivity|].
  rewrite sumsz_app. cbn [sumsz fold_right w_header w_len].
  assert (Hb : zlen h + zlen q <= 2 * zlen q).
  { destruct (Z.le_gt_cases (zlen q) 64); [rewrite L1 by lia; lia|lia]. }
  split; [rewrite Itot; fold (sumsz ws); rewrite u32_id by (unfold is_u32; lia); lia|].
  do 5 (split; [reflexivity|]). split; [reflexivity|]. cbv zeta. rewrite exp_all_app. unfold exp_all at 2 4 6. cbn [map concat exp_seg]. rewrite app_nil_r.
  split; [now rewrite Ip, Hpend, app_assoc|].
  split.
  { apply ws_ok_app; [assumption|]. cbn. exists h. rewrite Iss. repeat split; try assumption; lia. }
  rewrite zlen_app. split; [fold (sumsz ws); lia|].
  apply Forall_app. split; [eapply in_mono; [|exact Iin]; lia|]. constructor; [|constructor]. cbn [w_len w_start w_header]. lia.
Qed.

Lemma byte_step p ws segs pend c b : inv p ws segs pend c -> write_info c = rle_no_write -> zlen p + 1 < 2147483648 ->
  exists c' segs' pend', rle_byte c b = Some c' /\ inv (p ++ [b]) (ws ++ out_of c') segs' pend' c'.
Proof.
  intros I Hwi Hp. pose proof I as [Ip Iw Isc Iss Icur Itot Ibnd Iin Ist].
  assert (Lp : zlen p = zlen (exp_all segs) + zlen pend) by (rewrite Ip; zl).
  pose proof (zlen_nonneg p). pose proof (zlen_nonneg (exp_all segs)). pose proof (zlen_nonneg pend).
  unfold rle_byte. cbn [set_nr rstate].
  destruct (rstate c) eqn:Es.
  - (* first byte *)
    assert (Lp0 : zlen p = 0) by (rewrite Ist; reflexivity).
    replace (curr_offset c =? 0) with true by lia. cbn [negb andb].
    cbn [bind set_state num_repeats seq_count set_nr total_rle_size write_info last_byte seq_start rstate curr_offset].
    change (1 <=? 0) with false. cbn [andb].
    assert (pend = []) as -> by (destruct pend; [reflexivity|zl]).
    eexists _, segs, [b]. split; [reflexivity|].
    unfold out_of. cbn [bind total_rle_size write_info last_byte seq_start rstate seq_count num_repeats curr_offset set_state set_nr set_sc].
    rewrite Hwi. cbn [w_available rle_no_write]. rewrite app_nil_r.
    assert (HD : exp_all segs = []) by (destruct (exp_all segs); [reflexivity|zl]).
    constructor; cbn [bind total_rle_size write_info last_byte seq_start rstate seq_count num_repeats curr_offset set_state set_nr set_sc]; try assumption.
    + now rewrite HD, Ist.
    + rewrite Isc. reflexivity.
    + rewrite Icur, Lp0, Ist. reflexivity.
    + exists []. repeat split; lia.
  - (* repeat state *)
    destruct Ist as [Hpend Hnr].
    assert (Lpend : zlen pend = num_repeats c + 1) by (rewrite Hpend, zlen_repeat; lia).
    replace (curr_offset c =? 0) with false by lia. cbn [negb andb].
    destruct (last_byte c =? b) eqn:Eb.
    + cbn [bind set_state num_repeats seq_count set_nr total_rle_size write_info last_byte seq_start rstate curr_offset].
      rewrite u32_id by (unfold is_u32; lia).
      replace (1 <=? num_repeats c + 1) with true by lia. replace (seq_count c =? num_repeats c + 1) with true by lia. cbn [andb].
      eexists _, segs, (pend ++ [b]). split; [reflexivity|].
      unfold out_of. cbn [bind total_rle_size write_info last_byte seq_start rstate seq_count num_repeats curr_offset set_state set_nr set_sc].
      rewrite Hwi. cbn [w_available rle_no_write]. rewrite app_nil_r.
      constructor; cbn [bind total_rle_size write_info last_byte seq_start rstate seq_count num_repeats curr_offset set_state set_nr set_sc]; try assumption.
      * rewrite Ip. now rewrite <- app_assoc.
      * rewrite u32_id by (unfold is_u32; lia). zl.
      * rewrite u32_id by (unfold is_u32; lia). zl.
      * split; [|lia]. rewrite Hpend. replace b with (last_byte c) by lia. now rewrite <- repeat_snoc by lia.
    + set (d := set_nr c 0).
      assert (Id : inv p ws segs pend (set_nr c (num_repeats c))) by (destruct c; exact I).
      destruct (change_rep p ws segs pend c I Es ltac:(lia)) as (w & c' & Ec & Ew & Ea & Et & Ess & Esc & Enr & Ecur & El & Est & Hx & Hws & Hsum & Hin).
      assert (Ec' : rle_change d = Some (set_nr c' 0)).
      { unfold rle_change in *. unfold d. cbn [set_nr rstate seq_count total_rle_size last_byte curr_offset seq_start num_repeats]. rewrite Es in *.
        destruct (varint_si32 (s32 (seq_count c))); [|discriminate]. cbn [bind] in *. injection Ec as <-. reflexivity. }
      rewrite Ec'. cbn [bind set_state set_nr num_repeats seq_count total_rle_size write_info last_byte seq_start rstate curr_offset].
      change (1 <=? 0) with false. cbn [andb].
      eexists _, _, [b]. split; [reflexivity|].
      unfold out_of. cbn [bind total_rle_size write_info last_byte seq_start rstate seq_count num_repeats curr_offset set_state set_nr set_sc].
      rewrite Ew, Ea. cbv zeta in Hx.
      constructor; cbn [bind total_rle_size write_info last_byte seq_start rstate seq_count num_repeats curr_offset set_state set_nr set_sc]; try eassumption.
      * now rewrite Hx.
      * rewrite Esc. reflexivity.
      * rewrite Hx. lia.
      * rewrite Ecur. rewrite u32_id by (unfold is_u32; lia). zl.
      * now rewrite Hx.
      * now rewrite Hx.
      * exists []. repeat split; lia.
  - (* non-repeat state *)
    destruct Ist as (q & Hpend & Hnr & Hq).
    assert (Lpend : zlen pend = zlen q + num_repeats c + 1) by (rewrite Hpend, zlen_app, zlen_repeat; lia).
    pose proof (zlen_nonneg q).
    replace (curr_offset c =? 0) with false by lia. cbn [negb andb].
    destruct (last_byte c =? b) eqn:Eb; cbn [andb].
    + cbn [set_nr num_repeats]. rewrite u32_id by (unfold is_u32; lia).
      destruct (2 <=? num_repeats c + 1) eqn:E2.
      * (* a run of three: flush the literals before it *)
        assert (Hq' : q <> []) by (intros ->; specialize (Hq eq_refl); lia).
        assert (Hn1 : num_repeats c = 1) by lia.
        set (cc := set_nr c (num_repeats c + 1)).
        change (seq_count cc) with (seq_count c).
        replace (u32 (seq_count c - (num_repeats c + 1))) with (zlen q) by (rewrite u32_id; unfold is_u32; lia).
        destruct (change_lit p ws segs pend c q (repeat (last_byte c) (Z.to_nat (num_repeats c + 1))) I Hpend Hq' ltac:(lia) _ eq_refl)
          as (w & c' & Ec & Ew & Ea & Et & Ess & Esc & Enr & Ecur & El & Est & Hx & Hws & Hsum & Hin); [exact Es|].
        assert (Ec' : rle_change (set_sc cc (zlen q)) =
           Some (mk_rle (total_rle_size c') (write_info c') (last_byte c') (u32 (curr_offset c - (num_repeats c + 1))) (rstate c')
                   (num_repeats c + 1) (num_repeats c + 1) (curr_offset c'))).
        { unfold rle_change in *. unfold cc. cbn [set_sc set_nr rstate seq_count total_rle_size last_byte curr_offset seq_start num_repeats] in *. rewrite Es in *.
          destruct (varint_si32 (s32 (u32 (- zlen q)))); [|discriminate]. cbn [bind] in *. injection Ec as <-. reflexivity. }
        rewrite Ec'. cbn [bind set_state set_nr num_repeats seq_count total_rle_size write_info last_byte seq_start rstate curr_offset].
        rewrite Z.eqb_refl. replace (1 <=? num_repeats c + 1) with true by lia. cbn [andb].
        eexists _, (segs ++ [Lit q]), (repeat (last_byte c) (Z.to_nat (num_repeats c + 1)) ++ [b]). split; [reflexivity|].
        unfold out_of. cbn [bind total_rle_size write_info last_byte seq_start rstate seq_count num_repeats curr_offset set_state set_nr set_sc].
        rewrite Ew, Ea. cbv zeta in Hx.
        assert (HL : zlen (exp_all (segs ++ [Lit q])) = zlen p - 2).
        { apply (f_equal zlen) in Hx. rewrite zlen_app, zlen_repeat in Hx by lia. lia. }
        constructor; cbn [bind total_rle_size write_info last_byte seq_start rstate seq_count num_repeats curr_offset set_state set_nr set_sc]; try assumption.
        -- rewrite Hx at 1. now rewrite <- app_assoc.
        -- rewrite u32_id by (unfold is_u32; lia). rewrite zlen_app, zlen_repeat by lia. zl.
        -- rewrite u32_id by (unfold is_u32; lia). lia.
        -- rewrite Ecur. rewrite u32_id by (unfold is_u32; lia). zl.
        -- split; [|lia]. replace b with (last_byte c) by lia. now rewrite <- repeat_snoc by lia.
      * assert (Hn0 : num_repeats c = 0) by lia.
        cbn [bind set_state set_nr num_repeats seq_count total_rle_size write_info last_byte seq_start rstate curr_offset].
        replace (1 <=? num_repeats c + 1) with true by lia. cbn [andb].
        eexists _, segs, (pend ++ [b]). split; [reflexivity|].
        unfold out_of.
        replace (write_info (if seq_count c =? num_repeats c + 1 then set_state (set_nr c (num_repeats c + 1)) RRepeat else set_nr c (num_repeats c + 1))) with rle_no_write
          by (destruct (seq_count c =? num_repeats c + 1); symmetry; exact Hwi).
        cbn [bind total_rle_size write_info last_byte seq_start rstate seq_count num_repeats curr_offset set_state set_nr set_sc].
        cbn [w_available rle_no_write]. rewrite app_nil_r.
        assert (HB : pend ++ [b] = q ++ repeat b (Z.to_nat (num_repeats c + 1 + 1))).
        { rewrite Hpend. replace (last_byte c) with b by lia. rewrite <- app_assoc. f_equal. now rewrite <- repeat_snoc by lia. }
        constructor; cbn [bind total_rle_size write_info last_byte seq_start rstate seq_count num_repeats curr_offset set_state set_nr set_sc]; try assumption.
        -- rewrite Ip. now rewrite <- app_assoc.
        -- destruct (seq_count c =? num_repeats c + 1); cbn [set_state set_nr seq_count]; (rewrite u32_id by (unfold is_u32; lia)); zl.
        -- destruct (seq_count c =? num_repeats c + 1); exact Iss.
        -- destruct (seq_count c =? num_repeats c + 1); cbn [set_state set_nr curr_offset]; (rewrite u32_id by (unfold is_u32; lia)); zl.
        -- destruct (seq_count c =? num_repeats c + 1); exact Itot.
        -- destruct (seq_count c =? num_repeats c + 1) eqn:Eq; cbn [set_state set_nr rstate num_repeats].
           ++ split; [|lia]. rewrite HB. assert (q = []) as -> by (destruct q; [reflexivity|zl]). reflexivity.
           ++ rewrite Es. exists q. split; [exact HB|]. split; [lia|]. intros ->. zl.
    + cbn [bind set_state set_nr num_repeats seq_count total_rle_size write_info last_byte seq_start rstate curr_offset].
      change (1 <=? 0) with false. cbn [andb].
      eexists _, segs, (pend ++ [b]). split; [reflexivity|].
      unfold out_of. cbn [bind total_rle_size write_info last_byte seq_start rstate seq_count num_repeats curr_offset set_state set_nr set_sc].
      rewrite Hwi. cbn [w_available rle_no_write]. rewrite app_nil_r.
      constructor; cbn [bind total_rle_size write_info last_byte seq_start rstate seq_count num_repeats curr_offset set_state set_nr set_sc]; try assumption.
      * rewrite Ip. now rewrite <- app_assoc.
      * rewrite u32_id by (unfold is_u32; lia). zl.
      * rewrite u32_id by (unfold is_u32; lia). zl.
      * rewrite Es. exists pend. repeat split; try lia.
Qed.

Lemma bytes_run_ok l : forall p ws segs pend c, inv p ws segs pend c -> zlen p + zlen l < 2147483648 ->
  exists ws' c' segs' pend', bytes_run c l = Some (ws', c') /\ inv (p ++ l) (ws ++ ws') segs' pend' c'.
Proof.
  induction l as [|b l IH]; intros p ws segs pend c I Hl; cbn [bytes_run].
  - exists [], c, segs, pend. rewrite !app_nil_r. auto.
  - rewrite zlen_cons in Hl. pose proof (zlen_nonneg l).
    destruct (byte_step p ws segs pend (core c) b (inv_core _ _ _ _ _ I) eq_refl ltac:(lia)) as (c1 & segs1 & pend1 & E1 & I1).
    rewrite E1. cbn [bind].
    destruct (IH (p ++ [b]) (ws ++ out_of c1) segs1 pend1 (core c1) (inv_core _ _ _ _ _ I1) ltac:(zl)) as (ws' & c' & segs' & pend' & E' & I').
    rewrite E'. cbn [bind fst snd]. exists (out_of c1 ++ ws'), c', segs', pend'. split; [reflexivity|].
    rewrite <- !app_assoc in I'. exact I'.
Qed.

(** ** Call-level view *)
Lemma bytes_run_app a : forall b c, bytes_run c (a ++ b) =
  do x <- bytes_run c a; do y <- bytes_run (snd x) b; Some (fst x ++ fst y, snd y).
Proof.
  induction a as [|x a IH]; intros b c; cbn [app bytes_run].
  - cbn [bind fst snd]. destruct (bytes_run c b) as [[? ?]|]; reflexivity.
  - destruct (rle_byte (core c) x) as [c1|]; [|reflexivity]. cbn [bind]. rewrite IH.
    destruct (bytes_run (core c1) a) as [[w1 c2]|]; [|reflexivity]. cbn [bind fst snd].
    destruct (bytes_run c2 b) as [[w2 c3]|]; [|reflexivity]. cbn [bind fst snd]. now rewrite app_assoc.
Qed.
Lemma bytes_run_core c l : bytes_run (core c) l = match l with [] => Some ([], core c) | _ => bytes_run c l end.
Proof. destruct l; reflexivity. Qed.

(** A byte that reports no write leaves [write_info] alone. *)
Lemma loop_ok buf : forall c p ws segs pend, inv p ws segs pend c -> write_info c = rle_no_write ->
  buf <> [] -> zlen p + zlen buf < 2147483648 ->
  exists c' n, rle_loop c buf = Some c' /\ 0 < n <= zlen buf /\ curr_offset c' = zlen p + n /\
     option_map (fun x => (fst x, core (snd x))) (bytes_run c (take n buf)) = Some (out_of c', core c').
Proof.
  induction buf as [|b buf IH]; intros c p ws segs pend I Hwi Hne Hl; [congruence|].
  rewrite zlen_cons in Hl. pose proof (zlen_nonneg buf).
  assert (Hcore : core c = c) by (destruct c; cbn in *; now subst).
  destruct (byte_step p ws segs pend c b I Hwi ltac:(lia)) as (c1 & segs1 & pend1 & E1 & I1).
  cbn [rle_loop]. rewrite E1. cbn [bind].
  destruct (w_available (write_info c1)) eqn:Ea.
  - exists c1, 1. split; [reflexivity|]. split; [zl|]. split; [rewrite (iv_cur _ _ _ _ _ I1); zl|].
    change (take 1 (b :: buf)) with [b]. cbn [bytes_run]. rewrite Hcore, E1. cbn [bind fst snd option_map].
    now rewrite app_nil_r.
  - assert (Hout : out_of c1 = []) by (unfold out_of; now rewrite Ea).
    assert (Hwi1 : write_info c1 = rle_no_write).
    { clear - E1 Ea Hwi. unfold rle_byte in E1. binv E1. injection E1 as <-. cbn [write_info] in *.
      assert (HC : forall d e, rle_change d = Some e -> w_available (write_info e) = true).
      { intros d e. unfold rle_change. destruct (varint_si32 _); [|discriminate]. cbn [bind].
        destruct (rstate d); injection 1 as <-; reflexivity. }
      assert (Hif : forall (t : bool), write_info (if t then set_state v RRepeat else v) = write_info v) by (now intros [|]).
      rewrite Hif in *.
      cbn [set_nr rstate] in E. destruct (rstate c).
      - injection E as <-. cbn [set_state write_info set_nr]. assumption.
      - destruct (negb (curr_offset c =? 0) && (last_byte c =? b)).
        + cbn [bind] in E. injection E as <-. assumption.
        + binv E. injection E as <-. cbn [set_state write_info] in *. apply HC in E0. congruence.
      - destruct (_ && (2 <=? _)).
        + apply HC in E. congruence.
        + injection E as <-. assumption. }
    destruct buf as [|b2 buf].
    + exists c1, 1. split; [reflexivity|]. split; [zl|]. split; [rewrite (iv_cur _ _ _ _ _ I1); zl|].
      change (take 1 [b]) with [b]. cbn [bytes_run]. rewrite Hcore, E1. cbn [bind fst snd option_map]. now rewrite app_nil_r.
    + rewrite Hout, app_nil_r in I1.
      destruct (IH c1 (p ++ [b]) ws segs1 pend1 I1 Hwi1 ltac:(congruence) ltac:(zl)) as (c' & n & El & Hn & Hc & Hr).
      exists c', (1 + n). split; [exact El|]. split; [zl|]. split; [rewrite Hc; zl|].
      assert (Et : take (1 + n) (b :: b2 :: buf) = b :: take n (b2 :: buf)).
      { change (b :: b2 :: buf) with ([b] ++ (b2 :: buf)). rewrite take_app_ge by zl.
        replace (1 + n - zlen [b]) with n by zl. reflexivity. }
      rewrite Et. cbn [bytes_run]. rewrite Hcore, E1. cbn [bind]. rewrite Hout.
      rewrite bytes_run_core. assert (Hne2 : exists z l, take n (b2 :: buf) = z :: l).
      { destruct (take n (b2 :: buf)) eqn:Ez; [apply (f_equal zlen) in Ez; rewrite zlen_take in Ez; zl|eauto]. }
      destruct Hne2 as (z & l & Ez). rewrite Ez in *.
      destruct (bytes_run c1 (z :: l)) as [[w2 c2]|]; [|discriminate]. cbn [bind fst snd option_map app] in *. exact Hr.
Qed.

Lemma bytes_run_core_eq c l : option_map (fun x => (fst x, core (snd x))) (bytes_run (core c) l)
  = option_map (fun x => (fst x, core (snd x))) (bytes_run c l).
Proof. destruct l; [reflexivity|]. now rewrite bytes_run_core. Qed.

(** Feeding a piece equals running over its bytes, up to [write_info]. *)
Lemma feed_ok fuel : forall piece c p ws segs pend, inv p ws segs pend c -> (length piece <= fuel)%nat ->
  zlen p + zlen piece < 2147483648 ->
  exists ws' c', rle_feed fuel c piece = Some (ws', c') /\
    option_map (fun x => (fst x, core (snd x))) (bytes_run c piece) = Some (ws', core c').
Proof.
  induction fuel as [|fuel IH]; intros piece c p ws segs pend I Hf Hl.
  - destruct piece; [|cbn in Hf; lia]. exists [], c. split; reflexivity.
  - destruct piece as [|b r] eqn:Epiece; [exists [], c; split; reflexivity|]. rewrite <- Epiece in *.
    assert (Hlen : 0 < zlen piece) by (rewrite Epiece; zl).
    assert (Hne : piece <> []) by (rewrite Epiece; congruence).
    replace (rle_feed (S fuel) c piece) with
      (do x <- rle_encode c piece; let (n, c') := x in do y <- rle_feed fuel c' (drop n piece);
          Some (out_of c' ++ fst y, snd y)) by (rewrite Epiece; reflexivity).
    unfold rle_encode. replace (zlen piece =? 0) with false by lia. fold (core c).
    destruct (loop_ok piece (core c) p ws segs pend (inv_core _ _ _ _ _ I) eq_refl Hne Hl) as (c1 & n & El & Hn & Hc & Hr).
    rewrite El. cbn [bind].
    replace (u32 (curr_offset c1 - curr_offset c)) with n
      by (rewrite Hc, (iv_cur _ _ _ _ _ I), u32_id; unfold is_u32; znn; lia).
    (* invariant after the consumed prefix *)
    destruct (bytes_run_ok (take n piece) p ws segs pend c I ltac:(zl)) as (ws1 & c1' & segs1 & pend1 & Eb & I1).
    assert (Hcc : ws1 = out_of c1 /\ core c1' = core c1).
    { rewrite bytes_run_core_eq, Eb in Hr. cbn [option_map fst snd] in Hr. split; congruence. }
    destruct Hcc as [-> Hcc].
    assert (I1' : inv (p ++ take n piece) (ws ++ out_of c1) segs1 pend1 c1).
    { destruct c1, c1'. cbn in Hcc. injection Hcc; intros; subst. destruct I1; constructor; assumption. }
    destruct (IH (drop n piece) c1 _ _ _ _ I1') as (ws2 & c2 & E2 & R2).
    { unfold drop. rewrite skipn_length. lia. }
    { zl. }
    rewrite E2. cbn [bind fst snd]. exists (out_of c1 ++ ws2), c2. split; [reflexivity|].
    rewrite <- (take_drop n piece) at 1. rewrite bytes_run_app, Eb. cbn [bind fst snd].
    assert (R2' : option_map (fun x => (fst x, core (snd x))) (bytes_run c1' (drop n piece)) = Some (ws2, core c2)).
    { rewrite <- bytes_run_core_eq, Hcc, bytes_run_core_eq. exact R2. }
    destruct (bytes_run c1' (drop n piece)) as [[w3 c3]|]; [|discriminate]. cbn [bind fst snd option_map] in *. congruence.
Qed.

Lemma inv_core_eq p ws segs pend c c' : core c = core c' -> inv p ws segs pend c -> inv p ws segs pend c'.
Proof. intros E I. destruct c, c'. cbn in E. injection E; intros; subst. destruct I; constructor; assumption. Qed.

Lemma feed_all_ok pieces : forall c p ws segs pend, inv p ws segs pend c ->
  zlen p + zlen (concat pieces) < 2147483648 ->
  exists ws' c' segs' pend', rle_feed_all c pieces = Some (ws', c') /\
    inv (p ++ concat pieces) (ws ++ ws') segs' pend' c' /\
    option_map (fun x => (fst x, core (snd x))) (bytes_run c (concat pieces)) = Some (ws', core c').
Proof.
  induction pieces as [|x pieces IH]; intros c p ws segs pend I Hl; cbn [rle_feed_all concat].
  - exists [], c, segs, pend. rewrite !app_nil_r. auto.
  - cbn [concat] in Hl. rewrite zlen_app in Hl. pose proof (zlen_nonneg (concat pieces)).
    destruct (feed_ok (length x) x c p ws segs pend I ltac:(lia) ltac:(lia)) as (ws1 & c1 & E1 & R1).
    destruct (bytes_run_ok x p ws segs pend c I ltac:(lia)) as (ws1' & c1' & segs1 & pend1 & Eb & I1).
    rewrite Eb in R1. cbn [option_map fst snd] in R1.
    assert (Hcc : core c1' = core c1) by congruence. assert (ws1' = ws1) as -> by congruence.
    pose proof (inv_core_eq _ _ _ _ _ _ Hcc I1) as I1'.
    rewrite E1. cbn [bind fst snd].
    destruct (IH c1 _ _ _ _ I1' ltac:(zl)) as (ws2 & c2 & segs2 & pend2 & E2 & I2 & R2).
    rewrite E2. cbn [bind fst snd]. exists (ws1 ++ ws2), c2, segs2, pend2. split; [reflexivity|].
    rewrite <- !app_assoc in I2. split; [exact I2|].
    rewrite bytes_run_app, Eb. cbn [bind fst snd].
    assert (R2' : option_map (fun x => (fst x, core (snd x))) (bytes_run c1' (concat pieces)) = Some (ws2, core c2)).
    { rewrite <- bytes_run_core_eq, Hcc, bytes_run_core_eq. exact R2. }
    destruct (bytes_run c1' (concat pieces)) as [[w3 c3]|]; [|discriminate]. cbn [bind fst snd option_map] in *. congruence.
Qed.

(** The final flush. *)
Lemma finalize_ok p ws segs pend c : inv p ws segs pend c -> zlen p < 2147483648 ->
  exists c' s, rle_finalize c = Some c' /\ ws_ok 0 (segs ++ [s]) (ws ++ [write_info c']) /\ exp_all (segs ++ [s]) = p /\
    total_rle_size c' = sumsz (ws ++ [write_info c']) /\
    w_start (write_info c') + w_len (write_info c') <= zlen p /\ 0 <= w_start (write_info c') /\
    1 <= zlen (w_header (write_info c')) <= 5 /\ (p <> [] -> 1 <= w_len (write_info c')).
Proof.
  intros I Hp. unfold rle_finalize. pose proof I as [Ip Iw Isc Iss Icur Itot Ibnd Iin Ist].
  destruct (rstate c) eqn:Es.
  - (* nothing fed: an empty literal *)
    rewrite Ist in *. symmetry in Ip. apply app_eq_nil in Ip as [HD ->].
    rewrite HD in *. change (zlen (@nil Z)) with 0 in *. change (zlen (@nil Z)) with 0 in Isc.
    unfold rle_change. rewrite Es, Isc. change (s32 (u32 (- 0))) with 0.
    change (varint_si32 0) with (Some [0]). cbn [bind].
    eexists _, (Lit []). split; [reflexivity|]. cbn [write_info total_rle_size w_start w_len w_header].
    split; [apply ws_ok_app; [assumption|]; cbn; exists [0]; rewrite HD, Iss; change (zlen (@nil Z)) with 0; repeat split; lia|].
    split; [rewrite exp_all_app, HD; reflexivity|].
    rewrite sumsz_app. cbn [sumsz fold_right w_header w_len]. fold (sumsz ws). rewrite Itot.
    replace (sumsz ws) with 0 by lia. rewrite Iss. change (zlen [0]) with 1.
    split; [reflexivity|]. split; [lia|]. split; [lia|]. split; [lia|]. congruence.
  - destruct (change_rep p ws segs pend c I Es Hp) as (w & c' & Ec & Ew & Ea & Et & Ess & Esc & Enr & Ecur & El & Est & Hx & Hws & Hsum & Hin).
    subst w. exists c', (Run (last_byte c) (seq_count c)). cbv zeta in Hx. split; [exact Ec|]. split; [exact Hws|]. split; [exact Hx|].
    split; [exact Et|]. apply Forall_app in Hin as [_ Hin]. inv Hin. lia.
  - destruct Ist as (q & Hpend & Hnr & Hq).
    assert (Hne : pend <> []).
    { intros E. rewrite E in Hpend. apply (f_equal zlen) in Hpend. rewrite zlen_app, zlen_repeat in Hpend by lia. zl. }
    destruct (change_lit p ws segs pend c pend [] I ltac:(now rewrite app_nil_r) Hne Hp _ eq_refl) 
      as (w & c' & Ec & Ew & Ea & Et & Ess & Esc & Enr & Ecur & El & Est & Hx & Hws & Hsum & Hin); [exact Es|].
    assert (Hc : set_sc c (zlen pend) = c) by (destruct c; cbn in *; now subst).
    rewrite Hc in Ec. subst w. exists c', (Lit pend). cbv zeta in Hx. rewrite app_nil_r in Hx.
    split; [exact Ec|]. split; [exact Hws|]. split; [now symmetry|]. split; [exact Et|].
    apply Forall_app in Hin as [_ Hin]. inv Hin. cbv beta in *. rewrite Hx. lia.
Qed.

Lemma rle_run_ok pieces : zlen (concat pieces) < 2147483648 ->
  exists ws c s, rle_run pieces = Some (ws, c) /\ rle_emit_all (concat pieces) ws = Some s /\
    rle_decode s = Some (concat pieces) /\ total_rle_size c = zlen s.
Proof.
  intros Hl. unfold rle_run.
  destruct (feed_all_ok pieces rle_init [] [] [] [] inv_init ltac:(rewrite zlen_nil; lia)) as (ws & c & segs & pend & E & I & R).
  rewrite E. cbn [bind fst snd]. cbn [app] in I.
  destruct (finalize_ok _ _ _ _ _ I Hl) as (c' & s & Ef & Hws & Hx & Ht & _).
  rewrite Ef. cbn [bind].
  destruct (decode_ok _ 0 _ [] [] Hws eq_refl) as (str & Es & Ls & Hd).
  rewrite Hx in *. cbn [app] in Es. rewrite app_nil_r in Es.
  exists (ws ++ [write_info c']), c', str. split; [reflexivity|]. split; [exact Es|].
  split; [|lia]. apply Hd. reflexivity.
Qed.

(** The writes do not depend on how the stream is cut. *)
Lemma rle_split_indep p1 p2 : concat p1 = concat p2 -> zlen (concat p1) < 2147483648 -> rle_run p1 = rle_run p2.
Proof.
  intros Hc Hl. unfold rle_run.
  destruct (feed_all_ok p1 rle_init [] [] [] [] inv_init ltac:(rewrite zlen_nil; lia)) as (ws1 & c1 & s1 & d1 & E1 & _ & R1).
  destruct (feed_all_ok p2 rle_init [] [] [] [] inv_init ltac:(rewrite zlen_nil, <- Hc; lia)) as (ws2 & c2 & s2 & d2 & E2 & _ & R2).
  rewrite E1, E2. cbn [bind fst snd]. rewrite Hc, R2 in R1.
  assert (Hcore : core c1 = core c2) by congruence. assert (ws2 = ws1) as -> by congruence. clear R1 R2.
  assert (HF : rle_finalize c1 = rle_finalize c2).
  { unfold rle_finalize, rle_change. destruct c1, c2; cbn in *; injection Hcore; intros; subst. reflexivity. }
  now rewrite HF.
Qed.

(** Every write reported while feeding lies within what has been fed, is non-empty and has a
    header of 1 to 5 bytes; likewise the final one. *)
Lemma rle_writes_in_bounds pieces : zlen (concat pieces) < 2147483648 ->
  exists ws c c', rle_feed_all rle_init pieces = Some (ws, c) /\ rle_finalize c = Some c' /\
    Forall (fun w => 1 <= w_len w /\ 0 <= w_start w /\ w_start w + w_len w <= zlen (concat pieces) /\ 1 <= zlen (w_header w) <= 5) ws /\
    (let w := write_info c' in 0 <= w_start w /\ w_start w + w_len w <= zlen (concat pieces) /\ 1 <= zlen (w_header w) <= 5 /\
        (concat pieces <> [] -> 1 <= w_len w)).
Proof.
  intros Hl.
  destruct (feed_all_ok pieces rle_init [] [] [] [] inv_init ltac:(rewrite zlen_nil; lia)) as (ws & c & segs & pend & E & I & R).
  cbn [app] in I. destruct (finalize_ok _ _ _ _ _ I Hl) as (c' & s & Ef & _ & _ & _ & H1 & H2 & H3 & H4).
  exists ws, c, c'. split; [exact E|]. split; [exact Ef|]. split; [|cbv zeta; tauto].
  pose proof (iv_in _ _ _ _ _ I) as Hin. pose proof (iv_p _ _ _ _ _ I) as Hp.
  assert (Lp : zlen (exp_all segs) <= zlen (concat pieces)) by (rewrite Hp; zl).
  eapply Forall_impl; [|exact Hin]. cbv beta. intros. lia.
Qed.
