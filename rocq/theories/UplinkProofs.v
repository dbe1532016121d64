From Verif Require Import Base Varint VarintSpec VarintProofs Crc16 Crc16Spec Crc16Proofs ChunkTransport ChunkSpec ChunkProofs ChunkDrain
  Packetizer PacketizerSpec PacketizerProofs Uplink UplinkSpec.

(* ------------------------------------------------------------ the receiver *)
Lemma cloud_app a : forall st b, cloud st (a ++ b) = let (s1, x) := cloud st a in let (s2, y) := cloud s1 b in (s2, x ++ y).
Proof.
  induction a as [|c a IH]; intros st b; cbn [cloud app]; [now destruct (cloud st b)|].
  destruct (cloud_step st c) as [s1 x]. rewrite IH. destruct (cloud s1 a) as [s2 y]. destruct (cloud s2 b) as [s3 z]. now rewrite app_assoc.
Qed.
Lemma rest_cloud cs : forall t acc p crc, rest_of_message acc cs = Some (p, crc) -> zlen p = t -> cloud (Some (t, acc)) cs = (None, [(p, crc)]).
Proof.
  induction cs as [|c cs IH]; intros t acc p crc H L; cbn [rest_of_message] in H; [discriminate|]. cbn [cloud]. unfold cloud_step.
  destruct (parse_chunk c) as [[cont md num d kcrc]|]; [|discriminate].
  destruct cont; [|discriminate]. destruct md.
  - destruct num as [off|]; [|discriminate]. destruct kcrc; [discriminate|]. destruct (off =? zlen acc); [|discriminate].
    rewrite (IH _ _ _ _ H L). reflexivity.
  - destruct num as [off|]; [|discriminate]. destruct kcrc as [k|]; [|discriminate]. destruct cs; [|discriminate].
    destruct (off =? zlen acc); [|discriminate]. injection H as <- <-. cbn [andb]. rewrite L, Z.eqb_refl. reflexivity.
Qed.
Lemma receive_cloud cs p crc st : receive cs = Some (p, crc) -> cloud st cs = (None, [(p, crc)]).
Proof.
  intros H. destruct cs as [|c cs]; cbn [receive] in H; [discriminate|]. cbn [cloud]. unfold cloud_step.
  destruct (parse_chunk c) as [[cont md num d kcrc]|]; [|discriminate]. destruct cont; [discriminate|]. destruct md.
  - destruct num as [t|]; [|discriminate]. destruct kcrc; [discriminate|].
    destruct (rest_of_message d cs) as [[m k]|] eqn:E; [|discriminate]. destruct (zlen m =? t) eqn:L; [|discriminate]. injection H as <- <-.
    rewrite (rest_cloud cs t d m k E) by lia. reflexivity.
  - destruct num; [discriminate|]. destruct kcrc as [k|]; [|discriminate]. destruct cs; [|discriminate]. injection H as <- <-. reflexivity.
Qed.

Section Silent.
Variable msg : list Z.
Hypothesis Hb : bytes msg.
Hypothesis Hsz : zlen msg < 4294967293.
Lemma drain_cont_silent bufs : forall c outs reads c' t, cwf msg c -> Forall (fun b => small (zlen b)) bufs ->
  ct_multi c = false -> 0 < ct_offset c ->
  ct_drain (read_at msg) c bufs = Some (outs, false, reads, c') ->
  snd (cloud (Some (t, take (ct_offset c) msg)) (filter nonempty outs)) = [].
Proof.
  induction bufs as [|b bufs IH]; intros c outs reads c' t W F M H0 H; cbn [ct_drain] in H; [now inv H|]. inv F.
  destruct (zlen b <? 9) eqn:E9.
  - rewrite ct_next_small in H by lia. cbn [bind co_more co_len co_buf co_ctx co_reads] in H. rewrite take_0 in H.
    apply bind_inv in H; destruct H as (x & Hx & H). destruct x as [[[outs1 fin1] reads1] c1]. inv H. cbn [filter]. eapply IH; eauto.
  - destruct (ct_next_ok msg Hb Hsz c b (zlen b) W) as (more & k & vi & crc & out & Ev & Ec & Eo & K0 & K1 & Lo & Mk & Mf & Mi & En); [lia|lia|assumption|].
    rewrite En in H. cbn [bind co_more co_len co_buf co_ctx co_reads] in H. rewrite take_app_exact in H by reflexivity.
    unfold out_head in Eo. replace (ct_offset c =? 0) with false in * by lia. rewrite M in *.
    destruct (varint_u32_correct (ct_offset c)) as (e & Ee & _ & _ & Hr & _); [unfold is_u32; destruct W; lia|].
    assert (e = vi) by congruence. subst e. clear Ee.
    assert (Hne : nonempty out = true) by (rewrite Eo; unfold nonempty; cbn [app]; rewrite zlen_cons; zl).
    assert (Ho : ct_offset c =? zlen (take (ct_offset c) msg) = true) by (destruct W; rewrite zlen_take; lia).
    destruct W as [W1 W2 W3]. destruct more; [|discriminate].
    apply bind_inv in H; destruct H as (x & Hx & H). destruct x as [[[outs1 fin1] reads1] c1]. inv H.
    eapply (IH _ _ _ _ t) in Hx; [|constructor; cbn; [exact W1|lia|exact Ec]|assumption|reflexivity|cbn; lia].
    cbn [filter]. rewrite Hne. cbn [cloud app]. unfold cloud_step. rewrite app_nil_r, (parse_cont _ _ _ Hr), Ho.
    rewrite <- take_plus by lia. cbn [ct_offset] in Hx. destruct (cloud _ (filter nonempty outs1)). exact Hx.
Qed.
Lemma drain_silent bufs : forall c outs reads c' st, cwf msg c -> Forall (fun b => small (zlen b)) bufs ->
  ct_multi c = false -> ct_offset c = 0 ->
  ct_drain (read_at msg) c bufs = Some (outs, false, reads, c') ->
  snd (cloud st (filter nonempty outs)) = [].
Proof.
  induction bufs as [|b bufs IH]; intros c outs reads c' st W F M H0 H; cbn [ct_drain] in H; [now inv H|]. inv F.
  destruct (zlen b <? 9) eqn:E9.
  - rewrite ct_next_small in H by lia. cbn [bind co_more co_len co_buf co_ctx co_reads] in H. rewrite take_0 in H.
    apply bind_inv in H; destruct H as (x & Hx & H). destruct x as [[[outs1 fin1] reads1] c1]. inv H. cbn [filter]. eapply IH; eauto.
  - destruct (ct_next_ok msg Hb Hsz c b (zlen b) W) as (more & k & vi & crc & out & Ev & Ec & Eo & K0 & K1 & Lo & Mk & Mf & Mi & En); [lia|lia|assumption|].
    rewrite En in H. cbn [bind co_more co_len co_buf co_ctx co_reads] in H. rewrite take_app_exact in H by reflexivity.
    unfold out_head in Eo. rewrite H0 in *. change (0 =? 0) with true in *. rewrite M in *. cbn [andb negb] in Eo. rewrite drop_0 in *.
    destruct (varint_u32_correct (zlen msg)) as (e & Ee & _ & _ & Hr & _); [unfold is_u32; zl|].
    assert (e = vi) by congruence. subst e. clear Ee. rewrite Z.add_0_l in *.
    assert (Hne : nonempty out = true) by (rewrite Eo; unfold nonempty; cbn [app]; rewrite zlen_cons; zl).
    destruct more; [|discriminate]. cbn [andb negb app] in Eo.
    specialize (Mk eq_refl). apply bind_inv in H; destruct H as (x & Hx & H). destruct x as [[[outs1 fin1] reads1] c1]. inv H.
    apply (drain_cont_silent _ _ _ _ _ (zlen msg)) in Hx; [|constructor; cbn; [apply W|lia|exact Ec]|assumption|reflexivity|cbn; lia].
    cbn [filter]. rewrite Hne. cbn [cloud]. unfold cloud_step. rewrite app_nil_r, (parse_first _ _ _ Hr). cbn [ct_offset] in Hx.
    destruct (cloud _ (filter nonempty outs1)). exact Hx.
Qed.
End Silent.
Lemma flight_silent cfg q mask pm f st : fl_ok cfg q mask pm f -> msg_ok cfg (f_src f) (f_msg f) -> f_multi f = false -> snd (cloud st (f_outs f)) = [].
Proof.
  intros F [Mb Ms] Hm. destruct (fo_drain _ _ _ _ _ F) as (bufs & outs & reads & D1 & D2 & D3). rewrite D2. rewrite Hm in D3.
  eapply drain_silent; [exact Mb|exact Ms|apply cwf_info|exact D1|reflexivity|reflexivity|exact D3].
Qed.

Section Generic.
Context {W A O Re : Type}.
Variables (so : sources W) (cfg : up_cfg) (app : W -> O -> option (Re * W)) (dev : device A O Re).
Variable rel : option (src * Z) -> W -> A -> Prop.
Hypothesis K : keeps_contract so cfg app dev rel.
Notation ucfg := (u_cfg cfg).
Notation vw := (view dev).

Lemma view_q a s : q_of (vw a) s = match offer dev s a with Some m => [m] | None => [] end.
Proof. now destruct s. Qed.
Lemma view_ext a a' : (forall s, offer dev s a' = offer dev s a) -> vw a' = vw a.
Proof. intros H. unfold view. now rewrite !H. Qed.
Lemma view_ok f w a : rel f w a -> queues_ok ucfg (vw a).
Proof.
  intros H s. rewrite view_q. destruct (offer dev s a) as [m|] eqn:E; [|constructor]. constructor; [|constructor]. exact (k_ok _ _ _ _ _ K _ _ _ _ _ H E).
Qed.
Lemma ubody s m : body ucfg s m = m.
Proof. unfold body, u_cfg. cbn [cfg_rle]. destruct s, (uc_rle cfg); reflexivity. Qed.
Lemma uhdr_size : up_hdr_size cfg = pk_hdr_size ucfg. Proof. reflexivity. Qed.
Lemma uhdr s r : up_hdr cfg s r = pk_hdr ucfg s r. Proof. reflexivity. Qed.
Lemma urle s : is_rle ucfg s = src_use_rle s && uc_rle cfg.
Proof. unfold is_rle, u_cfg. cbn [cfg_rle]. now destruct (uc_rle cfg). Qed.

(* ------------------------------------------------------------ choosing a source *)
Lemma find_up mask table : forall w a, rel None w a ->
  exists w', up_find so cfg w mask table = Some (fst (pk_find ucfg (vw a) mask table), w', snd (pk_find ucfg (vw a) mask table)) /\
    let a' := effects dev a (snd (pk_find ucfg (vw a) mask table)) in
    (forall s, offer dev s a' = offer dev s a) /\ rel None w' a' /\
    match fst (pk_find ucfg (vw a) mask table) with Some (s, _, _) => rel (Some (s, 0)) w' a' | None => True end.
Proof.
  induction table as [|s table IH]; intros w a H; cbn [up_find pk_find].
  - exists w. split; [reflexivity|]. cbn. auto.
  - destruct (Z.land (Z.shiftl 1 (src_type s)) mask =? 0); [apply IH; exact H|].
    destruct (k_has _ _ _ _ _ K s w a H) as (w1 & E & R1 & R2). rewrite E. cbn [bind]. pose proof (k_ask _ _ _ _ _ K s) as Of0. assert (Of : forall s', offer dev s' (ask dev s a) = offer dev s' a) by (intros; apply Of0).
    fold (is_rle ucfg s). destruct (offer dev s a) as [m|] eqn:Eo; cbn [option_map].
    + rewrite (src_msg_body _ _ _ m []) by (rewrite view_q, Eo; reflexivity). cbn [fst snd]. rewrite <- urle, ubody.
      exists w1. split; [reflexivity|]. cbn [effects effect fold_left]. split; [exact Of|]. split; [exact R1|]. apply R2. discriminate.
    + rewrite src_msg_nil by (rewrite view_q, Eo; reflexivity). destruct (IH w1 _ R1) as (w2 & E2 & Of2 & R3 & R4).
      rewrite (view_ext a) in * by exact Of. rewrite E2. cbn [bind].
      destruct (pk_find ucfg (vw a) mask table) as [x cs]. cbn [fst snd] in *. exists w2. split; [reflexivity|].
      unfold effects in *. cbn [fold_left effect]. split; [intros; now rewrite Of2|]. auto.
Qed.

(** The invariant between calls. *)
Definition src_pos (pm : pk_msg) : Z := Z.max 0 (ct_offset (pm_ctx pm) - up_hdr_size cfg).
Record uinv (w : W) (a : A) (st : pk) (fl : option flight) : Prop := {
  ui_sim : sim ucfg (vw a) st (mk_ss (vw a) (pk_mask st) fl);
  ui_rel : match pk_cur st with Some pm => rel (Some (pm_src pm, src_pos pm)) w a | None => rel None w a end }.

Lemma sim_view a a' st fl : (forall s, offer dev s a' = offer dev s a) ->
  sim ucfg (vw a) st (mk_ss (vw a) (pk_mask st) fl) -> sim ucfg (vw a') st (mk_ss (vw a') (pk_mask st) fl).
Proof. intros H S. now rewrite (view_ext a a' H). Qed.

Lemma ss_eta (ss : sstate) : ss = mk_ss (s_q ss) (s_mask ss) (s_fl ss). Proof. now destruct ss. Qed.

Lemma begin_up w a st fl multi : uinv w a st fl ->
  exists ok l p st' w' cs fl', up_begin so cfg w st multi = Some (ok, l, p, st', w', cs) /\
    s_begin ucfg multi (mk_ss (vw a) (pk_mask st) fl) ok l p cs (mk_ss (vw a) (pk_mask st') fl') /\
    (forall s, offer dev s (effects dev a cs) = offer dev s a) /\
    uinv w' (effects dev a cs) st' fl' /\ pk_mask st' = pk_mask st /\ (ok = true -> pk_cur st' <> None) /\
    match pk_cur st with Some _ => st' = st | None => match pk_cur st' with Some pm => ct_offset (pm_ctx pm) = 0 | None => True end end.
Proof.
  intros [Hs Hr]. destruct (begin_ok _ _ _ _ multi Hs) as (ss' & B).
  unfold up_begin, pk_begin, pk_load in *. destruct (pk_cur st) as [pm|] eqn:Ec.
  - rewrite Ec in B. destruct B as [B1 B2]. do 7 eexists. split; [reflexivity|].
    pose proof B2 as [Q M _ _]. rewrite (ss_eta ss'), Q, M in B1, B2. split; [exact B1|]. cbn [effects fold_left].
    split; [reflexivity|]. split; [|split; [reflexivity|split; [congruence|reflexivity]]]. constructor; [exact B2|]. rewrite Ec. exact Hr.
  - destruct (find_up (pk_mask st) src_table w a Hr) as (w1 & E & Of & R1 & R2). rewrite E. cbn [bind].
    destruct (pk_find ucfg (vw a) (pk_mask st) src_table) as [[[[s rle] total]|] cs] eqn:Ef; cbn [fst snd] in *.
    + cbn [pk_cur pm_ctx] in B. destruct B as [B1 B2]. do 7 eexists. split; [reflexivity|].
      pose proof B2 as [Q M _ _]. rewrite (ss_eta ss'), Q, M in B1, B2. split; [exact B1|]. split; [exact Of|].
      split; [|split; [reflexivity|split; [discriminate|reflexivity]]]. constructor; [eapply sim_view; [exact Of|exact B2]|]. cbn [pk_cur pm_src]. 
      replace (src_pos _) with 0; [exact R2|]. unfold src_pos. cbn [pm_ctx].
      match goal with |- context [ct_offset (ct_info ?c)] => change (ct_offset (ct_info c)) with 0 end.
      unfold up_hdr_size. pose proof (zlen_nonneg (uc_key cfg)). lia.
    + rewrite Ec in B. destruct B as [B1 B2]. do 7 eexists. split; [reflexivity|].
      pose proof B2 as [Q M _ _]. rewrite (ss_eta ss'), Q, M in B1, B2. split; [exact B1|]. split; [exact Of|].
      split; [|split; [reflexivity|split; [discriminate|rewrite Ec; exact I]]]. constructor; [eapply sim_view; [exact Of|exact B2]|]. rewrite Ec. exact R1.
Qed.

(* ------------------------------------------------------------ one piece *)
Lemma reader_up pm w a m off part d : pm_rle pm = is_rle ucfg (pm_src pm) -> offer dev (pm_src pm) a = Some m ->
  rel (Some (pm_src pm, Z.max 0 (off - up_hdr_size cfg))) w a -> 0 <= off -> 0 < zlen part ->
  pk_reader ucfg pm m off (zlen part) = Some d ->
  exists w', up_reader so cfg pm w off part = Some (d, w', pk_reader_calls ucfg (pm_src pm) (off, zlen part)) /\ zlen d = zlen part /\
    rel (Some (pm_src pm, Z.max 0 (off + zlen part - up_hdr_size cfg))) w' a.
Proof.
  intros Hr Ho R Ho0 Hp H. unfold up_reader, pk_reader, pk_reader_calls in *. rewrite uhdr_size, uhdr in *.
  pose proof (zlen_nonneg (uc_key cfg)) as Kn. assert (Hh : 1 <= pk_hdr_size ucfg) by (unfold pk_hdr_size; cbn; lia).
  destruct (off <? pk_hdr_size ucfg) eqn:E.
  - set (n := Z.min _ _) in *. apply bind_inv in H as (v & H1 & H). rewrite H1. cbn [bind]. apply read_at_inv in H1 as (_ & _ & _ & Ev & Lv0).
    assert (Lv : zlen v = n).
    { rewrite Ev, zlen_take, zlen_drop, pk_hdr_len. unfold n. lia. }
    destruct (zlen part - n =? 0) eqn:En.
    + injection H as <-. exists w. split; [reflexivity|]. split; [lia|].
      replace (Z.max 0 (off + zlen part - pk_hdr_size ucfg)) with (Z.max 0 (off - pk_hdr_size ucfg)) by (unfold n in *; lia). exact R.
    + apply bind_inv in H as (v2 & H1 & H). injection H as <-. apply read_at_inv in H1 as (_ & _ & B & -> & _). rewrite drop_0.
      assert (Lp : zlen (drop n part) = zlen part - n) by (rewrite zlen_drop; unfold n; lia).
      destruct (k_read _ _ _ _ _ K (pm_src pm) 0 w a m (drop n part)) as (w' & E1 & R1); try assumption; try lia.
      { replace 0 with (Z.max 0 (off - pk_hdr_size ucfg)) by lia. exact R. }
      unfold up_source_read. rewrite E1. cbn [bind]. rewrite Lp, drop_0. exists w'. split; [reflexivity|]. split; [rewrite zlen_app, zlen_take; unfold n in *; lia|].
      replace (Z.max 0 (off + zlen part - pk_hdr_size ucfg)) with (0 + zlen (drop n part)) by (unfold n in *; lia). exact R1.
  - apply read_at_inv in H as (_ & _ & B & -> & _).
    destruct (k_read _ _ _ _ _ K (pm_src pm) (off - pk_hdr_size ucfg) w a m part) as (w' & E1 & R1); try assumption; try lia.
    { replace (off - pk_hdr_size ucfg) with (Z.max 0 (off - pk_hdr_size ucfg)) by lia. exact R. }
    unfold up_source_read. rewrite E1. cbn [bind]. exists w'. split; [reflexivity|]. split; [rewrite zlen_take, zlen_drop; lia|].
    replace (Z.max 0 (off + zlen part - pk_hdr_size ucfg)) with (off - pk_hdr_size ucfg + zlen part) by lia. exact R1.
Qed.

Lemma chunk_up pm w a m buf o : pm_rle pm = is_rle ucfg (pm_src pm) -> offer dev (pm_src pm) a = Some m ->
  rel (Some (pm_src pm, src_pos pm)) w a -> 0 <= ct_total (pm_ctx pm) -> 0 <= ct_offset (pm_ctx pm) ->
  ct_next (pk_reader ucfg pm m) (pm_ctx pm) buf (zlen buf) = Some o ->
  (exists k, co_reads o = (if k =? 0 then [] else [(ct_offset (pm_ctx pm), k)]) /\ ct_offset (co_ctx o) = ct_offset (pm_ctx pm) + k) ->
  exists w', up_chunk so cfg pm w (pm_ctx pm) buf (zlen buf) = Some (co_more o, co_buf o, co_len o, co_ctx o, w', flat_map (pk_reader_calls ucfg (pm_src pm)) (co_reads o)) /\
    rel (Some (pm_src pm, Z.max 0 (ct_offset (co_ctx o) - up_hdr_size cfg))) w' a.
Proof.
  intros Hr Ho R Ht Hof H (k & Hk1 & Hk2). unfold ct_next, up_chunk in *. destruct (zlen buf <? 9) eqn:E9.
  - injection H as <-. exists w. cbn. split; [reflexivity|exact R].
  - destruct (ct_head (pm_ctx pm) buf (zlen buf)) as [[[[[b more] n] start] c]|] eqn:Eh; [|discriminate]. cbn [bind] in *.
    assert (H9 : 9 <= zlen buf) by lia. pose proof (ct_head_n _ _ _ _ _ _ _ _ Ht H9 Eh) as [Kn Oc].
    unfold ct_body, up_body in *. rewrite Oc in *.
    destruct (n =? 0) eqn:En; cbn [negb bind] in *.
    + destruct (if negb more then _ else _) as [[b2 wr]|]; [|discriminate]. cbn [bind] in *.
      destruct (if negb (u32 (zlen buf - wr) =? 0) then _ else _) as [b3|]; [|discriminate]. cbn [bind] in *. injection H as <-.
      cbn [co_more co_buf co_len co_ctx co_reads flat_map ct_offset]. exists w. split; [reflexivity|].
      cbn [co_reads co_ctx ct_offset] in *. destruct (k =? 0) eqn:Ek; [|discriminate].
      rewrite Hk2. unfold src_pos in R. replace (ct_offset (pm_ctx pm) + k) with (ct_offset (pm_ctx pm)) by lia. exact R.
    + destruct (pk_reader ucfg pm m (ct_offset (pm_ctx pm)) n) as [d|] eqn:Erd; [|discriminate]. cbn [bind] in *.
      destruct (splice b start d) as [b1|] eqn:Es; [|discriminate]. cbn [bind] in *.
      destruct (crc16_compute (ct_crc c) d) as [crc|] eqn:Ecrc; [|discriminate]. cbn [bind] in *.
      assert (Ld : zlen d = n).
      { unfold pk_reader in Erd. destruct (ct_offset (pm_ctx pm) <? pk_hdr_size ucfg) eqn:El; [|apply read_at_inv in Erd as (_ & _ & B & -> & _); rewrite zlen_take, zlen_drop; lia].
        set (kk := Z.min _ _) in *. apply bind_inv in Erd as (v & H1 & Erd). apply read_at_inv in H1 as (_ & _ & B1 & -> & _).
        destruct (n - kk =? 0) eqn:Ek; [injection Erd as <-; rewrite zlen_take, zlen_drop; unfold kk in *; lia|].
        apply bind_inv in Erd as (v & H1 & Erd). injection Erd as <-. apply read_at_inv in H1 as (_ & _ & B2 & -> & _). rewrite zlen_app, !zlen_take, !zlen_drop. unfold kk in *; lia. }
      pose proof (splice_inv _ _ _ _ Es) as (S1 & S2 & _).
      rewrite (read_at_some b start n) by lia. cbn [bind]. set (part := take n (drop start b)).
      assert (Lp : zlen part = n) by (unfold part; rewrite zlen_take, zlen_drop; lia).
      destruct (reader_up pm w a m (ct_offset (pm_ctx pm)) part d Hr Ho R Hof ltac:(lia)) as (w' & Eu & _ & R').
      { rewrite Lp. exact Erd. }
      rewrite Eu. cbn [bind]. rewrite Es. cbn [bind]. rewrite Ecrc. cbn [bind].
      destruct (if negb more then _ else _) as [[b2 wr]|]; [|discriminate]. cbn [bind] in *.
      destruct (if negb (u32 (zlen buf - wr) =? 0) then _ else _) as [b3|]; [|discriminate]. cbn [bind] in *. injection H as <-.
      cbn [co_more co_buf co_len co_ctx co_reads flat_map ct_offset] in *. rewrite app_nil_r, <- Lp. exists w'. split; [reflexivity|].
      rewrite Lp in *. destruct (k =? 0) eqn:Ek; [discriminate|]. injection Hk1 as <-. rewrite Hk2. exact R'.
Qed.

Lemma next_up w a st fl buf : uinv w a st fl -> zlen buf < 4294967296 ->
  exists status out st' w' cs q fl', up_next so cfg w st buf = Some (status, out, st', w', cs) /\
    s_next ucfg (zlen buf) (mk_ss (vw a) (pk_mask st) fl) status out cs (mk_ss q (pk_mask st') fl') /\
    uinv w' (effects dev a cs) st' fl' /\ pk_mask st' = pk_mask st /\
    (9 <= zlen buf -> forall pm, pk_cur st = Some pm ->
       (exists pm', pk_cur st' = Some pm' /\ ct_offset (pm_ctx pm) < ct_offset (pm_ctx pm')) \/ pk_cur st' = None).
Proof.
  intros [Hs Hr] Hn. destruct (next_ok _ _ _ _ buf Hs Hn) as (status & out & st' & q & cs & ss' & E & N & S').
  assert (PG : 9 <= zlen buf -> forall pm, pk_cur st = Some pm ->
       (exists pm', pk_cur st' = Some pm' /\ ct_offset (pm_ctx pm) < ct_offset (pm_ctx pm')) \/ pk_cur st' = None).
  { intros H9 pm Ec. destruct (next_progress _ _ _ _ _ _ _ _ _ _ _ Hs (conj H9 Hn) Ec E) as [(_ & X)|X]; auto. }
  pose proof Hs as [Sq Sm Sok Sf]. unfold up_next, pk_get_next in *. cbn [s_fl s_q s_mask] in *.
  destruct (pk_cur st) as [pm|] eqn:Ec; [|].
  2: { injection E as <- <- <- <- <-. exists NoMoreData, [], st, w, [], (vw a), (s_fl ss'). split; [reflexivity|].
       pose proof S' as [Q M _ _]. rewrite (ss_eta ss'), Q, M in N, S'. split; [exact N|]. cbn [effects fold_left].
       split; [|split; [reflexivity|exact PG]]. constructor; [exact S'|]. rewrite Ec. exact Hr. }
  destruct fl as [f|]; [|contradiction].
  assert (Eo : offer dev (pm_src pm) a = Some (f_msg f)).
  { destruct (fo_q _ _ _ _ _ Sf) as (r & Q). rewrite view_q, <- (fo_src _ _ _ _ _ Sf) in Q. destruct (offer dev (pm_src pm) a); [|discriminate]. now injection Q as -> _. }
  assert (Er : pm_rle pm = is_rle ucfg (pm_src pm)) by (rewrite (fo_src _ _ _ _ _ Sf); apply Sf).
  assert (Em0 : src_msg ucfg (vw a) (pm_src pm) (pm_rle pm) = Some (f_msg f)).
  { rewrite Er, (src_msg_body _ _ _ (f_msg f) []) by (rewrite view_q, Eo; reflexivity). now rewrite ubody. }
  rewrite Em0 in E. cbn [bind] in E.
  apply bind_inv in E as (o & En & E).
  assert (Wf : cwf (wire ucfg (pm_src pm) (f_msg f)) (pm_ctx pm)) by (rewrite (fo_src _ _ _ _ _ Sf); apply Sf).
  assert (Mok : msg_ok ucfg (pm_src pm) (f_msg f)).
  { exact (k_ok _ _ _ _ _ K _ _ _ _ _ Hr Eo). }
  destruct Mok as [Mb Ms].
  assert (Hk : exists k, co_reads o = (if k =? 0 then [] else [(ct_offset (pm_ctx pm), k)]) /\ ct_offset (co_ctx o) = ct_offset (pm_ctx pm) + k).
  { assert (En2 : ct_next (read_at (wire ucfg (pm_src pm) (f_msg f))) (pm_ctx pm) buf (zlen buf) = Some o).
    { rewrite <- En. symmetry. apply ct_next_ext; [destruct Wf as [-> _ _]; zl|]. intros k Kp. rewrite <- reader_is_wire; [now rewrite ubody|exact Er|destruct Wf; lia|exact Kp]. }
    destruct (zlen buf <? 9) eqn:E9.
    - rewrite ct_next_small in En2 by lia. injection En2 as <-. exists 0. cbn. split; [reflexivity|lia].
    - destruct (ct_next_ok _ Mb Ms (pm_ctx pm) buf (zlen buf) Wf) as (more & k & vi & crc & out1 & _ & _ & _ & _ & _ & _ & _ & _ & _ & En3); [lia|lia|lia|].
      rewrite En3 in En2. injection En2 as <-. exists k. cbn. split; reflexivity. }
  destruct (chunk_up pm w a (f_msg f) buf o Er Eo Hr) as (w1 & Eu & R1); [destruct Wf as [-> _ _]; zl|destruct Wf; lia|exact En|exact Hk|].
  rewrite Eu. cbn [bind].
  assert (Ef : forall s l, effects dev a (flat_map (pk_reader_calls ucfg s) l) = a).
  { intros s l. induction l as [|[x y] l IH]; [reflexivity|]. cbn [flat_map]. unfold effects in *. rewrite fold_left_app.
    replace (fold_left (effect dev) (pk_reader_calls ucfg s (x, y)) a) with a; [exact IH|].
    unfold pk_reader_calls. destruct (x <? pk_hdr_size ucfg); [destruct (y - Z.min (pk_hdr_size ucfg - x) y =? 0)|]; reflexivity. }
  destruct (co_len o =? 0) eqn:El.
  - injection E as <- <- <- <- <-. pose proof S' as [Q M _ F']. cbn [pk_mask] in *. rewrite (ss_eta ss'), Q, M in N, S'.
    do 7 eexists. split; [reflexivity|]. split; [exact N|]. rewrite Ef. split; [|split; [reflexivity|exact PG]]. constructor; [exact S'|]. exact R1.
  - destruct (co_more o) eqn:Em; cbn [negb] in *.
    + injection E as <- <- <- <- <-. pose proof S' as [Q M _ F']. cbn [pk_mask] in *. rewrite (ss_eta ss'), Q, M in N, S'.
      do 7 eexists. split; [reflexivity|]. split; [exact N|]. rewrite Ef. split; [|split; [reflexivity|exact PG]]. constructor; [exact S'|]. exact R1.
    + injection E as <- <- <- <- <-. destruct (k_mark _ _ _ _ _ K _ _ _ _ R1) as (w2 & w3 & E2 & E3 & R3). rewrite E2. cbn [bind]. rewrite E3. cbn [bind].
      pose proof S' as [Q M _ F']. cbn [pk_mask pk_reset pk_cur] in *. destruct (s_fl ss') eqn:Fl; [contradiction|]. rewrite (ss_eta ss'), Q, M, Fl in N.
      do 7 eexists. split; [reflexivity|]. split; [exact N|].
      unfold effects. rewrite fold_left_app. fold (effects dev a (flat_map (pk_reader_calls ucfg (pm_src pm)) (co_reads o))). rewrite Ef. cbn [fold_left effect].
      split; [|split; [reflexivity|exact PG]]. constructor; [|exact R3]. constructor; cbn; try reflexivity; try exact I. eapply view_ok; exact R3.
Qed.

(* ------------------------------------------------------------ every call *)
Notation uop_ok := (up_ok (fine dev)).

Lemma effects_app a c1 c2 : effects dev a (c1 ++ c2) = effects dev (effects dev a c1) c2.
Proof. apply fold_left_app. Qed.

Lemma call_up w a st fl o : uinv w a st fl -> uop_ok (UCall o) ->
  exists res st' w' cs q fl', up_call so cfg w st o = Some (res, st', w', cs) /\
    s_step ucfg (mk_ss (vw a) (pk_mask st) fl) o res cs (mk_ss q (pk_mask st') fl') /\
    uinv w' (effects dev a cs) st' fl'.
Proof.
  intros H Ho. destruct o as [multi|buf|buf| |mask| |s m]; cbn [up_call up_ok] in *.
  - destruct (begin_up w a st fl multi H) as (ok & l & p & st' & w' & cs & fl' & E & B & Of & U & M & _). rewrite E. cbn [bind].
    do 6 eexists. split; [reflexivity|]. split; [constructor; exact B|exact U].
  - destruct (next_up w a st fl buf H Ho) as (status & out & st' & w' & cs & q & fl' & E & N & U & M & _). rewrite E. cbn [bind].
    do 6 eexists. split; [reflexivity|]. split; [constructor; exact N|exact U].
  - unfold up_get_chunk. destruct (begin_up w a st fl false H) as (ok & l & p & st' & w' & cs & fl' & E & B & Of & U & M & _). rewrite E. cbn [bind].
    destruct ok; cbn [negb].
    + destruct (next_up w' _ st' fl' buf U Ho) as (status & out & st2 & w2 & cs2 & q & fl2 & E2 & N & U2 & M2 & _). rewrite E2. cbn [bind].
      do 6 eexists. split; [reflexivity|]. rewrite effects_app. split; [|exact U2]. econstructor; [exact B|]. rewrite <- (view_ext a (effects dev a cs) Of). exact N.
    + cbn [bind]. do 6 eexists. split; [reflexivity|]. split; [econstructor; exact B|exact U].
  - destruct H as [Hs Hr]. assert (X : exists f, rel f w a) by (destruct (pk_cur st); eauto). destruct X as (f & X).
    destruct (k_reset _ _ _ _ _ K f w a X) as (w' & E & R'). rewrite E. cbn [bind]. do 6 eexists. split; [reflexivity|]. split; [constructor|].
    cbn [effects fold_left]. constructor; [|exact R']. constructor; cbn; auto. eapply view_ok; exact R'.
  - destruct H as [Hs Hr]. assert (X : exists f, rel f w a) by (destruct (pk_cur st); eauto). destruct X as (f & X).
    destruct (k_reset _ _ _ _ _ K f w a X) as (w' & E & R'). rewrite E. cbn [bind]. do 6 eexists. split; [reflexivity|]. split; [constructor|].
    cbn [effects fold_left]. constructor; [|exact R']. constructor; cbn; auto. eapply view_ok; exact R'.
  - unfold up_avail. pose proof H as [Hs Hr]. pose proof Hs as [Sq Sm Sok Sf]. cbn [s_fl] in Sf. destruct (pk_cur st) as [pm|] eqn:Ec.
    + cbn [bind]. destruct fl as [f|]; [|contradiction]. do 6 eexists. split; [reflexivity|]. split; [constructor; [left; discriminate|constructor]|]. exact H.
    + destruct fl as [f|]; [contradiction|]. destruct (find_up (pk_mask st) src_table w a Hr) as (w1 & E & Of & R1 & R2). rewrite E. cbn [bind].
      pose proof (pk_find_ok ucfg (vw a) (pk_mask st)) as F.
      destruct (pk_find ucfg (vw a) (pk_mask st) src_table) as [x cs] eqn:Ef; cbn [fst snd] in *. destruct F as [F1 F2].
      assert (U : uinv w1 (effects dev a cs) st None).
      { constructor; [eapply sim_view; [exact Of|exact Hs]|]. rewrite Ec. exact R1. }
      destruct x as [[[s rle] total]|]; cbn [bind]; do 6 eexists; (split; [reflexivity|]); (split; [|exact U]).
      * apply S_avail_yes; [|exact F1]. right. exists s. apply F2.
      * apply S_avail_no; [exact F2|exact F1].
  - contradiction.
Qed.

Lemma step_up w a st fl o : uinv w a st fl -> uop_ok o -> (match o with UApp x => spec dev a x <> None | _ => True end) ->
  exists r st' w' a' fl', up_step so cfg app w st o = Some (r, st', w') /\
    u_step cfg dev a (pk_mask st) fl o r a' (pk_mask st') fl' /\ uinv w' a' st' fl'.
Proof.
  intros U Ho Hs. destruct o as [o|o]; cbn [up_step].
  - destruct (call_up w a st fl o U Ho) as (res & st' & w' & cs & q & fl' & E & S & U'). rewrite E. cbn [bind].
    do 5 eexists. split; [reflexivity|]. split; [econstructor; exact S|exact U'].
  - destruct (spec dev a o) as [[r a']|] eqn:Es; [|congruence]. destruct U as [Sm Hr].
    set (f := match pk_cur st with Some pm => Some (pm_src pm, src_pos pm) | None => None end).
    assert (Rf : rel f w a) by (unfold f; destruct (pk_cur st); exact Hr).
    destruct (k_app _ _ _ _ _ K f w a o r a' Rf Ho Es) as (w' & E & R' & Of). rewrite E. cbn [bind].
    exists (URApp r), st, w', a', fl. split; [reflexivity|]. split; [constructor; exact Es|].
    constructor; [|unfold f in R'; destruct (pk_cur st); exact R'].
    destruct Sm as [Sq Smk Sok Sf]. cbn [s_fl] in Sf. constructor; cbn [s_q s_mask s_fl]; [reflexivity|reflexivity|eapply view_ok; exact R'|].
    unfold f in Of. destruct (pk_cur st) as [pm|], fl as [f0|]; try contradiction; [|exact I].
    destruct Sf as [F1 F2 F3 [r0 F4] F5 F6 F7 F8 F9]. constructor; auto. rewrite view_q in *. rewrite <- F1 in *. rewrite Of. eauto.
Qed.

(* ------------------------------------------------------------ what is sent *)
Lemma queries_deeds mask cs : forall a, queries_only mask cs -> exists t, deeds dev a t (effects dev a cs) /\ sent t = [] /\ app_deeds t = [].
Proof.
  induction cs as [|c cs IH]; intros a Q; [exists []; split; [constructor|split; reflexivity]|]. inv Q. destruct H1 as (s & -> & _).
  destruct (IH (ask dev s a) H2) as (t & D & X & Y). exists (DAsk s :: t). split; [constructor; exact D|]. split; [exact X|exact Y].
Qed.
Lemma queries_offer mask cs : forall a s, queries_only mask cs -> offer dev s (effects dev a cs) = offer dev s a.
Proof.
  induction cs as [|c cs IH]; intros a s Q; [reflexivity|]. inv Q. destruct H1 as (s' & -> & _). change (effects dev a (CHasMore s' :: cs)) with (effects dev (ask dev s' a) cs).
  rewrite IH by assumption. apply (k_ask _ _ _ _ _ K).
Qed.
Lemma reads_effect s n cs : forall a, reads_only s n cs -> effects dev a cs = a.
Proof. induction cs as [|c cs IH]; intros a Q; [reflexivity|]. inv Q. destruct H1 as (x & y & -> & _). exact (IH a H2). Qed.
Lemma deeds_app a t1 a1 t2 a2 : deeds dev a t1 a1 -> deeds dev a1 t2 a2 -> deeds dev a (t1 ++ t2) a2.
Proof. intros H1 H2. induction H1; cbn [Datatypes.app]; [exact H2|..]; econstructor; eauto. Qed.

Definition fl_single (fl : option flight) : Prop := match fl with Some f => f_multi f = false | None => True end.
(** The receiver's state [c] after the chunks handed out. *)
Definition at_cloud (c : cloud_state) (fl : option flight) : Prop :=
  match fl with Some f => exists s0, cloud s0 (f_outs f) = (c, []) | None => True end.

Lemma next_sent w' a st' n mask fl status out cs q fl' c st0 : fl_single fl -> at_cloud c fl ->
  s_next ucfg n (mk_ss (vw a) mask fl) status out cs (mk_ss q (pk_mask st') fl') -> uinv w' st0 st' fl' ->
  exists t got c', deeds dev a t (effects dev a cs) /\ app_deeds t = [] /\ cloud c (piece_of (ResNext status out)) = (c', got) /\
    received cfg got (sent t) /\ fl_single fl' /\ at_cloud c' fl'.
Proof.
  intros Hs Hc N U.
  assert (P : forall x, 0 < zlen x -> piece_of (ResNext status x) = [x]) by (intros x Hx; destruct x; [unfold zlen in Hx; cbn in Hx; lia|reflexivity]).
  inv N.
  - exists [], [], c. split; [constructor|]. split; [reflexivity|]. split; [reflexivity|]. split; [constructor|]. split; [exact I|exact I].
  - exists [], [], c. split; [constructor|]. split; [reflexivity|]. split; [reflexivity|]. split; [constructor|]. split; [exact Hs|exact Hc].
  - cbn [fl_single f_multi] in Hs. subst multi. match goal with X : reads_only _ _ _ |- _ => rename X into Xr end.
    try (match goal with X : complete _ _ _ |- _ => rename X into Xc end). try (match goal with X : q_of _ _ = _ :: _ |- _ => rename X into Xq end).
    exists []. rewrite (reads_effect _ _ _ a Xr).
    destruct (cloud c [out]) as [c' got] eqn:Ec. exists got, c'. split; [constructor|]. split; [reflexivity|].
    destruct Hc as (s0 & Hc). cbn [f_outs] in Hc.
    assert (G : cloud s0 (outs ++ [out]) = (c', got)) by (rewrite cloud_app, Hc, Ec; reflexivity).
    assert (Z0 : got = []).
    { destruct U as [[_ _ Ok F] _]. cbn [s_fl] in F. destruct (pk_cur st') as [pm|]; [|contradiction].
      assert (Mo : msg_ok ucfg s m).
      { destruct (fo_q _ _ _ _ _ F) as (r & Q). cbn [f_src f_msg] in Q. pose proof (Ok s) as Fo. rewrite Q in Fo. now inv Fo. }
      pose proof (flight_silent _ _ _ _ _ s0 F Mo eq_refl) as X. cbn [f_outs] in X. rewrite G in X. exact X. }
    subst got. rewrite P by lia. split; [exact Ec|]. split; [constructor|]. split; [reflexivity|]. exists s0. exact G.
  - cbn [fl_single f_multi] in Hs. subst multi. match goal with X : reads_only _ _ _ |- _ => rename X into Xr end.
    try (match goal with X : complete _ _ _ |- _ => rename X into Xc end). try (match goal with X : q_of _ _ = _ :: _ |- _ => rename X into Xq end).
    rewrite effects_app, (reads_effect _ _ _ a Xr). cbn [effects fold_left effect].
    destruct Hc as (s0 & Hc). cbn [f_outs] in Hc. destruct Xc as (crc & Rc & Cc). cbv iota in Rc.
    pose proof (receive_cloud _ _ _ s0 Rc) as X. rewrite cloud_app, Hc in X. destruct (cloud c [out]) as [c' got] eqn:Ec. cbn [Datatypes.app] in X. injection X as -> ->.
    exists [DSent s m], [(wire ucfg s m, crc)], None.
    rewrite view_q in Xq. split; [econstructor; [destruct (offer dev s a); [injection Xq as -> _; reflexivity|discriminate]|constructor]|].
    split; [reflexivity|]. rewrite P by lia. split; [exact Ec|]. split; [|split; [exact I|exact I]].
    constructor; [cbn; auto|constructor].
Qed.
Lemma uinv_boot w a : rel None w a -> uinv w a pk_init None.
Proof. intros H. constructor; [|exact H]. constructor; cbn; auto. eapply view_ok; exact H. Qed.

Lemma run_general ops : forall w a st fl, uinv w a st fl -> Forall uop_ok ops ->
  exists ops1 rs st' w' a' fl', played dev ops ops1 a' /\ up_run so cfg app w st ops1 = Some (rs, st', w') /\
    u_run cfg dev a (pk_mask st) fl ops1 rs a' (pk_mask st') fl' /\ uinv w' a' st' fl'.
Proof.
  induction ops as [|o ops IH]; intros w a st fl U F.
  - exists [], [], st, w, a, fl. split; [exists []; auto|]. split; [reflexivity|]. split; [constructor|exact U].
  - destruct (match o with UApp x => match spec dev a x with None => true | _ => false end | _ => false end) eqn:Eb.
    + destruct o as [|x]; [discriminate|]. destruct (spec dev a x) eqn:Es; [discriminate|].
      exists [], [], st, w, a, fl. split; [exists (UApp x :: ops); split; [reflexivity|right; eauto]|]. split; [reflexivity|]. split; [constructor|exact U].
    + pose proof (Forall_inv F) as Fo. pose proof (Forall_inv_tail F) as Ft.
      destruct (step_up w a st fl o U Fo) as (r & st1 & w1 & a1 & fl1 & E & S & U1); [destruct o; [exact I|destruct (spec dev a o); congruence]|].
      destruct (IH w1 a1 st1 fl1 U1 Ft) as (ops1 & rs & st2 & w2 & a2 & fl2 & (ops2 & P1 & P2) & E2 & R2 & U2).
      exists (o :: ops1), (r :: rs), st2, w2, a2, fl2. split; [exists ops2; split; [cbn; now rewrite P1|exact P2]|].
      split; [cbn [up_run]; rewrite E; cbn [bind]; rewrite E2; reflexivity|]. split; [econstructor; eassumption|exact U2].
Qed.

Lemma call_sent w' a st' mask fl o res cs q fl' c a2 : by_chunk (fine dev) (UCall o) -> fl_single fl -> at_cloud c fl ->
  s_step ucfg (mk_ss (vw a) mask fl) o res cs (mk_ss q (pk_mask st') fl') -> uinv w' a2 st' fl' ->
  exists t got c', deeds dev a t (effects dev a cs) /\ app_deeds t = [] /\ cloud c (piece_of res) = (c', got) /\
    received cfg got (sent t) /\ fl_single fl' /\ at_cloud c' fl'.
Proof.
  intros Bo Fs Ac S U'.
  destruct o as [multi|buf|buf| |m| |s m]; cbn [by_chunk] in Bo; try contradiction.
  - inv S.
    + match goal with X : s_begin _ _ _ _ _ _ _ _ |- _ => rename X into Xb end.
      inv Xb. match goal with X : queries_only _ _ |- _ => destruct (queries_deeds _ _ a X) as (t & D & X1 & Y) end.
      exists t, [], c. rewrite X1. split; [exact D|]. split; [exact Y|]. split; [reflexivity|]. split; [constructor|]. split; [exact I|exact Ac].
    + match goal with X : s_begin _ _ _ _ _ _ _ _ |- _ => rename X into Xb end.
      match goal with X : s_next _ _ _ _ _ _ _ |- _ => rename X into Xn end.
      pose proof (begin_keeps _ _ _ _ _ _ _ _ Xb) as (Kq & Km & Q). cbn [s_mask s_q] in *.
      destruct st1 as [q1 m1 f1]. cbn [s_mask s_q] in Kq, Km. subst q1 m1.
      assert (Of : forall s, offer dev s (effects dev a cs0) = offer dev s a) by (intros; eapply queries_offer; exact Q).
      rewrite <- (view_ext a (effects dev a cs0) Of) in Xn.
      destruct (queries_deeds _ _ a Q) as (t1 & D1 & X1 & Y1). rewrite effects_app in *.
      assert (F1 : fl_single f1 /\ at_cloud c f1).
      { inv Xb; [split; [reflexivity|exists c; reflexivity]|split; assumption]. }
      destruct F1 as [F1 A1].
      destruct (next_sent w' (effects dev a cs0) st' (zlen buf) mask f1 s out cs' q fl' c _ F1 A1 Xn U') as (t2 & got & c' & D2 & Y2 & C2 & R2 & F2 & A2).
      exists (t1 ++ t2), got, c'. split; [eapply deeds_app; eassumption|].
      split; [unfold app_deeds in *; rewrite flat_map_app, Y1, Y2; reflexivity|]. split; [exact C2|].
      split; [unfold sent in *; rewrite flat_map_app, X1; exact R2|]. split; assumption.
  - inv S. exists [], [], c. split; [constructor|]. split; [reflexivity|]. split; [reflexivity|]. split; [constructor|]. split; [exact I|]. exact I.
  - inv S. exists [], [], c. split; [constructor|]. split; [reflexivity|]. split; [reflexivity|]. split; [constructor|]. split; [exact I|]. exact I.
  - inv S; match goal with X : queries_only _ _ |- _ => destruct (queries_deeds _ _ a X) as (t & D & X1 & Y) end;
      exists t, [], c; rewrite X1; (split; [exact D|]); (split; [exact Y|]); (split; [reflexivity|]); (split; [constructor|]); split; assumption.
Qed.

Lemma step_chunk w a st fl c o : uinv w a st fl -> by_chunk (fine dev) o -> fl_single fl -> at_cloud c fl ->
  (match o with UApp x => spec dev a x <> None | _ => True end) ->
  exists r st' w' a' fl' t got c', up_step so cfg app w st o = Some (r, st', w') /\
    u_step cfg dev a (pk_mask st) fl o r a' (pk_mask st') fl' /\ uinv w' a' st' fl' /\
    deeds dev a t a' /\ app_deeds t = app_calls [o] [r] /\ cloud c (chunks [r]) = (c', got) /\ received cfg got (sent t) /\
    fl_single fl' /\ at_cloud c' fl'.
Proof.
  intros U Bo Fs Ac Ha.
  assert (Uo : uop_ok o) by (destruct o as [[]|]; cbn in *; try contradiction; auto).
  destruct (step_up w a st fl o U Uo Ha) as (r & st' & w' & a' & fl' & E & S & U').
  exists r, st', w', a', fl'. remember (pk_mask st) as mask. remember (pk_mask st') as mask'.
  destruct S as [a mask fl o res cs q mask' fl' S|a mask fl o r a' Hs].
  - subst mask'. destruct (call_sent _ _ _ _ _ _ _ _ _ _ c _ Bo Fs Ac S U') as (t & got & c' & D & Y & C & R & F' & A').
    exists t, got, c'. split; [exact E|]. split; [econstructor; exact S|]. split; [exact U'|]. split; [exact D|]. split; [exact Y|].
    split; [unfold chunks; cbn [flat_map]; now rewrite app_nil_r|]. auto.
  - exists [DApp o r], [], c. split; [exact E|]. split; [now constructor|]. split; [exact U'|].
    split; [econstructor; [eassumption|constructor]|]. split; [reflexivity|]. split; [reflexivity|]. split; [constructor|]. split; assumption.
Qed.

Lemma app_calls_cons (o : @up_op O) (r : @up_res Re) ops rs : app_calls (o :: ops) (r :: rs) = app_calls [o] [r] ++ app_calls ops rs.
Proof. destruct o, r; reflexivity. Qed.

Lemma run_chunks ops : forall w a st fl c, uinv w a st fl -> Forall (by_chunk (fine dev)) ops -> fl_single fl -> at_cloud c fl ->
  exists ops1 rs st' w' a' fl' t got c', played dev ops ops1 a' /\ up_run so cfg app w st ops1 = Some (rs, st', w') /\
    u_run cfg dev a (pk_mask st) fl ops1 rs a' (pk_mask st') fl' /\ uinv w' a' st' fl' /\
    deeds dev a t a' /\ app_deeds t = app_calls ops1 rs /\ cloud c (chunks rs) = (c', got) /\ received cfg got (sent t) /\
    fl_single fl' /\ at_cloud c' fl'.
Proof.
  induction ops as [|o ops IH]; intros w a st fl c U F Fs Ac.
  - exists [], [], st, w, a, fl, [], [], c. split; [exists []; auto|]. split; [reflexivity|]. split; [constructor|]. split; [exact U|].
    split; [constructor|]. split; [reflexivity|]. split; [reflexivity|]. split; [constructor|]. auto.
  - destruct (match o with UApp x => match spec dev a x with None => true | _ => false end | _ => false end) eqn:Eb.
    + destruct o as [|x]; [discriminate|]. destruct (spec dev a x) eqn:Es; [discriminate|].
      exists [], [], st, w, a, fl, [], [], c. split; [exists (UApp x :: ops); split; [reflexivity|right; eauto]|].
      split; [reflexivity|]. split; [constructor|]. split; [exact U|]. split; [constructor|]. split; [reflexivity|]. split; [reflexivity|]. split; [constructor|]. auto.
    + pose proof (Forall_inv F) as Fo. pose proof (Forall_inv_tail F) as Ft.
      destruct (step_chunk w a st fl c o U Fo Fs Ac) as (r & st1 & w1 & a1 & fl1 & t1 & got1 & c1 & E & S & U1 & D1 & Y1 & C1 & R1 & F1 & A1);
        [destruct o; [exact I|destruct (spec dev a o); congruence]|].
      destruct (IH w1 a1 st1 fl1 c1 U1 Ft F1 A1) as (ops1 & rs & st2 & w2 & a2 & fl2 & t2 & got2 & c2 & (ops2 & P1 & P2) & E2 & S2 & U2 & D2 & Y2 & C2 & R2 & F2 & A2).
      exists (o :: ops1), (r :: rs), st2, w2, a2, fl2, (t1 ++ t2), (got1 ++ got2), c2.
      split; [exists ops2; split; [cbn; now rewrite P1|exact P2]|].
      split; [cbn [up_run]; rewrite E; cbn [bind]; rewrite E2; reflexivity|]. split; [econstructor; eassumption|]. split; [exact U2|].
      split; [eapply deeds_app; eassumption|].
      split; [unfold app_deeds in *; rewrite flat_map_app, Y1, Y2; symmetry; apply app_calls_cons|].
      split; [change (chunks (r :: rs)) with (chunks [r] ++ chunks rs) || (replace (chunks (r :: rs)) with (chunks [r] ++ chunks rs) by (unfold chunks; cbn [flat_map]; now rewrite app_nil_r)); rewrite cloud_app, C1, C2; reflexivity|].
      split; [unfold received, sent in *; rewrite flat_map_app; apply Forall2_app; assumption|]. auto.
Qed.

Lemma chunk_progress w a st fl buf : uinv w a st fl -> fl_single fl -> 9 <= zlen buf < 4294967296 ->
  exists b out cs st' w', up_step so cfg app w st (UCall (PChunk buf)) = Some (URCall (ResChunk b out) cs, st', w') /\
    (if b then 0 < zlen out <= zlen buf else out = [] /\ forall s, enabled (pk_mask st) s = true -> offer dev s a = None).
Proof.
  intros U Fs Hb.
  destruct (call_up w a st fl (PChunk buf) U ltac:(cbn; lia)) as (res & st' & w' & cs & q & fl' & E & S & U').
  cbn [up_step]. rewrite E. cbn [bind]. inv S.
  - exists false, [], cs, st', w'. split; [reflexivity|]. split; [reflexivity|]. intros s Hs.
    match goal with X : s_begin _ _ _ _ _ _ _ _ |- _ => rename X into Xb end. inv Xb.
    match goal with X : nothing_to_send _ _ |- _ => destruct (X s) as [X1|X1] end; [congruence|].
    rewrite view_q in X1. destruct (offer dev s a); [discriminate|reflexivity].
  - match goal with X : s_begin _ _ _ _ _ _ _ _ |- _ => rename X into Xb end.
    match goal with X : s_next _ _ _ _ _ _ _ |- _ => rename X into Xn end.
    match type of Xb with s_begin _ _ _ _ _ _ _ ?x => destruct x as [q1 m1 f1] end.
    assert (F1 : match f1 with Some f => f_multi f = false | None => False end).
    { inv Xb; [reflexivity|exact Fs]. }
    do 5 eexists. split; [reflexivity|]. destruct f1 as [f1|]; [|contradiction].
    inv Xn; [lia| |]; cbn [f_multi] in F1; [rewrite F1; assumption|assumption].
Qed.

(* ------------------------------------------------------------ fetching chunks until there are no more *)
Section Drain.
Variables (J : A -> Prop) (size : A -> Z).
Hypothesis Z0 : shrinks dev J size.
Definition mu (a : A) (st : pk) : Z := size a * 4294967296 - match pk_cur st with Some pm => ct_offset (pm_ctx pm) | None => 0 end.

Lemma queries_size mask cs : forall a, queries_only mask cs -> J a -> J (effects dev a cs) /\ size (effects dev a cs) <= size a.
Proof.
  induction cs as [|c cs IH]; intros a Q Ja; [cbn; split; [exact Ja|lia]|]. pose proof (Forall_inv Q) as (s & -> & _). apply Forall_inv_tail in Q.
  destruct (z_ask _ _ _ Z0 s a Ja) as (J1 & S1). change (effects dev a (CHasMore s :: cs)) with (effects dev (ask dev s a) cs).
  destruct (IH _ Q J1) as (J2 & S2). split; [exact J2|lia].
Qed.

Lemma cur_small w a st fl pm : uinv w a st fl -> pk_cur st = Some pm -> 0 <= ct_offset (pm_ctx pm) < 4294967296 /\ exists m, offer dev (pm_src pm) a = Some m.
Proof.
  intros U Ec. pose proof (ui_rel _ _ _ _ U) as Hr. destruct (ui_sim _ _ _ _ U) as [Sq Sm Sok Sf]. cbn [s_fl] in Sf. rewrite Ec in *.
  destruct fl as [f|]; [|contradiction]. destruct Sf as [F1 F2 F3 [r F4] F5 F6 F7 F8 F9].
  assert (Eo : offer dev (pm_src pm) a = Some (f_msg f)).
  { rewrite view_q, <- F1 in F4. destruct (offer dev (pm_src pm) a); [|discriminate]. now injection F4 as -> _. }
  split; [|eauto]. pose proof (k_ok _ _ _ _ _ K _ _ _ _ _ Hr Eo) as [Mb Ms]. rewrite F1 in Ms. destruct F7 as [G1 G2 G3]. pose proof (zlen_nonneg (wire ucfg (f_src f) (f_msg f))). lia.
Qed.

Lemma chunk_mu w a st fl buf : uinv w a st fl -> fl_single fl -> J a -> 9 <= zlen buf < 4294967296 ->
  exists b out cs st' w' fl', up_step so cfg app w st (UCall (PChunk buf)) = Some (URCall (ResChunk b out) cs, st', w') /\
    uinv w' (effects dev a cs) st' fl' /\ fl_single fl' /\ J (effects dev a cs) /\ pk_mask st' = pk_mask st /\
    if b then mu (effects dev a cs) st' < mu a st /\ (pk_cur st <> None \/ exists s, enabled (pk_mask st) s = true /\ offer dev s a <> None)
    else pk_cur st = None /\ pk_cur st' = None /\ forall s, enabled (pk_mask st) s = true -> offer dev s (effects dev a cs) = None.
Proof.
  intros U Fs Ja Hb. cbn [up_step up_call]. unfold up_get_chunk.
  destruct (begin_up w a st fl false U) as (ok & l & p & st1 & w1 & cs1 & fl1 & E & B & Of & U1 & M1 & C1 & C2). rewrite E. cbn [bind].
  assert (Q1 : queries_only (pk_mask st) cs1) by (inv B; [assumption|assumption|constructor]).
  destruct (queries_size _ _ a Q1 Ja) as (J1 & S1).
  destruct ok; cbn [negb bind].
  - assert (F1 : fl_single fl1) by (inv B; [reflexivity|exact Fs]).
    assert (WH : pk_cur st <> None \/ exists s, enabled (pk_mask st) s = true /\ offer dev s a <> None).
    { inv B.
      - right. exists s. match goal with X : next_source _ _ _ |- _ => split; [apply X|] end. match goal with X : q_of (vw a) s = _ |- _ => rewrite view_q in X end. destruct (offer dev s a); congruence.
      - left. destruct (ui_sim _ _ _ _ U) as [_ _ _ Sf]. cbn [s_fl] in Sf. destruct (pk_cur st); [discriminate|contradiction]. }
    destruct (next_up w1 _ st1 fl1 buf U1 ltac:(lia)) as (status & out & st2 & w2 & cs2 & q & fl2 & E2 & N & U2 & M2 & PG). rewrite E2. cbn [bind].
    exists (match status with EndOfChunk => true | _ => false end), out, (cs1 ++ cs2), st2, w2, fl2. split; [reflexivity|]. rewrite effects_app. split; [exact U2|].
    destruct (pk_cur st1) as [pm|] eqn:Ec; [|exfalso; now apply C1].
    destruct (cur_small _ _ _ _ _ U1 Ec) as (L1 & m1 & O1). specialize (PG ltac:(lia) pm eq_refl).
    assert (OFF : match pk_cur st with Some pm0 => ct_offset (pm_ctx pm0) | None => 0 end = ct_offset (pm_ctx pm)).
    { destruct (pk_cur st) eqn:Ec0; [subst st1; congruence|]. rewrite C2. reflexivity. }
    assert (FS2 : match pk_cur st1 with Some pm => fl1 <> None | None => True end). { destruct (ui_sim _ _ _ _ U1) as [_ _ _ Sf]. cbn [s_fl] in Sf. rewrite Ec in *. destruct fl1; [discriminate|contradiction]. }
    destruct (ui_sim _ _ _ _ U1) as [_ _ _ Sf1]. cbn [s_fl] in Sf1. rewrite Ec in Sf1.
    inv N; [contradiction| lia | |].
    + (* one more piece *)
      cbn [fl_single f_multi] in F1. subst multi. match goal with X : reads_only _ _ _ |- _ => pose proof (reads_effect _ _ _ (effects dev a cs1) X) as RE end.
      rewrite RE in *. split; [reflexivity|]. split; [exact J1|]. split; [congruence|].
      destruct (ui_sim _ _ _ _ U2) as [_ _ _ Sf2]. cbn [s_fl] in Sf2. destruct PG as [(pm2 & Ec2 & LT)|PG]; [|rewrite PG in Sf2; contradiction].
      split; [|exact WH]. unfold mu. rewrite OFF, Ec2. nia.
    + (* the last piece *)
      match goal with X : reads_only _ _ _ |- _ => pose proof (reads_effect _ _ _ (effects dev a cs1) X) as RE end.
      rewrite effects_app, RE in *. change (effects dev (effects dev a cs1) [CMark s]) with (mark dev s (effects dev a cs1)) in *.
      assert (ES : pm_src pm = s) by apply Sf1. rewrite ES in O1.
      destruct (z_mark _ _ _ Z0 _ _ _ J1 O1) as (J2 & S2). split; [exact I|]. split; [exact J2|]. split; [congruence|].
      destruct (ui_sim _ _ _ _ U2) as [_ _ _ Sf2]. cbn [s_fl] in Sf2. destruct (pk_cur st2) eqn:Ec2; [contradiction|].
      split; [|exact WH]. unfold mu. rewrite OFF, Ec2. lia.
  - exists false, [], cs1, st1, w1, fl1. split; [reflexivity|]. split; [exact U1|]. inv B. split; [exact I|]. split; [exact J1|]. split; [congruence|].
    destruct (ui_sim _ _ _ _ U) as [_ _ _ Sf]. cbn [s_fl] in Sf. destruct (ui_sim _ _ _ _ U1) as [_ _ _ Sf1]. cbn [s_fl] in Sf1.
    destruct (pk_cur st); [contradiction|]. destruct (pk_cur st1); [contradiction|]. split; [reflexivity|]. split; [reflexivity|].
    intros s Hs. rewrite Of. match goal with X : nothing_to_send _ _ |- _ => destruct (X s) as [X1|X1] end; [congruence|].
    rewrite view_q in X1. destruct (offer dev s a); [discriminate|reflexivity].
Qed.

Definition idle (a : A) (st : pk) : Prop := pk_cur st = None /\ forall s, enabled (pk_mask st) s = true -> offer dev s a = None.
Lemma drain_chunks bufs : forall w a st fl c, uinv w a st fl -> fl_single fl -> at_cloud c fl -> J a ->
  Forall (fun b => 9 <= zlen b < 4294967296) bufs -> mu a st <= zlen bufs \/ idle a st ->
  exists rs st' w' a' fl' t got c', up_run so cfg app w st (map (fun b => UCall (PChunk b)) bufs) = Some (rs, st', w') /\ uinv w' a' st' fl' /\
    deeds dev a t a' /\ app_deeds t = [] /\ cloud c (chunks rs) = (c', got) /\ received cfg got (sent t) /\
    fl_single fl' /\ at_cloud c' fl' /\ pk_mask st' = pk_mask st /\ idle a' st'.
Proof.
  induction bufs as [|b bufs IH]; intros w a st fl c U Fs Ac Ja F H.
  - exists [], st, w, a, fl, [], [], c. split; [reflexivity|]. split; [exact U|]. split; [constructor|]. split; [reflexivity|]. split; [reflexivity|]. split; [constructor|].
    split; [exact Fs|]. split; [exact Ac|]. split; [reflexivity|]. destruct H as [H|H]; [|exact H]. unfold mu in H. change (zlen (@nil (list Z))) with 0 in H.
    assert (NO : forall s, offer dev s a <> None -> 0 < size a).
    { intros s Ho. destruct (offer dev s a) as [m|] eqn:Eo; [|congruence]. destruct (z_mark _ _ _ Z0 s a m Ja Eo) as (J1 & S1). pose proof (z_pos _ _ _ Z0 _ J1). lia. }
    unfold idle. destruct (pk_cur st) as [pm|] eqn:Ec.
    + exfalso. destruct (cur_small _ _ _ _ _ U Ec) as (L & m & Eo). specialize (NO (pm_src pm)). rewrite Eo in NO. specialize (NO ltac:(discriminate)). lia.
    + split; [reflexivity|]. intros s _. destruct (offer dev s a) eqn:Eo; [|reflexivity]. exfalso. specialize (NO s). rewrite Eo in NO. specialize (NO ltac:(discriminate)). lia.
  - pose proof (Forall_inv F) as Fb. apply Forall_inv_tail in F.
    destruct (chunk_mu w a st fl b U Fs Ja Fb) as (bb & out & cs & st1 & w1 & fl1 & E & U1 & _ & J1 & M1 & PR).
    destruct (step_chunk w a st fl c (UCall (PChunk b)) U (proj2 Fb) Fs Ac I) as (r & st1' & w1' & a1 & fl1' & t1 & got1 & c1 & E' & S & U1' & D1 & Y1 & C1 & R1 & Fs1 & Ac1).
    rewrite E in E'. injection E' as <- <- <-. assert (a1 = effects dev a cs) as -> by (inv S; reflexivity).
    destruct (IH w1 _ st1 fl1' c1 U1' Fs1 Ac1 J1 F) as (rs & st2 & w2 & a2 & fl2 & t2 & got2 & c2 & E2 & U2 & D2 & Y2 & C2 & R2 & Fs2 & Ac2 & M2 & I2).
    { destruct bb.
      - destruct PR as (PR & WH). destruct H as [H|(H1 & H2)]; [left; rewrite zlen_cons in H; lia|]. exfalso. destruct WH as [WH|(s & X1 & X2)]; [congruence|]. apply X2. now apply H2.
      - right. destruct PR as (_ & P1 & P2). split; [exact P1|]. rewrite M1. exact P2. }
    exists (URCall (ResChunk bb out) cs :: rs), st2, w2, a2, fl2, (t1 ++ t2), (got1 ++ got2), c2. cbn [map up_run]. rewrite E. cbn [bind]. rewrite E2. split; [reflexivity|]. split; [exact U2|].
    split; [eapply deeds_app; eassumption|]. cbn [app_calls] in Y1.
    split; [unfold app_deeds in *; rewrite flat_map_app, Y1, Y2; reflexivity|].
    split. { change (chunks (URCall (ResChunk bb out) cs :: rs)) with (piece_of (ResChunk bb out) ++ chunks rs). rewrite cloud_app. unfold chunks in C1. cbn [flat_map] in C1. rewrite app_nil_r in C1. rewrite C1, C2. reflexivity. }
    split; [unfold sent, received in *; rewrite flat_map_app; now apply Forall2_app|]. split; [exact Fs2|]. split; [exact Ac2|]. split; [congruence|exact I2].
Qed.
End Drain.
End Generic.

(* ------------------------------------------------------------ from boot on *)
Lemma up_run_app {W O R} (so : sources W) cfg (app : W -> O -> option (R * W)) a : forall b w st rs st1 w1 rs2 st2 w2,
  up_run so cfg app w st a = Some (rs, st1, w1) -> up_run so cfg app w1 st1 b = Some (rs2, st2, w2) -> up_run so cfg app w st (a ++ b) = Some (rs ++ rs2, st2, w2).
Proof.
  induction a as [|o a IH]; intros b w st rs st1 w1 rs2 st2 w2 H1 H2; cbn [up_run Datatypes.app] in *; [injection H1 as <- <- <-; exact H2|].
  apply bind_inv in H1 as ([[r st'] w'] & E & H1). apply bind_inv in H1 as ([[rs' st''] w''] & E' & H1). injection H1 as <- <- <-. rewrite E. cbn [bind].
  rewrite (IH _ _ _ _ _ _ _ _ _ E' H2). reflexivity.
Qed.
Lemma up_run_len {W O R} (so : sources W) cfg (app : W -> O -> option (R * W)) a : forall w st rs st1 w1,
  up_run so cfg app w st a = Some (rs, st1, w1) -> length rs = length a.
Proof.
  induction a as [|o a IH]; intros w st rs st1 w1 H1; cbn [up_run] in *; [injection H1 as <- <- <-; reflexivity|].
  apply bind_inv in H1 as ([[r st'] w'] & E & H1). apply bind_inv in H1 as ([[rs' st''] w''] & E' & H1). injection H1 as <- <- <-. cbn [length]. f_equal. eapply IH, E'.
Qed.
Lemma app_calls_app {O R} (a : list (@up_op O)) : forall (ra : list (@up_res R)) b rb, length ra = length a -> app_calls (a ++ b) (ra ++ rb) = app_calls a ra ++ app_calls b rb.
Proof.
  induction a as [|o a IH]; intros [|r ra] b rb L; cbn [length] in L; try discriminate; [reflexivity|]. cbn [Datatypes.app].
  rewrite (app_calls_cons o r (a ++ b)), (app_calls_cons o r a), IH by lia. now rewrite app_assoc.
Qed.
Lemma app_calls_chunks {O R} bufs : forall (rs : list (@up_res R)), app_calls (map (fun b => @UCall O (PChunk b)) bufs) rs = [].
Proof. induction bufs as [|b bufs IH]; intros [|r rs]; cbn [map app_calls]; auto. Qed.
Lemma chunks_app {R} (a b : list (@up_res R)) : chunks (a ++ b) = chunks a ++ chunks b. Proof. unfold chunks. apply flat_map_app. Qed.

Section Boot.
Context {W A O Re : Type}.
Variables (so : sources W) (cfg : up_cfg) (app : W -> O -> option (Re * W)) (dev : device A O Re) (rel : option (src * Z) -> W -> A -> Prop).
Hypothesis K : keeps_contract so cfg app dev rel.

Theorem boot_follows w a ops : rel None w a -> Forall (up_ok (fine dev)) ops ->
  exists ops1 rs st w' a' fl, played dev ops ops1 a' /\ up_run so cfg app w pk_init ops1 = Some (rs, st, w') /\
    u_run cfg dev a (pk_mask pk_init) None ops1 rs a' (pk_mask st) fl.
Proof.
  intros R F. destruct (run_general _ _ _ _ _ K ops w a pk_init None (uinv_boot _ _ _ _ _ K w a R) F) as (ops1 & rs & st & w' & a' & fl & P & E & U & _).
  exists ops1, rs, st, w', a', fl. auto.
Qed.
Theorem boot_cloud w a ops : rel None w a -> Forall (by_chunk (fine dev)) ops ->
  exists ops1 rs st w' a' t got cs, played dev ops ops1 a' /\ up_run so cfg app w pk_init ops1 = Some (rs, st, w') /\
    deeds dev a t a' /\ app_deeds t = app_calls ops1 rs /\ cloud None (chunks rs) = (cs, got) /\ received cfg got (sent t) /\
    forall buf, 9 <= zlen buf < 4294967296 ->
      exists b out calls st2 w2, up_step so cfg app w' st (UCall (PChunk buf)) = Some (URCall (ResChunk b out) calls, st2, w2) /\
        if b then 0 < zlen out <= zlen buf else out = [] /\ forall s, enabled (pk_mask st) s = true -> offer dev s a' = None.
Proof.
  intros R F. destruct (run_chunks _ _ _ _ _ K ops w a pk_init None None (uinv_boot _ _ _ _ _ K w a R) F I I)
    as (ops1 & rs & st & w' & a' & fl & t & got & cs & P & E & _ & U & D & AD & CL & RC & FS & _).
  exists ops1, rs, st, w', a', t, got, cs. do 6 (split; [assumption|]). intros buf Hb. exact (chunk_progress _ _ _ _ _ K w' a' st fl buf U FS Hb).
Qed.

Theorem boot_drained J size w a ops : shrinks dev J size -> rel None w a -> J a ->
  (forall a o r a', J a -> spec dev a o = Some (r, a') -> J a') -> Forall (by_chunk (fine dev)) ops ->
  exists ops1 rs st w' a', played dev ops ops1 a' /\ up_run so cfg app w pk_init ops1 = Some (rs, st, w') /\
    exists n, forall bufs, Forall (fun b => 9 <= zlen b < 4294967296) bufs -> n <= zlen bufs ->
      exists rs2 st2 w2 a2 t got cs, up_run so cfg app w pk_init (ops1 ++ map (fun b => UCall (PChunk b)) bufs) = Some (rs ++ rs2, st2, w2) /\
        deeds dev a t a2 /\ app_deeds t = app_calls ops1 rs /\ cloud None (chunks (rs ++ rs2)) = (cs, got) /\ received cfg got (sent t) /\
        forall s, enabled (pk_mask st) s = true -> offer dev s a2 = None.
Proof.
  intros Z0 R Ja Jk F. destruct (run_chunks _ _ _ _ _ K ops w a pk_init None None (uinv_boot _ _ _ _ _ K w a R) F I I)
    as (ops1 & rs & st & w' & a' & fl & t & got & cs & P & E & _ & U & D & AD & CL & RC & FS & AC).
  exists ops1, rs, st, w', a'. split; [exact P|]. split; [exact E|]. exists (mu size a' st). intros bufs FB LB.
  assert (Ja' : J a').
  { clear - Z0 Ja Jk D. induction D; auto; apply IHD; [now apply (z_ask _ _ _ Z0)|now apply (z_mark _ _ _ Z0 s a m)|eapply Jk; eassumption]. }
  destruct (drain_chunks _ _ _ _ _ K _ _ Z0 bufs w' a' st fl cs U FS AC Ja' FB (or_introl LB))
    as (rs2 & st2 & w2 & a2 & fl2 & t2 & got2 & cs2 & E2 & U2 & D2 & Y2 & CL2 & RC2 & FS2 & _ & M2 & (_ & NO)).
  exists rs2, st2, w2, a2, (t ++ t2), (got ++ got2), cs2. split; [exact (up_run_app _ _ _ _ _ _ _ _ _ _ _ _ _ E E2)|].
  split; [eapply deeds_app; eassumption|]. split; [unfold app_deeds in *; rewrite flat_map_app, AD, Y2; apply app_nil_r|].
  split; [rewrite chunks_app, cloud_app, CL, CL2; reflexivity|]. split; [unfold received, sent in *; rewrite flat_map_app; now apply Forall2_app|].
  intros s Hs. apply NO. now rewrite M2.
Qed.
End Boot.
