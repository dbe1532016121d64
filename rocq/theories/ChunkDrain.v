(** Further facts about draining a message chunk by chunk, used by the packetizer. *)
From Verif Require Import Base Varint VarintSpec VarintProofs Crc16 Crc16Spec Crc16Proofs ChunkTransport ChunkSpec ChunkProofs.

Lemma ct_head_n c buf n b m k s c' : 0 <= ct_total c -> 9 <= n -> ct_head c buf n = Some (b, m, k, s, c') ->
  0 <= k /\ ct_offset c' = ct_offset c.
Proof.
  intros Ht Hn H. unfold ct_head in H.
  assert (U : forall x, 0 <= u32 x) by (intros; pose proof (u32_range x); unfold is_u32 in *; lia).
  destruct (ct_offset c =? 0).
  - binv H. binv H. cbv zeta in H. binv H. cbn [ct_multi ct_total] in H.
    destruct ((n <? ct_single_size c) && negb (ct_multi c)); [inv H; split; [apply U|reflexivity]|].
    destruct (ct_multi c); inv H; (split; [|reflexivity]); [specialize (U (n - 1)); lia|lia].
  - destruct (ct_multi c).
    + inv H. specialize (U (ct_total c' - ct_offset c')). split; [lia|reflexivity].
    + binv H. binv H. binv H. inv H. split; [|reflexivity].
      pose proof (U (ct_total c' - ct_offset c')). pose proof (U (n - 1 - zlen v)). lia.
Qed.

(** Only the answers to the requests matter. *)
Lemma ct_next_ext rd1 rd2 c buf n : 0 <= ct_total c ->
  (forall k, 0 < k -> rd1 (ct_offset c) k = rd2 (ct_offset c) k) ->
  ct_next rd1 c buf n = ct_next rd2 c buf n.
Proof.
  intros Ht H. unfold ct_next. destruct (n <? 9) eqn:E9; [reflexivity|].
  destruct (ct_head c buf n) as [[[[[b m] k] s] c']|] eqn:E; [|reflexivity]. cbn [bind].
  apply ct_head_n in E as [K O]; [|lia|lia]. unfold ct_body. rewrite O.
  destruct (k =? 0) eqn:Ek; cbn [negb]; [reflexivity|]. rewrite H by lia. reflexivity.
Qed.

Lemma ct_drain_snoc rd bufs : forall c outs reads c' b,
  ct_drain rd c bufs = Some (outs, false, reads, c') ->
  ct_drain rd c (bufs ++ [b]) =
    do o <- ct_next rd c' b (zlen b);
    Some (outs ++ [take (co_len o) (co_buf o)], negb (co_more o), reads ++ co_reads o, co_ctx o).
Proof.
  induction bufs as [|a bufs IH]; intros c outs reads c' b H; cbn [ct_drain app] in *.
  - inv H. destruct (ct_next rd c' b (zlen b)) as [o|]; [|reflexivity]. cbn [bind app]. destruct (co_more o); cbn [negb]; [|reflexivity].
    now rewrite app_nil_r.
  - apply bind_inv in H. destruct H as (o & E & H). rewrite E. cbn [bind]. destruct (co_more o); [|discriminate].
    apply bind_inv in H. destruct H as (x & Hx & H). destruct x as [[[outs1 fin1] reads1] c1]. inv H.
    rewrite (IH _ _ _ _ b Hx). destruct (ct_next rd c' b (zlen b)) as [o2|]; [|reflexivity]. cbn [bind app]. now rewrite app_assoc.
Qed.

Section Incomplete.
Variable msg : list Z.
Hypothesis Hb : bytes msg.
Hypothesis Hsz : zlen msg < 4294967293.

Lemma drain_cont_incomplete bufs : forall c outs reads c', cwf msg c -> Forall (fun b => small (zlen b)) bufs ->
  ct_multi c = false -> 0 < ct_offset c ->
  ct_drain (read_at msg) c bufs = Some (outs, false, reads, c') ->
  rest_of_message (take (ct_offset c) msg) (filter nonempty outs) = None.
Proof.
  induction bufs as [|b bufs IH]; intros c outs reads c' W F M H0 H; cbn [ct_drain] in H; [now inv H|]. inv F.
  destruct (zlen b <? 9) eqn:E9.
  - rewrite ct_next_small in H by lia. cbn [bind co_more co_len co_buf co_ctx co_reads] in H. rewrite take_0 in H.
    apply bind_inv in H; destruct H as (x & Hx & H). destruct x as [[[outs1 fin1] reads1] c1]. inv H. cbn [filter]. eapply IH; eauto.
  - destruct (ct_next_ok msg Hb Hsz c b (zlen b) W) as (more & k & vi & crc & out & Ev & Ec & Eo & K0 & K1 & Lo & Mk & Mf & Mi & En); [lia|lia|assumption|].
    rewrite En in H. cbn [bind co_more co_len co_buf co_ctx co_reads] in H. rewrite take_app_exact in H by reflexivity.
    unfold out_head in Eo. replace (ct_offset c =? 0) with false in * by lia. rewrite M in *.
    destruct (varint_u32_correct (ct_offset c)) as (e & Ee & _ & _ & Hr & _); [unfold is_u32; destruct W; lia|].
    assert (e = vi) by congruence. subst e. clear Ee.
    assert (Hne : nonempty out = true) by (rewrite Eo; unfold nonempty; cbn [app]; rewrite zlen_cons; zl).
    assert (Ho : ct_offset c =? zlen (take (ct_offset c) msg) = true) by (destruct W; rewrite zlen_take; lia).
    destruct W as [W1 W2 W3]. destruct more; [|discriminate].
    apply bind_inv in H; destruct H as (x & Hx & H). destruct x as [[[outs1 fin1] reads1] c1]. inv H.
    eapply IH in Hx; [|constructor; cbn; [exact W1|lia|exact Ec]|assumption|reflexivity|cbn; lia].
    cbn [filter]. rewrite Hne. cbn [rest_of_message app]. rewrite app_nil_r, (parse_cont _ _ _ Hr), Ho.
    rewrite <- take_plus by lia. exact Hx.
Qed.

Lemma drain_incomplete bufs : forall c outs reads c', cwf msg c -> Forall (fun b => small (zlen b)) bufs ->
  ct_multi c = false -> ct_offset c = 0 ->
  ct_drain (read_at msg) c bufs = Some (outs, false, reads, c') ->
  receive (filter nonempty outs) = None.
Proof.
  induction bufs as [|b bufs IH]; intros c outs reads c' W F M H0 H; cbn [ct_drain] in H; [now inv H|]. inv F.
  destruct (zlen b <? 9) eqn:E9.
  - rewrite ct_next_small in H by lia. cbn [bind co_more co_len co_buf co_ctx co_reads] in H. rewrite take_0 in H.
    apply bind_inv in H; destruct H as (x & Hx & H). destruct x as [[[outs1 fin1] reads1] c1]. inv H. cbn [filter]. eapply IH; eauto.
  - destruct (ct_next_ok msg Hb Hsz c b (zlen b) W) as (more & k & vi & crc & out & Ev & Ec & Eo & K0 & K1 & Lo & Mk & Mf & Mi & En); [lia|lia|assumption|].
    rewrite En in H. cbn [bind co_more co_len co_buf co_ctx co_reads] in H. rewrite take_app_exact in H by reflexivity.
    unfold out_head in Eo. rewrite H0 in *. change (0 =? 0) with true in *. rewrite M in *. cbn [andb negb] in Eo. rewrite drop_0 in *.
    destruct (varint_u32_correct (zlen msg)) as (e & Ee & _ & _ & Hr & _); [unfold is_u32; zl|].
    assert (e = vi) by congruence. subst e. clear Ee. rewrite Z.add_0_l in *.
    assert (Hne : nonempty out = true) by (rewrite Eo; unfold nonempty; cbn [app]; rewrite zlen_cons; zl).
    destruct more; [|discriminate]. cbn [andb negb app] in Eo.
    specialize (Mk eq_refl). apply bind_inv in H; destruct H as (x & Hx & H). destruct x as [[[outs1 fin1] reads1] c1]. inv H.
    apply drain_cont_incomplete in Hx; [|constructor; cbn; [apply W|lia|exact Ec]|assumption|reflexivity|cbn; lia].
    cbn [filter]. rewrite Hne. cbn [receive]. rewrite app_nil_r, (parse_first _ _ _ Hr). cbn [ct_offset] in Hx. now rewrite Hx.
Qed.

Lemma drain_multi_incomplete bufs : forall c outs reads c', cwf msg c -> Forall (fun b => small (zlen b)) bufs ->
  ct_multi c = true ->
  ct_drain (read_at msg) c bufs = Some (outs, false, reads, c') ->
  zlen (concat outs) <= (if ct_offset c =? 0 then 1 else 0) + (zlen msg - ct_offset c).
Proof.
  induction bufs as [|b bufs IH]; intros c outs reads c' W F M H; cbn [ct_drain] in H.
  - inv H. cbn [concat]. change (zlen (@nil Z)) with 0. destruct W. destruct (ct_offset c' =? 0); lia.
  - inv F. destruct (zlen b <? 9) eqn:E9.
    + rewrite ct_next_small in H by lia. cbn [bind co_more co_len co_buf co_ctx co_reads] in H. rewrite take_0 in H.
      apply bind_inv in H; destruct H as (x & Hx & H). destruct x as [[[outs1 fin1] reads1] c1]. inv H. cbn [concat app]. eapply IH; eauto.
    + destruct (ct_next_ok msg Hb Hsz c b (zlen b) W) as (more & k & vi & crc & out & Ev & Ec & Eo & K0 & K1 & Lo & Mk & Mf & Mi & En); [lia|lia|assumption|].
      rewrite En in H. cbn [bind co_more co_len co_buf co_ctx co_reads] in H. rewrite take_app_exact in H by reflexivity.
      unfold out_head in Eo. rewrite M, andb_false_r in Eo. destruct W as [W1 W2 W3]. destruct more; [|discriminate].
      specialize (Mk eq_refl). apply bind_inv in H; destruct H as (x & Hx & H). destruct x as [[[outs1 fin1] reads1] c1]. inv H.
      apply IH in Hx; [|constructor; cbn; [exact W1|lia|exact Ec]|assumption|exact M]. cbn [ct_offset] in Hx.
      replace (ct_offset c + k =? 0) with false in Hx by lia. cbn [concat].
      assert (L : zlen (take k (drop (ct_offset c) msg)) = k) by (rewrite zlen_take, zlen_drop; lia).
      rewrite app_nil_r, !zlen_app, L.
      destruct (ct_offset c =? 0); [change (zlen [ct_hdr false false]) with 1|change (zlen (@nil Z)) with 0]; lia.
Qed.

(** One more call from a context reached by draining. *)
Lemma drain_wf c bufs outs fin reads c' : cwf msg c -> Forall (fun b => small (zlen b)) bufs ->
  (0 < ct_offset c -> ct_single c = 3 + zlen msg) ->
  ct_drain (read_at msg) c bufs = Some (outs, fin, reads, c') ->
  cwf msg c' /\ ct_multi c' = ct_multi c /\ (fin = true \/ 0 < ct_offset c' -> ct_single c' = 3 + zlen msg) /\
  (fin = false -> usable bufs <= ct_offset c' - ct_offset c).
Proof.
  intros W F S H. destruct (drain_ok msg Hb Hsz bufs c W F S) as (o & f & r & c2 & E & W' & M & _ & _ & _ & U & F3).
  rewrite H in E. injection E as <- <- <- <-. auto.
Qed.
End Incomplete.
