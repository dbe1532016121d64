From Verif Require Import Base Varint VarintSpec VarintProofs Crc16 Crc16Spec Crc16Proofs ChunkTransport ChunkSpec.

Ltac zn := repeat (rewrite ?zlen_app, ?zlen_take, ?zlen_drop, ?zlen_cons; progress (change (zlen (@nil Z)) with 0)) ; rewrite ?zlen_app, ?zlen_take, ?zlen_drop, ?zlen_cons.

Definition crc_le (crc : Z) : list Z := [Z.land crc 255; Z.land (Z.shiftr crc 8) 255].

Lemma drop_splice l off d l' n : splice l off d = Some l' -> off + zlen d <= n -> drop n l' = drop n l.
Proof.
  intros H Hn. pose proof (zlen_nonneg d). apply splice_inv in H as (H1 & H2 & ->).
  assert (E : zlen (take off l) = off) by (rewrite zlen_take; lia).
  rewrite app_assoc. rewrite drop_app_ge by (rewrite zlen_app; lia). rewrite drop_drop by (rewrite ?zlen_app; lia).
  f_equal. rewrite zlen_app. lia.
Qed.

(** The context agrees with the message. *)
Record cwf (msg : list Z) (c : chunk_ctx) : Prop := {
  cw_total : ct_total c = zlen msg;
  cw_off : 0 <= ct_offset c <= zlen msg;
  cw_crc : crc16_compute 0 (take (ct_offset c) msg) = Some (ct_crc c) }.

Section One.
Variable msg : list Z.
Hypothesis Hb : bytes msg.
Hypothesis Hsz : zlen msg < 4294967293.

Lemma crc_piece off k crc : 0 <= off -> 0 <= k -> off + k <= zlen msg ->
  crc16_compute 0 (take off msg) = Some crc ->
  exists crc', crc16_compute crc (take k (drop off msg)) = Some crc' /\ crc16_compute 0 (take (off + k) msg) = Some crc'.
Proof.
  intros H1 H2 H3 H.
  assert (is_u16 crc) by (apply (crc16_u16 0 (take off msg)); [unfold is_u16; lia|now apply bytes_take|assumption]).
  destruct (crc16_some crc (take k (drop off msg)) H0) as (crc' & E & _); [now apply bytes_take, bytes_drop|].
  exists crc'. split; [exact E|]. rewrite take_plus by lia. rewrite crc16_app, H. cbn [bind]. exact E.
Qed.

Lemma ct_body_ok h s (more : bool) k start c n buf0 :
  zlen h = start -> zlen (h ++ s) = zlen buf0 -> drop n (h ++ s) = drop n buf0 ->
  0 <= k -> start + k + (if more then 0 else 2) <= n -> n <= zlen buf0 -> n < 4294967296 ->
  cwf msg c -> ct_offset c + k <= zlen msg -> (more = false -> ct_offset c + k = zlen msg) ->
  exists crc out, crc16_compute 0 (take (ct_offset c + k) msg) = Some crc /\
    out = h ++ take k (drop (ct_offset c) msg) ++ (if more then [] else crc_le crc) /\
    ct_body (read_at msg) n (h ++ s) more k start c =
      Some (mk_co more (out ++ fill (n - zlen out) 186 ++ drop n buf0) (zlen out)
        (if k =? 0 then [] else [(ct_offset c, k)])
        (mk_ct (ct_total c) (ct_multi c) (ct_single c) (ct_offset c + k) crc)).
Proof.
  intros Hst Hlen Hdrop Hk Hfit Hn Hn32 W Hoff Hfin. destruct W as [W1 W2 W3].
  set (off := ct_offset c) in *. set (d := take k (drop off msg)).
  assert (Ld : zlen d = k) by (unfold d; rewrite zlen_take, zlen_drop; lia).
  destruct (crc_piece off k (ct_crc c) ltac:(lia) Hk Hoff W3) as (crc & Ec & Ec').
  fold d in Ec. pose proof (zlen_nonneg h). rewrite zlen_app in Hlen.
  exists crc, (h ++ d ++ (if more then [] else crc_le crc)). split; [exact Ec'|]. split; [reflexivity|].
  unfold ct_body. fold off.
  (* data *)
  match goal with |- bind ?x ?f = _ => assert (E1 : exists s1, x = Some ((h ++ d) ++ s1, crc, start + k) /\
     zlen ((h ++ d) ++ s1) = zlen buf0 /\ drop n ((h ++ d) ++ s1) = drop n buf0) end.
  { destruct (k =? 0) eqn:Ek; cbn [negb].
    - assert (k = 0) by lia. exists s.
      assert (d = []) as Hd by (apply zlen_0_nil; lia). rewrite Hd in *. rewrite app_nil_r.
      assert (crc = ct_crc c) by (cbn [crc16_compute] in Ec; congruence). subst crc.
      split; [do 2 f_equal; lia|]. split; [rewrite zlen_app; lia|exact Hdrop].
    - rewrite read_at_some by lia. cbn [bind]. fold d.
      assert (Es : splice (h ++ s) start d = Some (h ++ d ++ drop (zlen d) s)) by (apply splice_app_pre; destruct more; lia).
      rewrite Es. cbn [bind]. rewrite Ec. cbn [bind]. rewrite u32_id by (unfold is_u32; destruct more; lia).
      exists (drop (zlen d) s). rewrite <- app_assoc. split; [reflexivity|].
      split; [rewrite (splice_zlen _ _ _ _ Es), zlen_app; lia|].
      rewrite (drop_splice _ _ _ _ n Es) by (destruct more; lia). exact Hdrop. }
  destruct E1 as (s1 & -> & L1 & D1). cbn [bind].
  match goal with |- bind ?x ?f = _ => assert (E2 : exists s2, x = Some ((h ++ d ++ (if more then [] else crc_le crc)) ++ s2, zlen (h ++ d ++ (if more then [] else crc_le crc))) /\
     zlen ((h ++ d ++ (if more then [] else crc_le crc)) ++ s2) = zlen buf0 /\ drop n ((h ++ d ++ (if more then [] else crc_le crc)) ++ s2) = drop n buf0) end.
  { destruct more; cbn [negb].
    - exists s1. rewrite app_nil_r. rewrite zlen_app at 1. split; [do 2 f_equal; lia|]. auto.
    - rewrite !zlen_app in L1. 
      destruct s1 as [|x [|y s1]]; [rewrite zlen_nil in L1; lia|rewrite zlen_cons, zlen_nil in L1; lia|].
      rewrite put_app_pre by (rewrite zlen_app; lia). cbn [bind].
      replace ((h ++ d) ++ Z.land crc 255 :: y :: s1) with (((h ++ d) ++ [Z.land crc 255]) ++ y :: s1) by (rewrite <- app_assoc; reflexivity).
      rewrite put_app_pre by (rewrite !zlen_app, zlen_cons, zlen_nil; lia). cbn [bind].
      exists s1. rewrite <- !app_assoc. unfold crc_le. cbn [app]. split; [do 2 f_equal; rewrite !zlen_app, !zlen_cons, zlen_nil; lia|].
      split; [rewrite !zlen_app, !zlen_cons in *; lia|].
      assert (Hx : forall a b, drop n ((h ++ d) ++ a :: b :: s1) = drop (n - zlen h - zlen d - 2) s1).
      { intros a b. rewrite drop_app_ge by (rewrite zlen_app; lia).
        change (a :: b :: s1) with ([a; b] ++ s1). rewrite drop_app_ge by (rewrite zlen_app, !zlen_cons, zlen_nil; lia).
        f_equal. rewrite zlen_app, !zlen_cons, zlen_nil. lia. }
      rewrite app_assoc. rewrite Hx in *. exact D1. }
  destruct E2 as (s2 & -> & L2 & D2). cbn [bind]. cbv zeta.
  set (out := h ++ d ++ (if more then [] else crc_le crc)) in *.
  assert (Lo : zlen out = start + k + (if more then 0 else 2)).
  { unfold out. destruct more; rewrite !zlen_app; unfold crc_le; rewrite ?zlen_cons, ?zlen_nil; lia. }
  clearbody out.
  rewrite (u32_id (n - zlen out)) by (unfold is_u32; destruct more; lia).
  rewrite (u32_id (off + k)) by (unfold is_u32; lia).
  assert (Ef : zlen (fill (n - zlen out) 186) = n - zlen out) by (apply zlen_fill; destruct more; lia).
  rewrite zlen_app in L2.
  destruct (n - zlen out =? 0) eqn:En; cbn [negb].
  - assert (n = zlen out) by lia. cbn [bind]. rewrite drop_app_exact in D2 by lia. subst s2.
    assert (Hz : fill (n - zlen out) 186 = []) by (apply zlen_0_nil; lia). rewrite Hz. reflexivity.
  - rewrite splice_app_pre by lia. cbn [bind]. rewrite Ef.
    rewrite drop_app_ge in D2 by (destruct more; lia). now rewrite D2.
Qed.

(** Everything one call does. *)
Definition out_head (c : chunk_ctx) (n : Z) (more : bool) (vi : list Z) : list Z :=
  if ct_offset c =? 0 then ct_hdr (more && negb (ct_multi c)) false :: (if more && negb (ct_multi c) then vi else [])
  else if ct_multi c then [] else ct_hdr more true :: vi.

Lemma ct_next_ok c buf n : cwf msg c -> 9 <= n -> n <= zlen buf -> n < 4294967296 ->
  exists more k vi crc out,
    varint_u32 (if ct_offset c =? 0 then zlen msg else ct_offset c) = Some vi /\
    crc16_compute 0 (take (ct_offset c + k) msg) = Some crc /\
    out = out_head c n more vi ++ take k (drop (ct_offset c) msg) ++ (if more then [] else crc_le crc) /\
    0 <= k /\ ct_offset c + k <= zlen msg /\ zlen out <= n /\
    (more = true -> 0 < k) /\ (more = false -> ct_offset c + k = zlen msg) /\
    (ct_offset c = 0 -> more = (n <? 3 + zlen msg)) /\
    ct_next (read_at msg) c buf n =
      Some (mk_co more (out ++ fill (n - zlen out) 186 ++ drop n buf) (zlen out)
        (if k =? 0 then [] else [(ct_offset c, k)])
        (mk_ct (ct_total c) (ct_multi c) (if ct_offset c =? 0 then 3 + zlen msg else ct_single c) (ct_offset c + k) crc)).
Proof.
  intros W H9 Hn Hn32. pose proof W as [W1 W2 W3].
  unfold ct_next. replace (n <? 9) with false by lia. unfold ct_head.
  destruct buf as [|b0 buf]; [rewrite zlen_nil in Hn; lia|]. rewrite zlen_cons in Hn.
  (* storing a varint at 1 and a header at 0 *)
  assert (SV : forall vi hdr, 1 <= zlen vi <= 5 ->
     exists s, splice (b0 :: buf) 1 vi = Some (b0 :: vi ++ s) /\ put (b0 :: vi ++ s) 0 hdr = Some (hdr :: vi ++ s) /\
       zlen (vi ++ s) = zlen buf /\ drop n (hdr :: vi ++ s) = drop n (b0 :: buf)).
  { intros vi hdr Hvi. exists (drop (zlen vi) buf).
    assert (E1 : splice (b0 :: buf) 1 vi = Some (b0 :: vi ++ drop (zlen vi) buf)).
    { change (b0 :: buf) with ([b0] ++ buf). rewrite splice_app_pre; [reflexivity|reflexivity|lia]. }
    assert (E2 : put (b0 :: vi ++ drop (zlen vi) buf) 0 hdr = Some (hdr :: vi ++ drop (zlen vi) buf)).
    { exact (put_app_pre [] b0 _ 0 hdr eq_refl). }
    split; [exact E1|]. split; [exact E2|]. split; [rewrite zlen_app, zlen_drop; lia|].
    unfold put in E2. rewrite (drop_splice _ _ _ _ n E2) by (change (zlen [hdr]) with 1; lia).
    apply (drop_splice _ _ _ _ n E1). lia. }
  destruct (ct_offset c =? 0) eqn:E0.
  - (* first chunk *)
    destruct (varint_u32_some (zlen msg)) as (vi & Ev & _ & Lv); [unfold is_u32; zl|].
    rewrite W1, Ev. cbn [bind].
    unfold ct_single_size. rewrite W1. rewrite (u32_id (1 + 2 + zlen msg)) by (unfold is_u32; zl).
    replace (1 + 2 + zlen msg) with (3 + zlen msg) by lia.
    destruct (SV vi (ct_hdr ((n <? 3 + zlen msg) && negb (ct_multi c)) false) Lv) as (s & Es & Ep & Lbuf & Dr).
    rewrite Es. cbn [bind]. rewrite Ep. cbn [bind]. cbn [ct_multi].
    set (c1 := mk_ct (zlen msg) (ct_multi c) (3 + zlen msg) (ct_offset c) (ct_crc c)).
    assert (Wc1 : cwf msg c1) by (constructor; [reflexivity|exact W2|exact W3]).
    assert (Ho : ct_offset c = 0) by lia.
    destruct (n <? 3 + zlen msg) eqn:Em; cbn [andb].
    + destruct (ct_multi c) eqn:Emu; cbn [negb].
      * (* multi-call, not yet complete *)
        rewrite (u32_id (n - 1)) by (unfold is_u32; lia).
        destruct (ct_body_ok [ct_hdr false false] (vi ++ s) true (Z.min (n - 1) (zlen msg)) 1 c1 n (b0 :: buf)) as (crc & out & Hcrc & Hout & Hbody);
          try assumption; try (cbn [ct_offset c1]; lia); try (rewrite ?zlen_cons; cbn [app]; rewrite ?zlen_cons; lia); try reflexivity.
        exists true, (Z.min (n - 1) (zlen msg)), vi, crc, out. cbn [ct_offset c1 ct_total ct_multi ct_single] in Hbody, Hcrc, Hout.
        split; [first [exact Ev|reflexivity]|]. split; [exact Hcrc|]. split; [unfold out_head; rewrite ?E0, ?Emu; cbn; exact Hout|].
        split; [lia|]. split; [lia|]. split; [rewrite Hout; zn; zl|].
        split; [lia|]. split; [discriminate|]. split; [auto|]. exact Hbody.
      * (* first of several chunks *)
        rewrite (u32_id (n - 1 - zlen vi)) by (unfold is_u32; lia).
        destruct (ct_body_ok (ct_hdr true false :: vi) s true (n - 1 - zlen vi) (1 + zlen vi) c1 n (b0 :: buf)) as (crc & out & Hcrc & Hout & Hbody);
          try assumption; try (cbn [ct_offset c1]; lia); try (rewrite ?zlen_cons; cbn [app]; rewrite ?zlen_cons; lia).
        exists true, (n - 1 - zlen vi), vi, crc, out. cbn [ct_offset c1 ct_total ct_multi ct_single] in Hbody, Hcrc, Hout.
        split; [first [exact Ev|reflexivity]|]. split; [exact Hcrc|]. split; [unfold out_head; rewrite ?E0, ?Emu; cbn; exact Hout|].
        split; [lia|]. split; [lia|]. split; [rewrite Hout; zn; zl|].
        split; [lia|]. split; [discriminate|]. split; [auto|]. exact Hbody.
    + (* everything fits *)
      assert (Hk : (if ct_multi c then Some (ct_hdr false false :: vi ++ s, false, Z.min (u32 (n - 1)) (zlen msg), 1, c1)
                    else Some (ct_hdr false false :: vi ++ s, false, zlen msg, 1, c1)) = Some (ct_hdr false false :: vi ++ s, false, zlen msg, 1, c1)).
      { destruct (ct_multi c); [|reflexivity]. rewrite u32_id by (unfold is_u32; lia). do 4 f_equal. lia. }
      cbn [ct_total ct_multi c1] in Hk |- *. rewrite Hk. cbn [bind].
      destruct (ct_body_ok [ct_hdr false false] (vi ++ s) false (zlen msg) 1 c1 n (b0 :: buf)) as (crc & out & Hcrc & Hout & Hbody);
        try assumption; try (cbn [ct_offset c1]; lia); try (rewrite ?zlen_cons; cbn [app]; rewrite ?zlen_cons; zl); try reflexivity.
      exists false, (zlen msg), vi, crc, out. cbn [ct_offset c1 ct_total ct_multi ct_single] in Hbody, Hcrc, Hout.
      split; [first [exact Ev|reflexivity]|]. split; [exact Hcrc|]. split; [unfold out_head; rewrite ?E0; cbn; exact Hout|].
      split; [zl|]. split; [lia|]. split; [rewrite Hout; unfold crc_le; zn; zl|].
      split; [discriminate|]. split; [lia|]. split; [auto|]. exact Hbody.
  - destruct (varint_u32_some (ct_offset c)) as (vi & Ev & _ & Lv); [unfold is_u32; zl|].
    rewrite (u32_id (ct_total c - ct_offset c)) by (unfold is_u32; lia).
    destruct (ct_multi c) eqn:Emu.
    + set (k := Z.min n (ct_total c - ct_offset c)).
      rewrite (u32_id (n - k)) by (unfold is_u32, k; lia). cbn [bind].
      destruct (ct_body_ok [] (b0 :: buf) (n - k <? 2) k 0 c n (b0 :: buf)) as (crc & out & Hcrc & Hout & Hbody);
        try assumption; try reflexivity; try (unfold k; lia); try (destruct (n - k <? 2) eqn:Ex; unfold k in *; lia).
      { rewrite zlen_cons; lia. }
      exists (n - k <? 2), k, vi, crc, out. cbn [app] in Hbody, Hout.
      split; [first [exact Ev|reflexivity]|]. split; [exact Hcrc|]. split; [unfold out_head; rewrite ?E0, ?Emu; cbn [app]; exact Hout|].
      split; [unfold k; lia|]. split; [unfold k; lia|].
      split; [rewrite Hout; unfold crc_le; destruct (n - k <? 2) eqn:Ex; zn; unfold k in *; zl|].
      split; [unfold k in *; lia|]. split; [unfold k in *; lia|]. split; [lia|]. rewrite ?Emu in Hbody. exact Hbody.
    + rewrite Ev. cbn [bind].
      rewrite (u32_id (n - 1 - zlen vi)) by (unfold is_u32; lia). 
      set (k := Z.min (n - 1 - zlen vi) (ct_total c - ct_offset c)).
      rewrite (u32_id (n - 1 - zlen vi - k)) by (unfold is_u32, k; lia).
      set (more := n - 1 - zlen vi - k <? 2).
      destruct (SV vi (ct_hdr more true) Lv) as (s & Es & Ep & Lbuf & Dr).
      rewrite Es. cbn [bind]. rewrite Ep. cbn [bind].
      destruct (ct_body_ok (ct_hdr more true :: vi) s more k (1 + zlen vi) c n (b0 :: buf)) as (crc & out & Hcrc & Hout & Hbody);
        try assumption; try (rewrite ?zlen_cons; cbn [app]; rewrite ?zlen_cons; lia); try (unfold k; lia);
        try (unfold more; destruct (n - 1 - zlen vi - k <? 2) eqn:Ex; unfold k in *; lia).
      exists more, k, vi, crc, out.
      split; [first [exact Ev|reflexivity]|]. split; [exact Hcrc|]. split; [unfold out_head; rewrite ?E0, ?Emu; exact Hout|].
      split; [unfold k; lia|]. split; [unfold k; lia|].
      split; [rewrite Hout; unfold crc_le; unfold more; destruct (n - 1 - zlen vi - k <? 2) eqn:Ex; zn; unfold k in *; zl|].
      split; [unfold more; unfold k in *; lia|]. split; [unfold more; unfold k in *; lia|]. split; [lia|]. rewrite ?Emu in Hbody. exact Hbody.
Qed.
End One.

(* ------------------------------------------------------------ parsing what was written *)
Lemma crc_le_val crc : is_u16 crc -> exists lo hi, crc_le crc = [lo; hi] /\ lo + 256 * hi = crc.
Proof.
  intros H. unfold crc_le. do 2 eexists. split; [reflexivity|].
  rewrite !land_255, shiftr_div by lia. change (2 ^ 8) with 256. unfold is_u16 in H.
  rewrite (Z.mod_small (crc / 256)) by (split; [apply Z.div_pos; lia|apply Z.div_lt_upper_bound; lia]).
  rewrite (Z.div_mod crc 256) at 3 by lia. lia.
Qed.

Lemma split_crc_le d crc : is_u16 crc -> split_crc (d ++ crc_le crc) = Some (d, crc).
Proof.
  intros H. destruct (crc_le_val crc H) as (lo & hi & -> & E). unfold split_crc.
  assert (L : zlen (d ++ [lo; hi]) = zlen d + 2) by (rewrite zlen_app; reflexivity).
  rewrite L. replace (zlen d + 2 <? 2) with false by zl.
  replace (zlen d + 2 - 2) with (zlen d) by lia.
  rewrite drop_app_exact, take_app_exact by reflexivity. now rewrite E.
Qed.

Lemma parse_whole d crc : is_u16 crc ->
  parse_chunk (ct_hdr false false :: d ++ crc_le crc) = Some (mk_chunk false false None d (Some crc)).
Proof. intros H. unfold parse_chunk. change (ct_hdr false false) with 8. cbn. now rewrite split_crc_le. Qed.

Lemma parse_first vi d v : (forall rest, leb_read (vi ++ rest) = Some (v, rest)) ->
  parse_chunk (ct_hdr true false :: vi ++ d) = Some (mk_chunk false true (Some v) d None).
Proof. intros H. unfold parse_chunk. change (ct_hdr true false) with 72. cbn. now rewrite H. Qed.

Lemma parse_cont vi d v : (forall rest, leb_read (vi ++ rest) = Some (v, rest)) ->
  parse_chunk (ct_hdr true true :: vi ++ d) = Some (mk_chunk true true (Some v) d None).
Proof. intros H. unfold parse_chunk. change (ct_hdr true true) with 192. cbn. now rewrite H. Qed.

Lemma parse_last vi d v crc : (forall rest, leb_read (vi ++ rest) = Some (v, rest)) -> is_u16 crc ->
  parse_chunk (ct_hdr false true :: vi ++ d ++ crc_le crc) = Some (mk_chunk true false (Some v) d (Some crc)).
Proof. intros H Hc. unfold parse_chunk. change (ct_hdr false true) with 128. cbn. now rewrite H, split_crc_le. Qed.

(* ------------------------------------------------------------ draining *)
Section Drain.
Variable msg : list Z.
Hypothesis Hb : bytes msg.
Hypothesis Hsz : zlen msg < 4294967293.

Lemma cwf_start m : cwf msg (ct_start (zlen msg) m).
Proof. constructor; cbn; [reflexivity|zl|reflexivity]. Qed.

Definition small (n : Z) : Prop := n < 4294967296.
Definition nonempty (l : list Z) : bool := negb (zlen l =? 0).
Definition usable (bufs : list (list Z)) : Z := zlen (filter (fun b => 9 <=? zlen b) bufs).

Lemma ct_next_small rd c buf n : n < 9 -> ct_next rd c buf n = Some (mk_co true buf 0 [] c).
Proof. intros. unfold ct_next. now replace (n <? 9) with true by lia. Qed.

(** Bounds, requests, progress. *)
Lemma drain_ok bufs : forall c, cwf msg c -> Forall (fun b => small (zlen b)) bufs ->
  (0 < ct_offset c -> ct_single c = 3 + zlen msg) ->
  exists outs fin reads c',
    ct_drain (read_at msg) c bufs = Some (outs, fin, reads, c') /\ cwf msg c' /\
    ct_multi c' = ct_multi c /\ covers (ct_offset c) (ct_offset c') reads /\
    Forall2 (fun o b => zlen o <= zlen b) outs (take (zlen outs) bufs) /\
    (fin = true -> ct_offset c' = zlen msg) /\
    (fin = false -> usable bufs <= ct_offset c' - ct_offset c) /\
    (fin = true \/ 0 < ct_offset c' -> ct_single c' = 3 + zlen msg).
Proof.
  induction bufs as [|b bufs IH]; intros c W F Hs; cbn [ct_drain].
  - exists [], false, [], c. split; [reflexivity|]. split; [exact W|]. split; [reflexivity|]. split; [reflexivity|].
    split; [constructor|]. split; [discriminate|]. split; [unfold usable; cbn [filter]; change (zlen (@nil (list Z))) with 0; lia|].
    intros [H|H]; [discriminate|auto].
  - inv F. destruct (zlen b <? 9) eqn:E9.
    + rewrite ct_next_small by lia. cbn [bind co_more co_len co_buf co_ctx co_reads]. rewrite take_0.
      destruct (IH c W H2 Hs) as (outs & fin & reads & c' & E & W' & M & Cv & Fl & F1 & F2 & F3).
      rewrite E. cbn [bind]. exists ([] :: outs), fin, reads, c'. split; [reflexivity|]. split; [exact W'|]. split; [exact M|].
      split; [exact Cv|]. split.
      { rewrite zlen_cons. change (b :: bufs) with ([b] ++ bufs). rewrite take_app_ge by (change (zlen [b]) with 1; zl).
        change (zlen [b]) with 1. replace (1 + zlen outs - 1) with (zlen outs) by lia. constructor; [apply zlen_nonneg|exact Fl]. }
      split; [exact F1|]. split; [|exact F3]. intros H. specialize (F2 H). unfold usable in *. cbn [filter].
      replace (9 <=? zlen b) with false by lia. exact F2.
    + destruct (ct_next_ok msg Hb Hsz c b (zlen b) W) as (more & k & vi & crc & out & Ev & Ec & Eo & K0 & K1 & Lo & Mk & Mf & Mi & En); [lia|lia|exact H1|].
      rewrite En. cbn [bind co_more co_len co_buf co_ctx co_reads]. rewrite take_app_exact by reflexivity.
      set (c1 := mk_ct _ _ _ _ crc).
      assert (W1 : cwf msg c1) by (constructor; cbn; [apply W|destruct W; lia|exact Ec]).
      assert (S1 : ct_single c1 = 3 + zlen msg).
      { cbn. destruct (ct_offset c =? 0) eqn:E0; [reflexivity|]. apply Hs. destruct W; lia. }
      assert (R : forall x reads, covers (ct_offset c + k) x reads -> covers (ct_offset c) x ((if k =? 0 then [] else [(ct_offset c, k)]) ++ reads)).
      { intros x reads Hc. destruct (k =? 0) eqn:Ek; cbn [app].
        - replace (ct_offset c) with (ct_offset c + k) by lia. exact Hc.
        - cbn [covers]. split; [reflexivity|]. split; [lia|exact Hc]. }
      destruct more.
      * destruct (IH c1 W1 H2) as (outs & fin & reads & c' & E & W' & M & Cv & Fl & F1 & F2 & F3); [intros; exact S1|].
        rewrite E. cbn [bind]. exists (out :: outs), fin, ((if k =? 0 then [] else [(ct_offset c, k)]) ++ reads), c'.
        split; [reflexivity|]. split; [exact W'|]. split; [exact M|]. split; [apply R; exact Cv|]. split.
        { rewrite zlen_cons. change (b :: bufs) with ([b] ++ bufs). rewrite take_app_ge by (change (zlen [b]) with 1; zl).
          change (zlen [b]) with 1. replace (1 + zlen outs - 1) with (zlen outs) by lia. constructor; [exact Lo|exact Fl]. }
        split; [exact F1|]. split; [|exact F3]. intros H. specialize (F2 H). specialize (Mk eq_refl). unfold usable in *. cbn [filter].
        replace (9 <=? zlen b) with true by lia. rewrite zlen_cons. cbn [ct_offset c1] in F2. lia.
      * exists [out], true, (if k =? 0 then [] else [(ct_offset c, k)]), c1. split; [reflexivity|]. split; [exact W1|]. split; [reflexivity|].
        split; [rewrite <- (app_nil_r (if k =? 0 then _ else _)); apply R; reflexivity|]. split.
        { change (zlen [out]) with 1. change (b :: bufs) with ([b] ++ bufs). rewrite take_app_exact by reflexivity. repeat constructor. exact Lo. }
        split; [intros; exact (Mf eq_refl)|]. split; [discriminate|]. intros; exact S1.
Qed.

(** Single call at a reached context: nothing beyond [n] changes, the unused part is scrubbed. *)
Lemma next_bounds c buf n : cwf msg c -> 0 <= n <= zlen buf -> small n ->
  exists o, ct_next (read_at msg) c buf n = Some o /\
    0 <= co_len o <= n /\ zlen (co_buf o) = zlen buf /\ drop n (co_buf o) = drop n buf /\
    (n < 9 -> co_more o = true /\ co_len o = 0 /\ co_buf o = buf /\ co_ctx o = c /\ co_reads o = []) /\
    (9 <= n -> 0 < co_len o /\ forall i, co_len o <= i < n -> get (co_buf o) i = Some 186).
Proof.
  intros W Hn Hn32. destruct (n <? 9) eqn:E9.
  - rewrite ct_next_small by lia. eexists. split; [reflexivity|]. cbn. split; [lia|]. split; [reflexivity|]. split; [reflexivity|].
    split; [auto|lia].
  - destruct (ct_next_ok msg Hb Hsz c buf n W) as (more & k & vi & crc & out & Ev & Ec & Eo & K0 & K1 & Lo & Mk & Mf & Mi & En); [lia|lia|exact Hn32|].
    rewrite En. eexists. split; [reflexivity|]. cbn [co_len co_buf co_more co_ctx co_reads].
    pose proof (zlen_nonneg out). assert (Lf : zlen (fill (n - zlen out) 186) = n - zlen out) by (apply zlen_fill; lia).
    split; [lia|]. split; [rewrite !zlen_app, Lf, zlen_drop; lia|].
    split; [rewrite app_assoc; apply drop_app_exact; rewrite zlen_app; lia|]. split; [lia|]. intros _. split.
    + rewrite Eo, !zlen_app. unfold crc_le. destruct more; [specialize (Mk eq_refl)|].
      * rewrite zlen_take, zlen_drop. pose proof (zlen_nonneg (out_head c n true vi)). change (zlen (@nil Z)) with 0. destruct W; lia.
      * pose proof (zlen_nonneg (out_head c n false vi)). pose proof (zlen_nonneg (take k (drop (ct_offset c) msg))). change (zlen [Z.land crc 255; Z.land (Z.shiftr crc 8) 255]) with 2. lia.
    + intros i Hi. rewrite get_app2 by lia. rewrite get_app1 by lia.
      unfold get. replace (i - zlen out <? 0) with false by lia. unfold fill.
      rewrite nth_error_repeat by lia. reflexivity.
Qed.

(** Normal mode: the receiver gets the message back. *)
Lemma drain_cont bufs : forall c outs reads c', cwf msg c -> Forall (fun b => small (zlen b)) bufs ->
  ct_multi c = false -> 0 < ct_offset c ->
  ct_drain (read_at msg) c bufs = Some (outs, true, reads, c') ->
  exists crc, rest_of_message (take (ct_offset c) msg) (filter nonempty outs) = Some (msg, crc) /\ crc16_compute 0 msg = Some crc.
Proof.
  induction bufs as [|b bufs IH]; intros c outs reads c' W F M H0 H; cbn [ct_drain] in H; [discriminate|]. inv F.
  destruct (zlen b <? 9) eqn:E9.
  - rewrite ct_next_small in H by lia. cbn [bind co_more co_len co_buf co_ctx co_reads] in H. rewrite take_0 in H.
    apply bind_inv in H; destruct H as (x & Hx & H). destruct x as [[[outs1 fin1] reads1] c1]. inv H. cbn [filter]. eapply IH; eauto.
  - destruct (ct_next_ok msg Hb Hsz c b (zlen b) W) as (more & k & vi & crc & out & Ev & Ec & Eo & K0 & K1 & Lo & Mk & Mf & Mi & En); [lia|lia|assumption|].
    rewrite En in H. cbn [bind co_more co_len co_buf co_ctx co_reads] in H. rewrite take_app_exact in H by reflexivity.
    unfold out_head in Eo. replace (ct_offset c =? 0) with false in * by lia. rewrite M in *.
    destruct (varint_u32_correct (ct_offset c)) as (e & Ee & _ & _ & Hr & _); [unfold is_u32; destruct W; lia|].
    assert (e = vi) by congruence. subst e. clear Ee.
    assert (Hne : nonempty out = true) by (rewrite Eo; unfold nonempty; cbn [app]; rewrite zlen_cons; zl).
    assert (Ho : ct_offset c =? zlen (take (ct_offset c) msg) = true) by (destruct W; rewrite zlen_take; lia).
    destruct W as [W1 W2 W3].
    destruct more.
    + apply bind_inv in H; destruct H as (x & Hx & H). destruct x as [[[outs1 fin1] reads1] c1]. inv H.
      eapply IH in Hx; [|constructor; cbn; [exact W1|lia|exact Ec]|assumption|reflexivity|cbn; lia].
      destruct Hx as (crc' & Hr' & Hc'). exists crc'. split; [|exact Hc'].
      cbn [filter]. rewrite Hne. cbn [rest_of_message app]. rewrite app_nil_r, (parse_cont _ _ _ Hr), Ho.
      rewrite <- take_plus by lia. exact Hr'.
    + inv H. exists crc. specialize (Mf eq_refl). rewrite Mf, take_all in Ec by lia. split; [|exact Ec].
      cbn [filter]. rewrite Hne. cbn [rest_of_message app].
      rewrite (parse_last _ _ _ _ Hr), Ho by (eapply crc16_u16; [|exact Hb|exact Ec]; unfold is_u16; lia).
      rewrite <- take_plus, Mf, take_all by lia. reflexivity.
Qed.

Lemma crc_is_crc crc : crc16_compute 0 msg = Some crc -> is_crc 0 msg crc.
Proof.
  intros H. destruct (crc16_correct 0 msg) as (r & E & _ & R & _); [unfold is_u16; lia|exact Hb|]. congruence.
Qed.

Lemma drain_receive bufs : forall c outs reads c', cwf msg c -> Forall (fun b => small (zlen b)) bufs ->
  ct_multi c = false -> ct_offset c = 0 ->
  ct_drain (read_at msg) c bufs = Some (outs, true, reads, c') ->
  exists crc, receive (filter nonempty outs) = Some (msg, crc) /\ crc16_compute 0 msg = Some crc.
Proof.
  induction bufs as [|b bufs IH]; intros c outs reads c' W F M H0 H; cbn [ct_drain] in H; [discriminate|]. inv F.
  destruct (zlen b <? 9) eqn:E9.
  - rewrite ct_next_small in H by lia. cbn [bind co_more co_len co_buf co_ctx co_reads] in H. rewrite take_0 in H.
    apply bind_inv in H; destruct H as (x & Hx & H). destruct x as [[[outs1 fin1] reads1] c1]. inv H. cbn [filter]. eapply IH; eauto.
  - destruct (ct_next_ok msg Hb Hsz c b (zlen b) W) as (more & k & vi & crc & out & Ev & Ec & Eo & K0 & K1 & Lo & Mk & Mf & Mi & En); [lia|lia|assumption|].
    rewrite En in H. cbn [bind co_more co_len co_buf co_ctx co_reads] in H. rewrite take_app_exact in H by reflexivity.
    unfold out_head in Eo. rewrite H0 in *. change (0 =? 0) with true in *. rewrite M in *. cbn [andb negb] in Eo. rewrite drop_0 in *.
    destruct (varint_u32_correct (zlen msg)) as (e & Ee & _ & _ & Hr & _); [unfold is_u32; zl|].
    assert (e = vi) by congruence. subst e. clear Ee. rewrite Z.add_0_l in *.
    assert (Hne : nonempty out = true) by (rewrite Eo; unfold nonempty; cbn [app]; rewrite zlen_cons; zl).
    destruct more; cbn [andb negb app] in Eo.
    + specialize (Mk eq_refl). apply bind_inv in H; destruct H as (x & Hx & H). destruct x as [[[outs1 fin1] reads1] c1]. inv H.
      apply drain_cont in Hx; [|constructor; cbn; [apply W|lia|exact Ec]|assumption|reflexivity|cbn; lia].
      destruct Hx as (crc' & Hr' & Hc'). exists crc'. split; [|exact Hc'].
      cbn [filter]. rewrite Hne. cbn [receive]. rewrite app_nil_r, (parse_first _ _ _ Hr). cbn [ct_offset] in Hr'. rewrite Hr'.
      now rewrite Z.eqb_refl.
    + inv H. exists crc. specialize (Mf eq_refl). rewrite take_all in Ec by lia. split; [|exact Ec].
      cbn [filter]. rewrite Hne. cbn [receive].
      rewrite parse_whole by (eapply crc16_u16; [|exact Hb|exact Ec]; unfold is_u16; lia).
      rewrite take_all by lia. reflexivity.
Qed.

(** Multi-call mode: the pieces are one chunk. *)
Lemma drain_multi bufs : forall c outs reads c', cwf msg c -> Forall (fun b => small (zlen b)) bufs ->
  ct_multi c = true -> 
  ct_drain (read_at msg) c bufs = Some (outs, true, reads, c') ->
  exists crc, concat outs = (if ct_offset c =? 0 then [ct_hdr false false] else []) ++ drop (ct_offset c) msg ++ crc_le crc /\ crc16_compute 0 msg = Some crc.
Proof.
  induction bufs as [|b bufs IH]; intros c outs reads c' W F M H; cbn [ct_drain] in H; [discriminate|]. inv F.
  destruct (zlen b <? 9) eqn:E9.
  - rewrite ct_next_small in H by lia. cbn [bind co_more co_len co_buf co_ctx co_reads] in H. rewrite take_0 in H.
    apply bind_inv in H; destruct H as (x & Hx & H). destruct x as [[[outs1 fin1] reads1] c1]. inv H. cbn [concat app]. eapply IH; eauto.
  - destruct (ct_next_ok msg Hb Hsz c b (zlen b) W) as (more & k & vi & crc & out & Ev & Ec & Eo & K0 & K1 & Lo & Mk & Mf & Mi & En); [lia|lia|assumption|].
    rewrite En in H. cbn [bind co_more co_len co_buf co_ctx co_reads] in H. rewrite take_app_exact in H by reflexivity.
    unfold out_head in Eo. rewrite M, andb_false_r in Eo. destruct W as [W1 W2 W3].
    assert (Hd : drop (ct_offset c) msg = take k (drop (ct_offset c) msg) ++ drop (ct_offset c + k) msg).
    { rewrite <- (take_drop k (drop (ct_offset c) msg)) at 1. rewrite drop_drop by lia. do 2 f_equal. lia. }
    destruct more.
    + specialize (Mk eq_refl). apply bind_inv in H; destruct H as (x & Hx & H). destruct x as [[[outs1 fin1] reads1] c1]. inv H.
      apply IH in Hx; [|constructor; cbn; [exact W1|lia|exact Ec]|assumption|exact M].
      destruct Hx as (crc' & Hr' & Hc'). exists crc'. split; [|exact Hc'].
      cbn [concat]. rewrite Hr'. cbn [ct_offset]. replace (ct_offset c + k =? 0) with false by lia. cbn [app]. rewrite app_nil_r.
      rewrite Hd at 2. destruct (ct_offset c =? 0); rewrite <- !app_assoc; reflexivity.
    + inv H. exists crc. specialize (Mf eq_refl). rewrite Mf, take_all in Ec by lia. split; [|exact Ec].
      cbn [concat]. rewrite app_nil_r. rewrite (take_all k (drop (ct_offset c) msg)) by (rewrite zlen_drop; lia).
      destruct (ct_offset c =? 0); reflexivity.
Qed.
End Drain.

(** A message of 2^32-3 bytes or more: the single chunk size wraps and the data is written past
    the end of the buffer. *)
Lemma huge_oob msg buf : 4294967293 <= zlen msg < 4294967296 -> 9 <= zlen buf < 4294967293 ->
  ct_next (read_at msg) (ct_start (zlen msg) false) buf (zlen buf) = None.
Proof.
  intros Hm Hn. unfold ct_next. replace (zlen buf <? 9) with false by lia. unfold ct_head. cbn [ct_offset ct_start ct_total ct_multi].
  change (0 =? 0) with true. cbv iota.
  destruct (varint_u32_some (zlen msg)) as (vi & -> & _ & Lv); [unfold is_u32; lia|]. cbn [bind].
  destruct (splice buf 1 vi) as [b1|] eqn:E1; [|reflexivity]. cbn [bind]. apply splice_zlen in E1.
  assert (Es : ct_single_size (ct_start (zlen msg) false) = zlen msg + 3 - 4294967296).
  { unfold ct_single_size, u32, ct_start. cbn [ct_total]. change (2 ^ 32) with 4294967296. symmetry. apply (Z.mod_unique _ _ 1); lia. }
  rewrite Es. replace (zlen buf <? zlen msg + 3 - 4294967296) with false by lia. cbn [andb negb].
  destruct (put b1 0 (ct_hdr false false)) as [bb|] eqn:E2; [|reflexivity]. cbn [bind ct_total ct_multi]. apply splice_zlen in E2.
  unfold ct_body. cbn [ct_offset ct_crc].
  replace (zlen msg =? 0) with false by lia. cbn [negb]. rewrite read_at_some by lia. cbn [bind]. rewrite drop_0, take_all by lia.
  destruct (splice bb 1 msg) eqn:E; [|reflexivity]. apply splice_inv in E as (_ & E & _). lia.
Qed.

Lemma huge_exists : exists msg, bytes msg /\ zlen msg = 4294967293.
Proof. exists (fill 4294967293 0). split; [apply bytes_fill; unfold is_u8; lia|apply zlen_fill; lia]. Qed.

Lemma chunks_reassemble msg bufs outs reads c :
  bytes msg -> zlen msg < 4294967293 -> Forall (fun b => zlen b < 4294967296) bufs ->
  ct_drain (read_at msg) (ct_start (zlen msg) false) bufs = Some (outs, true, reads, c) ->
  exists crc, receive (filter (fun o => negb (zlen o =? 0)) outs) = Some (msg, crc) /\ is_crc 0 msg crc.
Proof.
  intros Hb Hs F H. apply drain_receive in H; try assumption; try reflexivity; [|apply cwf_start].
  destruct H as (crc & R & C). exists crc. split; [exact R|]. now apply crc_is_crc.
Qed.

Lemma drain_never_fails msg multi bufs :
  bytes msg -> zlen msg < 4294967293 -> Forall (fun b => zlen b < 4294967296) bufs ->
  exists outs fin reads c,
    ct_drain (read_at msg) (ct_start (zlen msg) multi) bufs = Some (outs, fin, reads, c) /\
    covers 0 (ct_offset c) reads /\ 0 <= ct_offset c <= zlen msg /\
    (fin = true -> ct_offset c = zlen msg) /\
    Forall2 (fun o b => zlen o <= zlen b) outs (take (zlen outs) bufs).
Proof.
  intros Hb Hs F. destruct (drain_ok msg Hb Hs bufs (ct_start (zlen msg) multi)) as (outs & fin & reads & c & E & W & M & Cv & Fl & F1 & F2 & F3);
    [apply cwf_start|exact F|cbn; lia|]. exists outs, fin, reads, c. destruct W. auto.
Qed.

Lemma call_stays_in_buffer msg multi bufs outs reads c buf n :
  bytes msg -> zlen msg < 4294967293 -> Forall (fun b => zlen b < 4294967296) bufs ->
  ct_drain (read_at msg) (ct_start (zlen msg) multi) bufs = Some (outs, false, reads, c) ->
  0 <= n <= zlen buf -> n < 4294967296 ->
  exists o, ct_next (read_at msg) c buf n = Some o /\
    0 <= co_len o <= n /\ zlen (co_buf o) = zlen buf /\ drop n (co_buf o) = drop n buf /\
    (n < 9 -> co_more o = true /\ co_len o = 0 /\ co_buf o = buf /\ co_ctx o = c /\ co_reads o = []) /\
    (9 <= n -> 0 < co_len o /\ forall i, co_len o <= i < n -> get (co_buf o) i = Some 186).
Proof.
  intros Hb Hs F H Hn Hn32. destruct (drain_ok msg Hb Hs bufs (ct_start (zlen msg) multi)) as (outs' & fin & reads' & c' & E & W & _);
    [apply cwf_start|exact F|cbn; lia|]. assert (c' = c) by congruence. subst c'. now apply next_bounds.
Qed.

Lemma drain_terminates msg multi bufs :
  bytes msg -> zlen msg < 4294967293 -> Forall (fun b => zlen b < 4294967296) bufs ->
  zlen msg < zlen (filter (fun b => 9 <=? zlen b) bufs) ->
  exists outs reads c, ct_drain (read_at msg) (ct_start (zlen msg) multi) bufs = Some (outs, true, reads, c).
Proof.
  intros Hb Hs F Hn. destruct (drain_ok msg Hb Hs bufs (ct_start (zlen msg) multi)) as (outs & fin & reads & c & E & W & M & Cv & Fl & F1 & F2 & F3);
    [apply cwf_start|exact F|cbn; lia|]. destruct fin; [eauto|]. specialize (F2 eq_refl). unfold usable in F2. cbn in F2. destruct W. lia.
Qed.

Lemma huge_message :
  exists msg, bytes msg /\ zlen msg < 4294967296 /\
    forall buf, 9 <= zlen buf < 4294967293 ->
      ct_next (read_at msg) (ct_start (zlen msg) false) buf (zlen buf) = None.
Proof. destruct huge_exists as (msg & B & L). exists msg. split; [exact B|]. split; [lia|]. intros. apply huge_oob; lia. Qed.

Lemma multi_call_is_one_chunk msg bufs outs reads c :
  bytes msg -> zlen msg < 4294967293 -> Forall (fun b => zlen b < 4294967296) bufs ->
  ct_drain (read_at msg) (ct_start (zlen msg) true) bufs = Some (outs, true, reads, c) ->
  (exists crc, receive [concat outs] = Some (msg, crc) /\ is_crc 0 msg crc) /\
  zlen (concat outs) = ct_single c /\
  ct_single (ct_info (ct_start (zlen msg) true)) = ct_single c /\
  (forall buf, 3 + zlen msg <= zlen buf -> 9 <= zlen buf < 4294967296 ->
     exists reads' c', ct_drain (read_at msg) (ct_start (zlen msg) false) [buf] = Some ([concat outs], true, reads', c')).
Proof.
  intros Hb Hs F H.
  destruct (drain_ok msg Hb Hs bufs (ct_start (zlen msg) true)) as (outs' & fin & reads' & c' & E & W & M & Cv & Fl & F1 & F2 & F3);
    [apply cwf_start|exact F|cbn; lia|]. assert (c' = c) by congruence. subst c'.
  assert (S : ct_single c = 3 + zlen msg) by (apply F3; left; congruence). clear F1 F2 F3 E.
  apply drain_multi in H; try assumption; try reflexivity; [|apply cwf_start]. destruct H as (crc & R & C).
  cbn [ct_offset ct_start] in R. change (0 =? 0) with true in R. cbn [app] in R. rewrite drop_0 in R.
  assert (Hu : is_u16 crc) by (eapply crc16_u16; [|exact Hb|exact C]; unfold is_u16; lia).
  split. { exists crc. split; [|now apply crc_is_crc]. rewrite R. cbn [receive]. now rewrite parse_whole. }
  split. { rewrite R, S, zlen_cons, zlen_app. change (zlen (crc_le crc)) with 2. lia. }
  split. { rewrite S. unfold ct_info, ct_start. cbn [ct_offset]. change (negb (0 =? 0)) with false. cbv iota. cbn [ct_single].
    unfold ct_single_size. cbn [ct_total]. rewrite u32_id by (unfold is_u32; zl). lia. }
  intros buf Hl Hn. 
  destruct (ct_next_ok msg Hb Hs (ct_start (zlen msg) false) buf (zlen buf)) as (more & k & vi & crc' & out & Ev & Ec & Eo & K0 & K1 & Lo & Mk & Mf & Mi & En);
    [apply cwf_start|lia|lia|lia|].
  cbn [ct_drain]. rewrite En. cbn [bind co_more co_len co_buf co_reads co_ctx]. rewrite take_app_exact by reflexivity.
  assert (more = false) as -> by (rewrite (Mi eq_refl); lia). specialize (Mf eq_refl). cbn [ct_offset ct_start] in *. rewrite Z.add_0_l in Mf. subst k.
  do 2 eexists. rewrite Eo, R. rewrite Z.add_0_l, take_all in Ec by lia. unfold out_head. cbn [ct_offset ct_start ct_multi]. change (0 =? 0) with true. cbn [andb negb app].
  rewrite drop_0, take_all by lia. assert (crc' = crc) by congruence. subst crc'. reflexivity.
Qed.
