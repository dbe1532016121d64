(** Proofs about the firmware updates. *)
From Verif Require Import Base HttpUtils HttpUtilsSpec HttpRequest HttpRequestSpec HttpUtilsProofs HttpRequestProofs ZephyrHttp ZephyrHttpSpec ZephyrOta ZephyrOtaSpec ZephyrOtaProofs ZephyrSock ZephyrSockSpec ZephyrSockProofs Fota FotaSpec.

(* ------------------------------------------------------------ the image writer *)
Definition img_ok (blk : Z) (s : img) (data : list Z) : Prop :=
  im_slot s ++ im_buf s = data /\ zlen (im_buf s) < blk /\ exists k, zlen (im_slot s) = k * blk.
Lemma img_write_ok blk s data d : 0 < blk -> img_ok blk s data -> img_ok blk (img_write blk s d false) (data ++ d).
Proof.
  intros B (E & L & k & K). unfold img_write. set (t := im_buf s ++ d). pose proof (zlen_nonneg t) as Nt.
  pose proof (Z.mod_pos_bound (zlen t) blk B) as Mb. pose proof (Z.div_mod (zlen t) blk ltac:(lia)) as Dm. pose proof (Z.div_pos (zlen t) blk Nt B) as Dp.
  set (n := zlen t / blk * blk). assert (Hn : 0 <= n <= zlen t /\ zlen t - n < blk) by (unfold n; nia).
  split; cbn [im_slot im_buf].
  - rewrite <- app_assoc, take_drop. unfold t. rewrite app_assoc, E. reflexivity.
  - split; [rewrite zlen_drop by lia; lia|]. exists (k + zlen t / blk). rewrite zlen_app, zlen_take by lia. unfold n. lia.
Qed.
Lemma img_ok_slot blk s data : 0 < blk -> img_ok blk s data -> im_slot s = whole_blocks blk data.
Proof.
  intros B (E & L & k & K). unfold whole_blocks. pose proof (zlen_nonneg (im_buf s)). subst data. rewrite zlen_app, K.
  replace ((k * blk + zlen (im_buf s)) / blk) with k.
  - rewrite <- K. now rewrite take_app_exact.
  - rewrite Z.add_comm, Z.div_add by lia. rewrite Z.div_small by lia. lia.
Qed.

(* ------------------------------------------------------------ the handler over a log *)
Lemma f_play_snoc e todo : forall c past k,
  f_play e c past (todo ++ [k]) =
  let '(_, c1, a1) := f_play e c past todo in
  let '(h, c2, a2) := f_handle e c1 (past ++ todo ++ [k]) k in (h, c2, a1 ++ a2).
Proof.
  induction todo as [|x todo IH]; intros c past k.
  - cbn [app f_play]. destruct (f_handle e c (past ++ [k]) k) as [[h c2] a2]. reflexivity.
  - cbn [app]. cbn [f_play]. destruct (f_handle e c (past ++ [x]) x) as [[h1 c1] a1]. rewrite IH. rewrite <- (app_assoc past [x]). cbn [app].
    destruct todo as [|y todo].
    + cbn [app f_play]. destruct (f_handle e c1 (past ++ [x; k]) k) as [[h c2] a2]. reflexivity.
    + cbn [app]. destruct (f_play e c1 (past ++ [x]) (y :: todo)) as [[h3 c3] a3].
      destruct (f_handle e c3 (past ++ x :: y :: todo ++ [k]) k) as [[h c2] a2]. now rewrite app_assoc.
Qed.
Lemma accepted_app a b : accepted (a ++ b) = accepted a ++ accepted b.
Proof. unfold accepted. now rewrite map_app, concat_app. Qed.
Lemma accepted_writes ds tail : accepted (map (fun d => AWrite d 0) ds ++ tail) = concat ds ++ accepted tail.
Proof. rewrite accepted_app. f_equal. unfold accepted. rewrite map_map. now rewrite map_id. Qed.
Lemma f_handle_img e c log k h c' a data : 0 < fe_blk e -> img_ok (fe_blk e) (fc_img c) data -> f_handle e c log k = (h, c', a) ->
  img_ok (fe_blk e) (fc_img c') (data ++ accepted a).
Proof.
  intros B I E. destruct k as [size|d|]; cbn [f_handle] in E.
  - injection E as <- <- <-. cbn [fc_img]. unfold accepted. cbn. now rewrite app_nil_r.
  - destruct (Z.eqb_spec (fe_write e log) 0) as [W|W]; cbn [negb] in E.
    + assert (Hc : c' = mk_fctx (fc_size c) (img_write (fe_blk e) (fc_img c) d false) /\ a = [AWrite d 0]) by (destruct (_ || _) in E; injection E as <- <- <-; auto).
      destruct Hc as [-> ->]. cbn [fc_img]. unfold accepted. cbn. rewrite app_nil_r. apply img_write_ok; assumption.
    + injection E as <- <- <-. unfold accepted. cbn. destruct (fe_write e log); [contradiction|now rewrite !app_nil_r|now rewrite !app_nil_r].
  - destruct (fe_cb e) as [rq|ok].
    + destruct (rq =? 0); cbn [negb] in E; injection E as <- <- <-; unfold accepted; cbn; now rewrite app_nil_r.
    + injection E as <- <- <-. unfold accepted. cbn. now rewrite app_nil_r.
Qed.
Lemma f_play_img e log h c a : 0 < fe_blk e -> f_play e c_init [] log = (h, c, a) -> img_ok (fe_blk e) (fc_img c) (accepted a).
Proof.
  intros B. revert h c a. induction log as [|k log IH] using rev_ind; intros h c a E.
  - cbn in E. injection E as <- <- <-. split; [reflexivity|]. split; [exact B|]. exists 0. reflexivity.
  - rewrite f_play_snoc in E. destruct (f_play e c_init [] log) as [[h1 c1] a1]. specialize (IH _ _ _ eq_refl).
    destruct (f_handle e c1 ([] ++ log ++ [k]) k) as [[h2 c2] a2] eqn:Eh. injection E as <- <- <-. rewrite accepted_app.
    exact (f_handle_img e c1 _ k h2 c2 a2 _ B IH Eh).
Qed.

(** A log all of whose calls but the last were answered with true *)
Definition good_log (e : fenv) (log : list h_call) : Prop := forall x c y, log = x ++ c :: y -> y <> [] -> f_ans e (x ++ [c]) = true.
Lemma good_prefix e log k : good_log e (log ++ [k]) -> log <> [] -> good_log e log /\ f_ans e log = true.
Proof.
  intros G N. destruct (exists_last N) as (l0 & z & ->). split.
  - intros x c y X Y. apply (G x c (y ++ [k])); [rewrite X, <- app_assoc; reflexivity|destruct y; discriminate].
  - apply (G l0 z [k]); [rewrite <- app_assoc; reflexivity|discriminate].
Qed.
(** The handler over the pieces of a download *)
Lemma img_le blk s data : img_ok blk s data -> zlen (im_slot s) <= zlen data.
Proof. intros (E & _). rewrite <- E, zlen_app. pose proof (zlen_nonneg (im_buf s)). lia. Qed.
Lemma f_play_pieces e size ps : 0 < fe_blk e -> forall h c a, good_log e (HUpdate size :: map HData ps) ->
  f_play e c_init [] (HUpdate size :: map HData ps) = (h, c, a) ->
  fc_size c = size /\ exists ds rest, a = map (fun d => AWrite d 0) ds ++ rest /\
    (h = HRet true -> ps = ds /\ rest = []) /\
    (h = HFault -> ps = ds /\ rest = [] /\ (size = 0 \/ 2147483648 <= zlen (concat ps) * 100)) /\
    (h = HRet false -> exists ps0 d rv, ps = ps0 ++ [d] /\ ds = ps0 /\ rest = [AWrite d rv] /\ rv <> 0) /\ h <> HReboot /\ img_ok (fe_blk e) (fc_img c) (concat ds).
Proof.
  intros B. induction ps as [|d ps IH] using rev_ind; intros h c a G E.
  - cbn in E. injection E as <- <- <-. split; [reflexivity|]. exists [], []. split; [reflexivity|]. split; [auto|]. split; [discriminate|]. split; [discriminate|]. split; [discriminate|].
    split; [reflexivity|]. split; [exact B|]. exists 0. reflexivity.
  - rewrite map_app in E, G. cbn [map] in E, G. rewrite app_comm_cons in E, G. destruct (good_prefix _ _ _ G ltac:(discriminate)) as [G1 A1]. rewrite f_play_snoc in E.
    unfold f_ans in A1. destruct (f_play e c_init [] (HUpdate size :: map HData ps)) as [[h1 c1] a1] eqn:E1. cbn [fst] in A1.
    destruct (IH h1 c1 a1 G1 eq_refl) as (Sz & ds & rest & Ea & T1 & _ & _ & _ & I1). destruct h1 as [[|]| |]; try discriminate. destruct (T1 eq_refl) as [<- ->]. rewrite app_nil_r in Ea. clear IH T1.
    destruct (f_handle e c1 ([] ++ (HUpdate size :: map HData ps) ++ [HData d]) (HData d)) as [[h2 c2] a2] eqn:Eh. injection E as <- <- <-. cbn [f_handle] in Eh.
    destruct (Z.eqb_spec (fe_write e ([] ++ (HUpdate size :: map HData ps) ++ [HData d])) 0) as [W|W]; cbn [negb] in Eh.
    + cbn [fc_size] in Eh. rewrite Sz in Eh.
      assert (Hc : c2 = mk_fctx size (img_write (fe_blk e) (fc_img c1) d false) /\ a2 = [AWrite d 0]) by (destruct (_ || _) in Eh; injection Eh as <- <- <-; auto).
      destruct Hc as [-> ->]. assert (I2 : img_ok (fe_blk e) (img_write (fe_blk e) (fc_img c1) d false) (concat (ps ++ [d]))) by (rewrite concat_app; cbn [concat]; rewrite app_nil_r; apply img_write_ok; [exact B|exact I1]).
      split; [reflexivity|]. exists (ps ++ [d]), []. rewrite Ea, map_app, app_nil_r. cbn [map]. split; [reflexivity|].
      split; [auto|]. split; [|split; [|split; [|exact I2]]].
      * intros ->. split; [reflexivity|]. split; [reflexivity|]. match type of Eh with context [if ?b then _ else _] => destruct b eqn:Q in Eh end; [|discriminate].
        apply orb_prop in Q as [Q|Q]; [right|left; lia]. cbn [fc_img] in Q. pose proof (img_le _ _ _ I2). lia.
      * intros ->. destruct (_ || _) in Eh; discriminate.
      * destruct (_ || _) in Eh; injection Eh as <-; discriminate.
    + injection Eh as <- <- <-. split; [exact Sz|]. exists ps, [AWrite d (fe_write e ([] ++ (HUpdate size :: map HData ps) ++ [HData d]))]. rewrite Ea. split; [reflexivity|]. split; [discriminate|]. split; [discriminate|].
      split; [intros _; eexists _, _, _; eauto|]. split; [discriminate|exact I1].
Qed.

(* ------------------------------------------------------------ the calls of the client, whatever the server sends *)
Section Calls.
Variable ans : list h_call -> bool.
Definition told (log : list h_call) : Prop := forall x c y, log = x ++ c :: y -> y <> [] -> ans (x ++ [c]) = true.
Lemma told_snoc log k : told log -> ans log = true -> log <> [] -> told (log ++ [k]).
Proof.
  intros T A N x c y X Y. destruct (exists_last Y) as (y0 & z & ->). rewrite app_comm_cons, app_assoc in X. apply app_inj_tail in X as [X _]. destruct y0 as [|w y0].
  - rewrite <- X. exact A.
  - apply (T x c (w :: y0) X). discriminate.
Qed.
Lemma loop_calls cap clen fuel : forall off log r b log' r', log <> [] -> told log -> ans log = true ->
  install_loop ans cap clen fuel off log r = Some (b, log', r') ->
  exists ps fin, log' = log ++ map HData ps ++ fin /\ (fin = [] \/ fin = [HComplete]) /\ told log' /\ (b = true -> fin = [HComplete] /\ ans log' = true).
Proof.
  induction fuel as [|fuel IH]; intros off log r b log' r' N T A E; [discriminate|]. cbn [install_loop] in E. destruct (off =? clen).
  - injection E as <- <- <-. exists [], [HComplete]. split; [reflexivity|]. split; [auto|]. split; [apply told_snoc; assumption|auto].
  - destruct (read_socket r (Z.min (u32 (clen - off)) cap)) as [[d|] r1].
    + destruct (ans (log ++ [HData d])) eqn:A1; cbn [negb] in E.
      * destruct (IH _ (log ++ [HData d]) _ _ _ _ ltac:(destruct log; discriminate) (told_snoc _ _ T A N) A1 E) as (ps & fin & -> & F & T' & Bt). exists (d :: ps), fin. rewrite <- !app_assoc in *. auto.
      * injection E as <- <- <-. exists [d], []. rewrite app_nil_r. split; [reflexivity|]. split; [auto|]. split; [apply told_snoc; assumption|discriminate].
    + injection E as <- <- <-. exists [], []. rewrite app_nil_r. split; [reflexivity|]. split; [auto|]. split; [exact T|discriminate].
Qed.
Lemma told_one k : told [k].
Proof. intros x c y X Y. destruct x as [|z x]; [injection X as _ <-; contradiction|]. injection X as _ X. destruct x; discriminate. Qed.
Definition calls_ok (b : bool) (log : list h_call) : Prop :=
  log = [] /\ b = false \/
  exists size ps fin, log = HUpdate size :: map HData ps ++ fin /\ (fin = [] \/ fin = [HComplete]) /\ told log /\ (b = true -> fin = [HComplete] /\ ans log = true).
Lemma install_calls cap r b log r' : install ans cap r = Some (b, log, r') -> calls_ok b log.
Proof.
  unfold install. intros E. apply bind_inv in E as ([o r1] & _ & E). destruct o as [[h got]|]; [|injection E as <- <- <-; left; auto].
  destruct (ans [HUpdate (h_clen h)]) eqn:A; cbn [negb] in E.
  2:{ injection E as <- <- <-. right. exists (h_clen h), [], []. split; [reflexivity|]. split; [auto|]. split; [apply told_one|discriminate]. }
  destruct (zlen got =? 0); cbn [negb andb] in E.
  - assert (N1 : [HUpdate (h_clen h)] <> []) by discriminate. destruct (loop_calls _ _ _ _ _ _ _ _ _ N1 (told_one _) A E) as (ps & fin & -> & R). right. exists (h_clen h), ps, fin. split; [reflexivity|exact R].
  - destruct (ans ([HUpdate (h_clen h)] ++ [HData got])) eqn:A2; cbn [negb] in E.
    + assert (N1 : [HUpdate (h_clen h)] <> []) by discriminate. assert (N2 : [HUpdate (h_clen h)] ++ [HData got] <> []) by discriminate. destruct (loop_calls _ _ _ _ _ _ _ _ _ N2 (told_snoc _ (HData got) (told_one _) A N1) A2 E) as (ps & fin & -> & R). right. exists (h_clen h), (got :: ps), fin. split; [reflexivity|exact R].
    + injection E as <- <- <-. right. exists (h_clen h), [got], []. split; [reflexivity|]. split; [auto|]. split; [exact (told_snoc [HUpdate (h_clen h)] (HData got) (told_one _) A ltac:(discriminate))|discriminate].
Qed.
Lemma update_calls o oc junk cap n1 n2 l rv s log l' : ota_update o oc junk ans cap n1 n2 l = Some (rv, s, log, l') -> calls_ok (rv =? 1) log /\ (rv = -1 \/ rv = 0 /\ log = [] \/ rv = 1).
Proof.
  unfold ota_update. intros E. apply bind_inv in E as ([[[ok url] s1] l1] & _ & E). destruct ok; cbn [negb] in E.
  2:{ injection E as <- <- <- <-. split; [left; auto|auto]. }
  destruct url as [mem|]; [|injection E as <- <- <- <-; split; [left; auto|auto]].
  apply bind_inv in E as ([[[ok s2] log2] l2] & Ef & E). injection E as <- <- <- <-.
  assert (C : calls_ok ok log2).
  { unfold fetch_ota in Ef. apply bind_inv in Ef as (i & _ & Ef). destruct i as [i|]; [|injection Ef as <- <- <- <-; left; auto].
    apply bind_inv in Ef as (host & _ & Ef). destruct (open_sock o l1 false) as [[fd res] l3]. destruct (fd <? 0); [injection Ef as <- <- <- <-; left; auto|].
    apply bind_inv in Ef as (q & _ & Ef). destruct (send_request (n_tx n2) q) as [b sn]. destruct b; cbn [negb] in Ef; [|injection Ef as <- <- <- <-; left; auto].
    apply bind_inv in Ef as ([[k lg] r] & Ei & Ef). injection Ef as <- <- <- <-. exact (install_calls _ _ _ _ _ Ei). }
  destruct ok; split; auto.
Qed.
End Calls.

(* ------------------------------------------------------------ a start *)
(** What the handler has done after the calls of a download *)
Lemma play_calls e b log h c a : 0 < fe_blk e -> calls_ok (f_ans e) b log -> f_play e c_init [] log = (h, c, a) ->
  (b = true -> h = HRet true) /\
  (h = HReboot -> upgraded (AInit 0 :: a) /\ exists size ps, log = HUpdate size :: map HData ps ++ [HComplete] /\ accepted a = concat ps /\ fe_cb e = Default 0) /\
  (In AReboot a -> h = HReboot) /\
  (h = HFault -> exists size ps, log = HUpdate size :: map HData ps /\ (size = 0 \/ 2147483648 <= zlen (concat ps) * 100)) /\
  (b = true -> exists size ps, log = HUpdate size :: map HData ps ++ [HComplete] /\ accepted a = concat ps /\ fe_cb e = Custom true).
Proof.
  intros B C E. destruct C as [[-> ->]|(size & ps & fin & -> & F & T & Bt)].
  - cbn in E. injection E as <- <- <-. split; [discriminate|]. split; [discriminate|]. split; [intros []|]. split; [discriminate|discriminate].
  - destruct F as [->| ->].
    + rewrite app_nil_r in *. destruct (f_play_pieces e size ps B h c a T E) as (Sz & ds & rest & -> & P1 & P2 & P3 & P4 & P5).
      split; [intros X; destruct (Bt X); discriminate|]. split; [intros X; contradiction|]. split; [|split; [intros X; destruct (P2 X) as (_ & _ & Q); eauto|intros X; destruct (Bt X); discriminate]].
      intros In. exfalso. destruct h as [[|]| |]; [destruct (P1 eq_refl) as [_ ->]|destruct (P3 eq_refl) as (? & ? & ? & _ & _ & -> & _)|contradiction|destruct (P2 eq_refl) as (_ & -> & _)];
        apply in_app_or in In as [In|In]; try (apply in_map_iff in In as (? & X & _); discriminate); cbn in In; intuition discriminate.
    + rewrite app_comm_cons in E, T, Bt. destruct (good_prefix e _ _ T ltac:(discriminate)) as [T1 A1]. rewrite f_play_snoc in E. unfold f_ans in A1.
      destruct (f_play e c_init [] (HUpdate size :: map HData ps)) as [[h1 c1] a1] eqn:E1. cbn [fst] in A1. destruct h1 as [[|]| |]; try discriminate.
      destruct (f_play_pieces e size ps B _ c1 a1 T1 E1) as (Sz & ds & rest & -> & P1 & _). destruct (P1 eq_refl) as [<- ->]. clear P1. rewrite app_nil_r in *.
      cbn [f_handle] in E. destruct (fe_cb e) as [rq|ok] eqn:Cb.
      * destruct (Z.eqb_spec rq 0) as [->|Nz]; cbn [negb] in E; injection E as <- <- <-.
        -- split; [intros X; destruct (Bt X) as [_ Y]; revert Y; unfold f_ans; rewrite f_play_snoc, E1; cbn [f_handle fst]; rewrite Cb; cbn; discriminate|].
           split; [|split; [reflexivity|split; [discriminate|]]].
           ++ intros _. split; [exists ps; reflexivity|]. exists size, ps. split; [reflexivity|]. split; [rewrite accepted_writes; unfold accepted; cbn; now rewrite app_nil_r|reflexivity].
           ++ intros X; destruct (Bt X) as [_ Y]; revert Y; unfold f_ans; rewrite f_play_snoc, E1; cbn [f_handle fst]; rewrite Cb; cbn; discriminate.
        -- assert (Nb : b = true -> False).
           { intros X; destruct (Bt X) as [_ Y]; revert Y; unfold f_ans; rewrite f_play_snoc, E1; cbn [f_handle fst]; rewrite Cb. destruct (Z.eqb_spec rq 0); [contradiction|]. cbn. discriminate. }
           split; [intros X; destruct (Nb X)|]. split; [discriminate|]. split; [|split; [discriminate|intros X; destruct (Nb X)]].
           intros In. exfalso. apply in_app_or in In as [In|[In|[]]]; [apply in_map_iff in In as (? & X & _)|]; discriminate.
      * injection E as <- <- <-. assert (Nb : b = true -> ok = true).
        { intros X; destruct (Bt X) as [_ Y]; revert Y; unfold f_ans; rewrite f_play_snoc, E1; cbn [f_handle fst]; rewrite Cb. cbn. auto. }
        rewrite app_nil_r. split; [intros X; now rewrite (Nb X)|]. split; [discriminate|]. split; [|split; [discriminate|]].
        -- intros In. exfalso. apply in_map_iff in In as (? & X & _). discriminate.
        -- intros X. rewrite (Nb X). exists size, ps. split; [reflexivity|]. split; [|reflexivity]. rewrite <- (app_nil_r (map _ ps)), accepted_writes. unfold accepted. cbn. apply app_nil_r.
Qed.

Theorem start_ok o oc junk e busy l res busy' c a l' : 0 < fe_blk e -> fota_start o oc junk e busy l = Some (res, busy', c, a, l') ->
  im_slot (fc_img c) = whole_blocks (fe_blk e) (accepted a) /\ (In AReboot a <-> res = Rebooted) /\ (res = Rebooted -> upgraded a).
Proof.
  intros B E. unfold fota_start in E. destruct busy; [injection E as <- <- <- <- <-; split; [reflexivity|]; split; [split; [intros []|discriminate]|discriminate]|].
  destruct (Z.eqb_spec (fe_init e) 0) as [I|I]; cbn [negb] in E.
  2:{ injection E as <- <- <- <- <-. split; [unfold whole_blocks, accepted; cbn; reflexivity|]. split; [split; [intros [X|[]]; discriminate|discriminate]|discriminate]. }
  apply bind_inv in E as ([[[rv s] log] l1] & Eu & E). destruct (f_play e c_init [] log) as [[h c1] a1] eqn:Ep. injection E as <- <- <- <- <-.
  destruct (update_calls _ _ _ _ _ _ _ _ _ _ _ _ Eu) as [C _]. destruct (play_calls e _ _ _ _ _ B C Ep) as (P1 & P2 & P3 & P4 & P5).
  pose proof (f_play_img e log h c1 a1 B Ep) as I1.
  split; [change (accepted (AInit 0 :: a1)) with (accepted a1); exact (img_ok_slot _ _ _ B I1)|]. split.
  - split; [intros [X|X]; [discriminate|rewrite (P3 X); reflexivity]|]. intros X. destruct h as [b| |]; try discriminate. destruct (P2 eq_refl) as [(ds & ->) _]. right. apply in_or_app. right. cbn. auto.
  - intros X. destruct h as [b| |]; try discriminate. exact (proj1 (P2 eq_refl)).
Qed.

Theorem start_served o oc junk e l hd1 code1 url missing1 hd2 code2 payload missing2 : fe_init e = 0 ->
  zlen junk = 48 -> bytes (oc_serial oc) -> bytes (oc_hwver oc) -> bytes (oc_swtype oc) -> bytes (oc_swver oc) ->
  Forall param_fits [oc_serial oc; oc_hwver oc; oc_swtype oc; oc_swver oc] -> 0 < fe_blk e ->
  bytes hd1 -> response_head hd1 code1 (zlen url) -> url <> [] -> serves (n_rx (fe_n1 e)) hd1 url missing1 ->
  bytes url -> ~ In 0 url -> ~ bare_scheme url ->
  bytes hd2 -> response_head hd2 code2 (zlen payload) -> payload <> [] -> serves (n_rx (fe_n2 e)) hd2 payload missing2 ->
  exists res c a l', fota_start o oc junk e false l = Some (res, false, c, a, l') /\
    (exists rest, payload = accepted a ++ rest) /\
    (res = Rebooted -> accepted a = payload /\ im_slot (fc_img c) = whole_blocks (fe_blk e) payload /\ fe_cb e = Default 0) /\
    (res = Ret 1 -> accepted a = payload /\ im_slot (fc_img c) = whole_blocks (fe_blk e) payload /\ fe_cb e = Custom true) /\
    (zlen payload * 100 < 2147483648 -> res <> Faulted).
Proof.
  intros I J B1 B2 B3 B4 Pf Cp Bh1 R1 N1 S1 Bu Nu Nb Bh2 R2 N2 S2.
  destruct (ota_whole o oc junk (f_ans e) (fe_blk e) (fe_n1 e) (fe_n2 e) l _ _ _ _ _ _ _ _ J B1 B2 B3 B4 Pf Cp Bh1 R1 N1 S1 Bu Nu Nb Bh2 R2 N2 S2)
    as (rv & s1 & s2 & log & l' & E & H & Rv & _ & _).
  destruct (update_calls _ _ _ _ _ _ _ _ _ _ _ _ E) as [C _]. destruct (f_play e c_init [] log) as [[h c] a] eqn:Ep.
  destruct (play_calls e _ _ _ _ _ Cp C Ep) as (P1 & P2 & P3 & P4 & P5). pose proof (f_play_img e log h c a Cp Ep) as I1. pose proof (img_ok_slot _ _ _ Cp I1) as Sl.
  assert (Es : fota_start o oc junk e false l = Some (match h with HRet _ => Ret rv | HReboot => Rebooted | HFault => Faulted end, false, c, AInit 0 :: a, l')).
  { unfold fota_start. rewrite I. change (0 =? 0) with true. cbn [negb]. rewrite E. cbn [bind]. rewrite Ep. reflexivity. }
  eexists _, _, _, _. split; [exact Es|]. change (accepted (AInit 0 :: a)) with (accepted a). rewrite Sl.
  assert (Nz : zlen payload <> 0) by (intros X; apply zlen_0_nil in X; contradiction).
  destruct H as [[-> Hb]|(ps & fin & rest & El & Epay & _ & Hf & Hg & Hok)].
  { cbn in Ep. injection Ep as <- <- <-. split; [exists payload; reflexivity|]. split; [discriminate|]. split; [intros X; injection X as ->; discriminate|discriminate]. }
  assert (Full : fin = [HComplete] -> concat ps = payload) by (intros ->; destruct Hf as [X|[_ X]]; [discriminate|]; rewrite Epay, X, app_nil_r; reflexivity).
  assert (Inj : forall size ps2, log = HUpdate size :: map HData ps2 ++ [HComplete] -> fin = [HComplete] /\ ps2 = ps).
  { intros size ps2 X. rewrite El in X. injection X as _ X. destruct Hf as [->|[-> _]].
    - exfalso. rewrite app_nil_r in X. assert (Y : In HComplete (map HData ps)) by (rewrite X; apply in_or_app; right; cbn; auto). apply in_map_iff in Y as (? & Y & _). discriminate.
    - split; [reflexivity|]. apply app_inj_tail in X as [X _]. clear - X. revert ps2 X. induction ps as [|p ps IH]; intros [|q qs] X; cbn in X; try discriminate; [reflexivity|]. injection X as -> X. f_equal. symmetry. rewrite (IH _ X). reflexivity. }
  split.
  { (* what was accepted is a prefix *)
    assert (Q : exists x y, ps = x ++ y /\ accepted a = concat x).
    { assert (Hps : good_log e (HUpdate (zlen payload) :: map HData ps)).
      { intros x k y X Y. apply (Hg x k (y ++ fin)); [rewrite El, app_comm_cons, X, <- app_assoc; reflexivity|destruct y; [contradiction|discriminate]]. }
      destruct (f_play e c_init [] (HUpdate (zlen payload) :: map HData ps)) as [[h1 c1] a1] eqn:E1.
      destruct (f_play_pieces e _ ps Cp h1 c1 a1 Hps E1) as (_ & ds & rs & Ea1 & T1 & T2 & T3 & T4 & _).
      assert (Q1 : exists x y, ps = x ++ y /\ accepted a1 = concat x).
      { destruct h1 as [[|]| |].
        - destruct (T1 eq_refl) as [<- ->]. exists ps, []. rewrite Ea1, accepted_writes. unfold accepted. cbn. rewrite !app_nil_r. auto.
        - destruct (T3 eq_refl) as (p0 & d & rv0 & -> & -> & -> & Rn). exists p0, [d]. split; [reflexivity|]. rewrite Ea1, accepted_writes. unfold accepted. cbn. destruct rv0; [contradiction|now rewrite app_nil_r|now rewrite app_nil_r].
        - contradiction.
        - destruct (T2 eq_refl) as (<- & -> & _). exists ps, []. rewrite Ea1, accepted_writes. unfold accepted. cbn. rewrite !app_nil_r. auto. }
      destruct Hf as [->|[-> _]].
      - rewrite El, app_nil_r, E1 in Ep. injection Ep as _ _ <-. exact Q1.
      - rewrite El, app_comm_cons, f_play_snoc, E1 in Ep. cbn [f_handle] in Ep. destruct Q1 as (x & y & Q1 & Q2). exists x, y. split; [exact Q1|]. rewrite <- Q2.
        destruct (fe_cb e) as [rq|ok]; [destruct (negb (rq =? 0))|]; injection Ep as _ _ <-; rewrite accepted_app; unfold accepted at 2; cbn; apply app_nil_r. }
    destruct Q as (x & y & Q1 & Q2). exists (concat y ++ rest). rewrite Q2, Epay, Q1, concat_app, app_assoc. reflexivity. }
  split; [|split].
  - intros X. destruct h as [b| |]; try discriminate. destruct (P2 eq_refl) as [_ (size & ps2 & L & Ac & Cb)]. destruct (Inj _ _ L) as [F ->]. rewrite Ac, (Full F). auto.
  - intros X. destruct h as [b| |]; try discriminate. injection X as ->. destruct (P5 eq_refl) as (size & ps2 & L & Ac & Cb). destruct (Inj _ _ L) as [F ->]. rewrite Ac, (Full F). auto.
  - intros Lt X. destruct h as [b| |]; try discriminate. destruct (P4 eq_refl) as (size & ps2 & L & Q). rewrite El in L. injection L as <- L.
    destruct Hf as [->|[-> _]]; [|exfalso; assert (Y : In HComplete (map HData ps2)) by (rewrite <- L; apply in_or_app; right; cbn; auto); apply in_map_iff in Y as (? & Y & _); discriminate].
    rewrite app_nil_r in L. assert (Eps : ps = ps2). { clear - L. revert ps2 L. induction ps as [|p ps IH]; intros [|q qs] X; cbn in X; try discriminate; [reflexivity|]. injection X as -> X. f_equal. exact (IH _ X). }
    subst ps2. destruct Q as [Q|Q]; [lia|]. rewrite Epay, zlen_app in Lt. pose proof (zlen_nonneg rest). lia.
Qed.

(* ------------------------------------------------------------ starts, one after the other *)
Theorem starts_run o oc junk es : Forall (fun e => fe_init e = 0) es -> forall l rs, fota_starts o oc junk es false l = Some rs ->
  Forall (fun p => exists t, snd p = AInit 0 :: t) rs.
Proof.
  induction 1 as [|e es I _ IH]; intros l rs E; cbn [fota_starts] in E; [injection E as <-; constructor|].
  apply bind_inv in E as ([[[[res busy] c] a] l1] & Es & E). unfold fota_start in Es. rewrite I in Es. change (0 =? 0) with true in Es. cbn [negb] in Es.
  apply bind_inv in Es as ([[[rv s] log] l2] & _ & Es). destruct (f_play e c_init [] log) as [[h c1] a1]. injection Es as <- <- <- <- <-.
  destruct h as [b| |].
  - apply bind_inv in E as (y & Ey & E). injection E as <-. constructor; [cbn; eauto|]. exact (IH _ _ Ey).
  - injection E as <-. constructor; [cbn; eauto|constructor].
  - injection E as <-. constructor; [cbn; eauto|constructor].
Qed.
Theorem blocked o oc junk es l : fota_starts o oc junk es true l = Some (map (fun _ => (Ret (-1), [])) es).
Proof. induction es as [|e es IH]; [reflexivity|]. cbn [fota_starts fota_start bind map]. rewrite IH. reflexivity. Qed.

(* ------------------------------------------------------------ the percentage *)
Lemma play_written e size ps : (forall l, fe_write e l = 0) -> 0 < fe_blk e ->
  exists h c a, f_play e c_init [] (HUpdate size :: map HData ps) = (h, c, a) /\ fc_size c = size /\ img_ok (fe_blk e) (fc_img c) (concat ps) /\
    (ps <> [] -> h = if (2147483648 <=? zlen (im_slot (fc_img c)) * 100) || (size =? 0) then HFault else HRet true).
Proof.
  intros W B. induction ps as [|d ps IH] using rev_ind.
  - eexists _, _, _. split; [reflexivity|]. split; [reflexivity|]. split; [|contradiction]. split; [reflexivity|]. split; [exact B|]. exists 0. reflexivity.
  - destruct IH as (h & c & a & E & Sz & I & _). rewrite map_app, app_comm_cons. cbn [map]. rewrite f_play_snoc, E. cbn [f_handle]. rewrite W. change (0 =? 0) with true. cbn [negb fc_size fc_img]. rewrite Sz.
    assert (I2 : img_ok (fe_blk e) (img_write (fe_blk e) (fc_img c) d false) (concat (ps ++ [d]))) by (rewrite concat_app; cbn [concat]; rewrite app_nil_r; apply img_write_ok; assumption).
    destruct ((2147483648 <=? zlen (im_slot (img_write (fe_blk e) (fc_img c) d false)) * 100) || (size =? 0)) eqn:Q;
      (eexists _, _, _; split; [reflexivity|]; split; [reflexivity|]; split; [exact I2|]; intros _; cbn [fc_img]; rewrite Q; reflexivity).
Qed.
Lemma zlen_concat_repeat (b : list Z) n k : zlen b = n -> zlen (concat (repeat b k)) = Z.of_nat k * n.
Proof. intros L. induction k as [|k IH]; [reflexivity|]. cbn [repeat concat]. rewrite zlen_app, IH, L. lia. Qed.
Theorem percent_fault e size k : (forall l, fe_write e l = 0) -> fe_blk e = 4096 -> 0 < size -> (0 < k)%nat ->
  fst (fst (f_play e c_init [] (HUpdate size :: map HData (repeat (fill 4096 0) k)))) = if Z.of_nat k <=? 5242 then HRet true else HFault.
Proof.
  intros W B Sz K. destruct (play_written e size (repeat (fill 4096 0) k) W ltac:(lia)) as (h & c & a & E & _ & I & H). rewrite E. cbn [fst].
  rewrite H by (destruct k; [lia|discriminate]). assert (Bp : 0 < fe_blk e) by lia. rewrite (img_ok_slot (fe_blk e) _ _ Bp I). rewrite B. unfold whole_blocks.
  assert (Lc : zlen (concat (repeat (fill 4096 0) k)) = Z.of_nat k * 4096) by (apply zlen_concat_repeat; rewrite zlen_fill by lia; reflexivity).
  rewrite Lc, Z.div_mul by lia. rewrite zlen_take, Lc. replace (Z.min (Z.max 0 (Z.of_nat k * 4096)) (Z.of_nat k * 4096)) with (Z.of_nat k * 4096) by lia. destruct (Z.leb_spec (Z.of_nat k) 5242) as [L|L].
  - replace (2147483648 <=? Z.of_nat k * 4096 * 100) with false by lia. replace (size =? 0) with false by lia. reflexivity.
  - replace (2147483648 <=? Z.of_nat k * 4096 * 100) with true by lia. reflexivity.
Qed.

(* ------------------------------------------------------------ nRF Connect SDK *)
Lemma strchr_ok c l : match strchr l c with
  | Some i => exists a b, l = a ++ c :: b /\ ~ In c a /\ i = zlen a
  | None => ~ In c l end.
Proof.
  induction l as [|x l IH]; [intros []|]. cbn [strchr]. destruct (Z.eqb_spec x c) as [->|N].
  - exists [], l. split; [reflexivity|]. split; [intros []|reflexivity].
  - destruct (strchr l c) as [i|].
    + destruct IH as (a & b & -> & Na & ->). exists (x :: a), b. split; [reflexivity|]. split; [intros [X|X]; [contradiction|exact (Na X)]|]. rewrite zlen_cons. lia.
    + intros [X|X]; [contradiction|exact (IH X)].
Qed.
Lemma cstr_stop u t : ~ In 0 u -> cstr (u ++ 0 :: t) = u.
Proof.
  induction u as [|c u IH]; intros N; [reflexivity|]. cbn. destruct (Z.eqb_spec c 0) as [->|_]; [exfalso; apply N; now left|].
  f_equal. apply IH. intros X. apply N. now right.
Qed.
Section NcsProofs.
Context (v : ncs) (o : os) (oc : o_cfg) (junk : list Z) (custom : bool) (lib : list dcall -> Z) (ealready : Z).

Lemma each_cert_ok u cs : forall rv0 q rv q', cs <> [] -> each_cert lib ealready u cs rv0 q = (rv, q') ->
  exists rvs calls, q' = q ++ calls /\ tried u ealready cs rvs calls /\ (exists x, rvs = x ++ [rv]) /\ exists q0, rv = lib q0.
Proof.
  induction cs as [|c cs IH]; intros rv0 q rv q' N E; [contradiction|]. cbn [each_cert] in E. destruct ((lib q =? 0) || (lib q =? ealready)) eqn:S.
  - injection E as <- <-. exists [lib q], [DGet u u [c] (lib q)]. split; [reflexivity|]. split; [|split; [exists []; reflexivity|eauto]].
    split; [destruct cs; reflexivity|]. split; [rewrite !zlen_cons; pose proof (zlen_nonneg cs); change (zlen (@nil Z)) with 0; lia|]. split.
    + intros x r y X Y. destruct x as [|w x]; [injection X as _ X; subst; contradiction|]. injection X as _ X. destruct x; discriminate.
    + intros _. exists [], (lib q). split; [reflexivity|]. lia.
  - apply orb_false_elim in S as [S1 S2]. destruct cs as [|c2 cs].
    + injection E as <- <-. exists [lib q], [DGet u u [c] (lib q)]. split; [reflexivity|]. split; [|split; [exists []; reflexivity|eauto]].
      split; [reflexivity|]. change (zlen [lib q]) with 1. change (zlen [c]) with 1. split; [lia|]. split; [|lia].
      intros x r y X Y. destruct x as [|w x]; [injection X as _ X; subst; contradiction|]. injection X as _ X. destruct x; discriminate.
    + destruct (IH (lib q) (q ++ [DGet u u [c] (lib q)]) rv q' ltac:(discriminate) E) as (rvs & calls & -> & (Q1 & Q2 & Q3 & Q4) & (x & Qx) & Ql).
      exists (lib q :: rvs), (DGet u u [c] (lib q) :: calls). split; [rewrite <- app_assoc; reflexivity|]. split; [|split; [exists (lib q :: x); rewrite Qx; reflexivity|exact Ql]].
      split; [cbn [combine map fst snd]; f_equal; exact Q1|]. rewrite (zlen_cons (lib q)), (zlen_cons c). split; [lia|]. split.
      * intros y r z Y Z. destruct y as [|w y]; [injection Y as <- _; lia|]. injection Y as _ Y. exact (Q3 _ _ _ Y Z).
      * intros L. destruct (Q4 ltac:(lia)) as (y & r & -> & R). exists (lib q :: y), r. auto.
Qed.

Lemma download_lib mem q rv mem' q' : lib_errors lib -> download v lib ealready mem q = Some (rv, mem', q') -> rv <= 0.
Proof.
  intros Le E. unfold download in E. destruct v.
  - destruct (strchr (cstr mem) 47); [|injection E as <- _ _; lia]. apply bind_inv in E as (m & _ & E). injection E as <- _ _. apply Le.
  - injection E as <- _ _. apply Le.
  - destruct (each_cert lib ealready (cstr mem) certs 0 q) as [r1 q1] eqn:X. injection E as <- _ _. destruct (each_cert_ok _ certs _ _ _ _ ltac:(discriminate) X) as (_ & _ & _ & _ & _ & q0 & ->). apply Le.
Qed.

(** What is held is the URL, and there is one exactly while a download runs. *)
Definition url_inv (s : nst) : Prop := ns_url s <> None <-> ns_dl s = true.
Lemma start_inv n s q l rv s' q' l' : addr_errors o -> lib_errors lib -> url_inv s -> ns_dl s = false ->
  ncs_start v o oc junk lib ealready n s q l = Some (rv, s', q', l') ->
  url_inv s' /\ (rv = 1 <-> ns_dl s' = true) /\ rv <= 1 /\
  exists d, l' = l ++ d /\ forall h, 0 <= d_addrs h -> 0 <= d_mem h -> after h d = Some (with_url (ns_url s') h).
Proof.
  intros Ae Le I Dl E. assert (Un : ns_url s = None). { destruct (ns_url s) eqn:X; [|reflexivity]. exfalso. assert (Y : ns_dl s = true) by (apply I; rewrite X; discriminate). congruence. }
  unfold ncs_start in E. apply bind_inv in E as ([[[ok got] sn] l1] & Ec & E). destruct (check_ok _ _ _ _ _ _ _ _ _ Ae Ec) as (P & d & -> & D). clear Ec. rewrite Un in E.
  assert (Fr : forall m h, 0 <= d_addrs h -> 0 <= d_mem h -> got = Some m -> after h (d ++ [EFree]) = Some (with_url None h)).
  { intros m h A M ->. rewrite after_app, D by assumption. cbn [after after1 d_mem d_fds d_addrs]. replace (d_mem h + 1 <=? 0) with false by lia. unfold with_url. do 2 f_equal. lia. }
  destruct ok; cbn [negb] in E.
  2:{ injection E as <- <- <- <-. rewrite Un, (P eq_refl) in *. split; [exact I|]. split; [split; [discriminate|congruence]|]. split; [lia|]. exists d. split; [reflexivity|]. intros h A M. exact (D h A M). }
  destruct got as [mem|].
  2:{ injection E as <- <- <- <-. rewrite Un. split; [exact I|]. split; [split; [discriminate|congruence]|]. split; [lia|]. exists d. split; [reflexivity|]. intros h A M. exact (D h A M). }
  pose proof (Le q) as Lq. destruct (Z.eqb_spec (lib q) 0) as [Z0|Z0]; cbn [negb] in E.
  - apply bind_inv in E as ([[rv1 mem1] q1] & Ed & E). pose proof (download_lib _ _ _ _ _ Le Ed) as Lr. destruct (Z.eqb_spec rv1 0) as [->|N1].
    + injection E as <- <- <- <-. cbn [ns_url ns_dl]. split; [split; [reflexivity|discriminate]|]. split; [tauto|]. split; [lia|]. exists d. split; [reflexivity|]. intros h A M. exact (D h A M).
    + replace (rv1 =? 1) with false in E by lia. cbn [url_cleanup release_download_url] in E. injection E as <- <- <- <-. cbn [ns_url ns_dl]. rewrite Dl. split; [split; [intros X; elim X; reflexivity|discriminate]|].
      split; [split; [lia|discriminate]|]. split; [lia|]. exists (d ++ [EFree]). split; [now rewrite app_assoc|]. intros h A M. exact (Fr mem h A M eq_refl).
  - replace (lib q =? 1) with false in E by lia. cbn [url_cleanup release_download_url] in E. injection E as <- <- <- <-. cbn [ns_url ns_dl]. rewrite Dl. split; [split; [intros X; elim X; reflexivity|discriminate]|].
    split; [split; [lia|discriminate]|]. split; [lia|]. exists (d ++ [EFree]). split; [now rewrite app_assoc|]. intros h A M. exact (Fr mem h A M eq_refl).
Qed.
Lemma event_inv e s q l r s' q' l' : url_inv s -> ncs_event custom e s q l = (r, s', q', l') ->
  url_inv s' /\ exists d, l' = l ++ d /\ forall h, 0 <= d_addrs h -> 0 <= d_mem h -> after (with_url (ns_url s) h) d = Some (with_url (ns_url s') h).
Proof.
  intros I E. assert (Same : exists d, l = l ++ d /\ forall h, 0 <= d_addrs h -> 0 <= d_mem h -> after (with_url (ns_url s) h) d = Some (with_url (ns_url s) h)) by (exists []; split; [now rewrite app_nil_r|reflexivity]).
  assert (Gone : exists d, release_download_url (ns_url s) l = l ++ d /\ forall h, 0 <= d_addrs h -> 0 <= d_mem h -> after (with_url (ns_url s) h) d = Some (with_url None h)).
  { destruct (ns_url s) as [m|].
    - exists [EFree]. split; [reflexivity|]. intros h A M. cbn [after after1 with_url d_mem d_fds d_addrs]. replace (d_mem h + 1 <=? 0) with false by lia. unfold with_url. do 2 f_equal. lia.
    - exists []. split; [now rewrite app_nil_r|reflexivity]. }
  assert (Iu : url_inv (mk_nst None false)) by (split; [intros X; elim X; reflexivity|discriminate]).
  destruct e, custom; cbn [ncs_event negb url_cleanup release_download_url ns_url] in E; injection E as <- <- <- <-; cbn [ns_url ns_dl]; auto.
  all: destruct s as [u dl]; cbn [ns_url ns_dl] in *; auto.
Qed.
Theorem run_inv ops : addr_errors o -> lib_errors lib -> forall s q l rvs s' q' l', url_inv s ->
  one_at_a_time v o oc junk custom lib ealready ops s q l -> ncs_run v o oc junk custom lib ealready ops s q l = Some (rvs, s', q', l') ->
  url_inv s' /\ exists d, l' = l ++ d /\ forall h, 0 <= d_addrs h -> 0 <= d_mem h -> after (with_url (ns_url s) h) d = Some (with_url (ns_url s') h).
Proof.
  intros Ae Le. induction ops as [|op ops IH]; intros s q l rvs s' q' l' I U E.
  - cbn in E. injection E as <- <- <- <-. split; [exact I|]. exists []. split; [now rewrite app_nil_r|reflexivity].
  - destruct op as [n|e]; cbn [ncs_run one_at_a_time] in E, U.
    + apply bind_inv in E as ([[[rv s1] q1] l1] & Es & E). apply bind_inv in E as ([[[rvs2 s2] q2] l2] & Er & E). injection E as <- <- <- <-. destruct U as [Dl U].
      destruct (start_inv _ _ _ _ _ _ _ _ Ae Le I Dl Es) as (I1 & _ & _ & d1 & -> & D1). destruct (IH _ _ _ _ _ _ _ I1 (U _ _ _ _ Es) Er) as (I2 & d2 & -> & D2).
      split; [exact I2|]. exists (d1 ++ d2). split; [now rewrite app_assoc|]. intros h A M. rewrite after_app.
      assert (Un : ns_url s = None). { destruct (ns_url s) eqn:X; [|reflexivity]. exfalso. assert (Y : ns_dl s = true) by (apply I; rewrite X; discriminate). congruence. }
      rewrite Un. replace (with_url None h) with h by (destruct h; unfold with_url; cbn; f_equal; lia). rewrite D1 by assumption. apply D2; assumption.
    + destruct (ncs_event custom e s q l) as [[[r s1] q1] l1] eqn:Ee. destruct U as [Dl U]. destruct (event_inv _ _ _ _ _ _ _ _ I Ee) as (I1 & d1 & -> & D1). destruct r.
      * injection E as <- <- <- <-. eauto.
      * destruct (IH _ _ _ _ _ _ _ I1 (U _ _ _ eq_refl) E) as (I2 & d2 & -> & D2). split; [exact I2|]. exists (d1 ++ d2). split; [now rewrite app_assoc|].
        intros h A M. rewrite after_app, D1 by assumption. apply D2; assumption.
Qed.

(** The requests for a URL *)
Lemma download_ok u q : ~ In 0 u -> exists rv mem calls, download v lib ealready (u ++ [0]) q = Some (rv, mem, q ++ calls) /\ requests v u ealready calls /\
  (rv = 0 <-> exists x host file cs, calls = x ++ [DGet host file cs 0]).
Proof.
  intros N. unfold download, requests. destruct v.
  - rewrite (cstr_stop u [] N). pose proof (strchr_ok 47 u) as S. destruct (strchr u 47) as [i|].
    + destruct S as (a & b & -> & Na & ->). rewrite <- app_assoc. cbn [app]. rewrite (put_app_pre a 47 (b ++ [0]) (zlen a) 0 eq_refl). cbn [bind].
      assert (N1 : ~ In 0 a) by (intros X; apply N, in_or_app; auto). assert (N2 : ~ In 0 b) by (intros X; apply N, in_or_app; right; now right).
      eexists _, _, _. split; [reflexivity|]. split.
      * right. exists a, b, (lib q). split; [reflexivity|]. split; [exact Na|]. rewrite (cstr_stop a _ N1).
        replace (drop (zlen a + 1) (a ++ 0 :: b ++ [0])) with (b ++ [0]); [now rewrite (cstr_stop b [] N2)|].
        change (a ++ 0 :: b ++ [0]) with (a ++ [0] ++ b ++ [0]). rewrite app_assoc. symmetry. apply drop_app_exact. rewrite zlen_app. reflexivity.
      * split; [intros ->; eexists [], _, _, _; reflexivity|]. intros (x & h & f & cs & X). destruct x as [|w x]; [now injection X as _ _ _ ->|]. injection X as _ X. destruct x; discriminate.
    + eexists _, _, []. rewrite app_nil_r. split; [reflexivity|]. split; [auto|]. split; [discriminate|]. intros (x & h & f & cs & X). destruct x; discriminate.
  - rewrite (cstr_stop u [] N). eexists _, _, _. split; [reflexivity|]. split; [eauto|]. split; [intros ->; eexists [], _, _, _; reflexivity|].
    intros (x & h & f & cs & X). destruct x as [|w x]; [now injection X as _ _ _ ->|]. injection X as _ X. destruct x; discriminate.
  - rewrite (cstr_stop u [] N). destruct (each_cert lib ealready u certs 0 q) as [rv q1] eqn:E. destruct (each_cert_ok _ certs _ _ _ _ ltac:(discriminate) E) as (rvs & calls & -> & T & (x & Qx) & _).
    exists rv, (u ++ [0]), calls. split; [reflexivity|]. split; [exists rvs; exact T|]. destruct T as (Q1 & Q2 & _). subst rvs calls.
    assert (Lx : zlen x < 3) by (rewrite zlen_app in Q2; change (zlen [rv]) with 1 in Q2; change (zlen certs) with 3 in Q2; lia).
    assert (L3 : exists pre c, map (fun p : Z * Z => DGet u u [fst p] (snd p)) (combine certs (x ++ [rv])) = pre ++ [DGet u u [c] rv]).
    { destruct x as [|x1 [|x2 [|x3 x]]]; cbn [certs combine app map fst snd]; [exists [], 1001|eexists [_], 1002|eexists [_; _], 1003|rewrite !zlen_cons in Lx; pose proof (zlen_nonneg x); lia]; reflexivity. }
    destruct L3 as (pre & c & ->). split; [intros ->; eexists _, _, _, _; reflexivity|]. intros (y & h & f & cs & X). apply app_inj_tail in X as [_ X]. now injection X as _ _ _ ->.
Qed.
Theorem start_requests n s q l hd1 code1 url missing1 : ns_url s = None ->
  zlen junk = 48 -> bytes (oc_serial oc) -> bytes (oc_hwver oc) -> bytes (oc_swtype oc) -> bytes (oc_swver oc) ->
  bytes hd1 -> response_head hd1 code1 (zlen url) -> url <> [] -> serves (n_rx n) hd1 url missing1 -> ~ In 0 url ->
  exists rv s' q' l', ncs_start v o oc junk lib ealready n s q l = Some (rv, s', q', l') /\
    (q' = q /\ (rv = -1 \/ rv = 0 /\ code1 < 400 /\ code1 <> 200) \/
     code1 = 200 /\ lib q <> 0 /\ q' = q ++ [DInit (lib q)] /\ rv = lib q \/
     code1 = 200 /\ lib q = 0 /\ exists calls, q' = q ++ DInit 0 :: calls /\ requests v url ealready calls /\
       ((exists x host file cs, calls = x ++ [DGet host file cs 0]) -> rv = 1)).
Proof.
  intros Un J B1 B2 B3 B4 Bh1 R1 N1 S1 Nu.
  assert (Z1 : zlen url <> 0) by (intros X; apply zlen_0_nil in X; contradiction).
  unfold ncs_start, check_ota. destruct (open_sock o l false) as [[fd res] l1]. destruct (fd <? 0).
  { cbn [bind negb]. eexists _, _, _, _. split; [reflexivity|]. auto. }
  destruct (latest_ok (fun _ => true) junk (oc_serial oc) (oc_hwver oc) (oc_swtype oc) (oc_swver oc) (oc_host oc) (oc_key oc) J B1 B2 B3 B4) as (qq & Eq & _).
  rewrite Eq. cbn [bind]. destruct (send_request (n_tx n) qq) as [b s1]. destruct b; cbn [negb].
  2:{ cbn [bind negb]. eexists _, _, _, _. split; [reflexivity|]. auto. }
  destruct (url_good hd1 url code1 (zlen url) Bh1 R1 eq_refl Z1 (os_alloc o l1) (n_rx n) missing1 S1) as (u & asked & Eu & U). rewrite Eu. cbn [bind].
  destruct u as [| |mem]; cbn [bind negb].
  - eexists _, _, _, _. split; [reflexivity|]. auto.
  - rewrite Un. eexists _, _, _, _. split; [reflexivity|]. left. split; [reflexivity|]. right. tauto.
  - destruct U as [C1 ->]. destruct (Z.eqb_spec (lib q) 0) as [Z0|Z0]; cbn [negb].
    + rewrite Z0. destruct (download_ok url (q ++ [DInit 0]) Nu) as (rv & mem & calls & -> & Rq & Ok). cbn [bind]. destruct (Z.eqb_spec rv 0) as [->|Nz].
      * eexists _, _, _, _. split; [reflexivity|]. right. right. split; [exact C1|]. split; [reflexivity|]. exists calls. split; [now rewrite <- app_assoc|]. split; [exact Rq|reflexivity].
      * destruct (rv =? 1); eexists _, _, _, _; (split; [reflexivity|]); right; right; (split; [exact C1|]); (split; [reflexivity|]); exists calls; (split; [now rewrite <- app_assoc|]); (split; [exact Rq|]); intros X; apply Ok in X; contradiction.
    + destruct (lib q =? 1); eexists _, _, _, _; (split; [reflexivity|]); right; left; (split; [exact C1|]); (split; [exact Z0|]); auto.
Qed.
End NcsProofs.
