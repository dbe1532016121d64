(** Proofs about the Zephyr log backends. *)
From Verif Require Import Base Log ZephyrLog ZephyrLogSpec.

Definition agrees (r : option (list log_res * zl)) (q : option (list log_res * lg)) (P : zl -> Prop) : Prop :=
  match q with
  | None => r = None
  | Some (rs, l) => exists s, r = Some (rs, s) /\ z_log s = l /\ P s
  end.

Lemma log_run_app : forall cfg tse a b s,
  log_run cfg tse s (a ++ b) = do x <- log_run cfg tse s a; do y <- log_run cfg tse (snd (x : list log_res * lg)) b; Some (fst x ++ fst (y : list log_res * lg), snd y).
Proof.
  intros cfg tse a. induction a as [|o a IH]; intros b s; cbn [app log_run bind].
  - cbn [fst snd app]. destruct (log_run cfg tse s b) as [[rs s']|]; reflexivity.
  - destruct (log_step cfg tse s o) as [[r s1]|]; cbn [bind]; [|reflexivity]. rewrite IH.
    destruct (log_run cfg tse s1 a) as [[rs s2]|]; cbn [bind fst snd]; [|reflexivity].
    destruct (log_run cfg tse s2 b) as [[rs' s3]|]; reflexivity.
Qed.

(** A step and then the rest *)
Lemma agrees_app : forall cfg tse s a b (x : option (list log_res * zl)) k P Q,
  agrees x (log_run cfg tse (z_log s) a) P ->
  (forall s', P s' -> agrees (k s') (log_run cfg tse (z_log s') b) Q) ->
  agrees (do x <- x; let (rs, s) := (x : list log_res * zl) in do y <- k s; Some (rs ++ fst (y : list log_res * zl), snd y)) (log_run cfg tse (z_log s) (a ++ b)) Q.
Proof.
  intros cfg tse s a b x k P Q A K. rewrite log_run_app. unfold agrees in *.
  destruct (log_run cfg tse (z_log s) a) as [[rs l]|]; cbn [bind fst snd].
  2:{ rewrite A. reflexivity. }
  destruct A as (s' & -> & L & PS). cbn [bind]. specialize (K s' PS). rewrite <- L.
  destruct (log_run cfg tse (z_log s') b) as [[rs' l']|]; cbn [bind fst snd].
  - destruct K as (s2 & -> & L2 & Q2). cbn [bind fst snd]. exists s2. auto.
  - rewrite K. reflexivity.
Qed.

Lemma save_agrees : forall cfg tse s level ts t (P : zl -> Prop),
  (forall l, P (zset_log s l)) ->
  agrees (z_save cfg tse s level ts t) (log_run cfg tse (z_log s) [LSave level 0 ts t]) P.
Proof.
  intros cfg tse s level ts t P H. unfold agrees, z_save. cbn [log_run].
  destruct (log_step cfg tse (z_log s) (LSave level 0 ts t)) as [[r l]|]; cbn [bind fst snd]; [|reflexivity].
  exists (zset_log s l). split; [reflexivity|]. split; [reflexivity|apply H].
Qed.
Lemma use_agrees : forall cfg tse s o b k Q,
  (forall l, agrees (k (zset_log s l)) (log_run cfg tse l b) Q) ->
  agrees (do x <- log_step cfg tse (z_log s) o; let (res, lg) := (x : log_res * lg) in
          do y <- k (zset_log s lg); Some (res :: fst (y : list log_res * zl), snd y)) (log_run cfg tse (z_log s) (o :: b)) Q.
Proof.
  intros cfg tse s o b k Q K. cbn [log_run]. destruct (log_step cfg tse (z_log s) o) as [[r l]|]; cbn [bind]; [|reflexivity].
  specialize (K l). unfold agrees in *. destruct (log_run cfg tse l b) as [[rs l']|]; cbn [bind].
  - destruct K as (s2 & -> & L2 & Q2). exists s2. auto.
  - rewrite K. reflexivity.
Qed.

(** * Immediate mode *)
Lemma take_snoc_get : forall (l : list Z) i x, get l i = Some x -> take (i + 1) l = take i l ++ [x].
Proof.
  intros l i x G. pose proof (get_range _ _ _ G). rewrite take_plus by lia. rewrite (drop_get_cons l i x G). reflexivity.
Qed.
Lemma strip_app : forall fuel pre rest n, 0 <= n <= zlen pre -> zlen pre <= 128 -> 1 <= n ->
  exists k, 1 <= k <= n /\ strip_eol fuel (pre ++ rest) n = Some k /\ strip_eol fuel pre n = Some k /\
    (exists tail, take n pre = take k pre ++ tail /\ Forall eol tail) /\
    (n - k < Z.of_nat fuel -> k = 1 \/ exists c, get pre (k - 1) = Some c /\ ~ eol c).
Proof.
  induction fuel as [|fuel IH]; intros pre rest n N B P; cbn [strip_eol].
  - exists n. split; [lia|]. split; [reflexivity|]. split; [reflexivity|]. split; [|lia].
    exists []. split; [now rewrite app_nil_r|constructor].
  - rewrite u32_id by (unfold is_u32; lia). destruct (Z.gtb_spec (n - 1) 0) as [G|G].
    2:{ exists n. split; [lia|]. split; [reflexivity|]. split; [reflexivity|]. split; [|intros _; left; lia].
        exists []. split; [now rewrite app_nil_r|constructor]. }
    rewrite get_app1 by lia. destruct (get_some pre (n - 1) ltac:(lia)) as (c & C). rewrite C. cbn [bind].
    destruct ((c =? 13) || (c =? 10)) eqn:E.
    + destruct (IH pre rest (n - 1) ltac:(lia) B ltac:(lia)) as (k & K & E1 & E2 & (tail & T & F) & D).
      exists k. split; [lia|]. split; [exact E1|]. split; [exact E2|]. split.
      * exists (tail ++ [c]). split.
        -- rewrite app_assoc, <- T.
           replace (take n pre) with (take (n - 1 + 1) pre) by (f_equal; lia).
           rewrite (take_snoc_get pre (n - 1) c C). reflexivity.
        -- apply Forall_app. split; [exact F|]. constructor; [|constructor]. unfold eol. apply Bool.orb_true_iff in E. lia.
      * intros L. apply D. lia.
    + exists n. split; [lia|]. split; [reflexivity|]. split; [reflexivity|]. split.
      * exists []. split; [now rewrite app_nil_r|constructor].
      * intros _. right. exists c. split; [exact C|]. unfold eol. apply Bool.orb_false_elim in E. lia.
Qed.
Definition stripped (t : list Z) : list Z :=
  match strip_eol 129 (take 128 t) (zlen (take 128 t)) with Some n => take n (take 128 t) | None => [] end.

Lemma stripped_line : forall t, t <> [] -> line t (stripped t) /\
  forall rest, exists n, strip_eol 129 (take 128 t ++ rest) (zlen (take 128 t)) = Some n /\ 0 <= n <= zlen (take 128 t) /\ stripped t = take n (take 128 t).
Proof.
  intros t T. assert (L : 1 <= zlen t).
  { destruct t; [contradiction|]. rewrite zlen_cons. pose proof (zlen_nonneg t). lia. }
  set (p := take 128 t). assert (LP : 1 <= zlen p <= 128) by (unfold p; rewrite zlen_take; lia).
  assert (A : forall rest, exists k, 1 <= k <= zlen p /\ strip_eol 129 (p ++ rest) (zlen p) = Some k /\ strip_eol 129 p (zlen p) = Some k /\
    (exists tail, take (zlen p) p = take k p ++ tail /\ Forall eol tail) /\
    (zlen p - k < Z.of_nat 129 -> k = 1 \/ exists c, get p (k - 1) = Some c /\ ~ eol c)) by (intros rest; apply strip_app; lia).
  split.
  - destruct (A []) as (k & K & _ & E & (tail & TT & F) & D). unfold stripped. fold p. rewrite E.
    exists tail. fold p. rewrite (take_all (zlen p) p) in TT by lia. split; [exact TT|]. split; [exact F|].
    rewrite zlen_take. split; [lia|]. destruct (D ltac:(lia)) as [D1|(c & C & NE)]; [left; lia|].
    right. exists (take (k - 1) p), c. split; [|exact NE].
    replace (take k p) with (take (k - 1 + 1) p) by (f_equal; lia). apply take_snoc_get. exact C.
  - intros rest. destruct (A rest) as (k & K & E1 & E & _). exists k. split; [exact E1|]. split; [lia|].
    unfold stripped. fold p. rewrite E. reflexivity.
Qed.

Definition idle (seen : bool) (s : zl) : Prop := z_busy s = false /\ z_ctx s = seen /\ zlen (z_buf s) = 128 /\ z_off s = 0.
Definition working (seen : bool) (s : zl) : Prop := z_busy s = true /\ z_ctx s = seen /\ zlen (z_buf s) = 128 /\ z_off s = 0.

Lemma imm_items : forall cfg tse seen level ts l s t, t ++ chars l <> [] -> working seen s ->
  (exists rest, z_buf s = take 128 t ++ rest) ->
  agrees (z_items cfg tse Immediate s level ts (zlen (take 128 t)) l)
    (log_run cfg tse (z_log s) (uses l ++ [LSave level 0 ts (stripped (t ++ chars l))])) (working seen).
Proof.
  intros cfg tse seen level ts l. induction l as [|i l IH]; intros s t NE W (rest & B).
  - cbn [chars List.map List.concat uses app z_items] in *. rewrite app_nil_r in *. unfold imm_flush.
    destruct (stripped_line t NE) as (_ & A). destruct (A rest) as (n & E & N & ST). rewrite B, E. cbn [bind].
    rewrite read_at_some by (rewrite ?zlen_app; pose proof (zlen_nonneg rest); lia). cbn [bind]. rewrite drop_0, take_app_le by lia. rewrite <- ST.
    apply save_agrees. intros l. exact W.
  - destruct i as [c|o|isr z]; cbn [z_items chars uses List.map List.concat app] in *.
    + fold (chars l) in *. fold (uses l). unfold imm_char. destruct W as (W1 & W2 & W3 & W4).
      pose proof (zlen_nonneg t). rewrite zlen_take in *.
      destruct (Z.ltb_spec (Z.min (Z.max 0 128) (zlen t)) 128) as [C|C].
      * rewrite (take_all 128 t) in * by lia. replace (Z.min (Z.max 0 128) (zlen t)) with (zlen t) by lia.
        rewrite B in *. destruct rest as [|x rest]; [rewrite app_nil_r in W3; lia|].
        rewrite put_app_pre by lia. cbn [bind].
        assert (ET : zlen t + 1 = zlen (take 128 (t ++ [c]))) by (rewrite zlen_take, zlen_app; change (zlen [c]) with 1; lia).
        rewrite zlen_app, zlen_cons in W3.
        specialize (IH (zset_buf s (t ++ c :: rest) (z_off s)) (t ++ [c])). rewrite <- ET, <- app_assoc in IH. apply IH.
        -- destruct t; discriminate.
        -- split; [exact W1|]. split; [exact W2|]. split; [cbn [zset_buf z_buf]; rewrite zlen_app, zlen_cons; lia|exact W4].
        -- exists rest. cbn [zset_buf z_buf]. rewrite take_all by (rewrite zlen_app, zlen_cons, zlen_nil; lia). now rewrite <- app_assoc.
      * cbn [bind]. specialize (IH s (t ++ [c])).
        assert (TT : take 128 (t ++ [c]) = take 128 t) by (apply take_app_le; lia). rewrite TT, <- app_assoc in IH.
        rewrite zlen_take in IH. apply IH; [destruct t; discriminate|repeat split; assumption|exists rest; exact B].
    + fold (chars l) in *. fold (uses l). apply (use_agrees cfg tse s o _ (fun s => z_items cfg tse Immediate s level ts (zlen (take 128 t)) l)).
      intros lg. apply (IH (zset_log s lg) t NE); [exact W|exists rest; exact B].
    + fold (chars l) in *. fold (uses l). destruct W as (W1 & W2). rewrite W1. apply IH; [exact NE|split; assumption|exists rest; exact B].
Qed.

(** * Deferred mode *)
Fixpoint def_ops (level : Z) (ts : option Z) (cur : list Z) (l : list item) : list log_op :=
  match l with
  | [] => [LSave level 0 ts cur]
  | Ch c :: r => if zlen cur =? 128 then LSave level 0 ts cur :: def_ops level ts [c] r else def_ops level ts (cur ++ [c]) r
  | Use o :: r => o :: def_ops level ts cur r
  | Inner _ _ :: r => def_ops level ts cur r
  end.
Lemma def_ops_ok : forall level ts l cur, zlen cur <= 128 ->
  exists ps, pieces (cur ++ chars l) ps /\ mixed (uses l) (List.map (LSave level 0 ts) ps) (def_ops level ts cur l).
Proof.
  intros level ts l. induction l as [|i l IH]; intros cur C; cbn [def_ops].
  - exists [cur]. cbn [chars uses List.map List.concat]. rewrite app_nil_r. split; [apply pc_last; exact C|]. repeat constructor.
  - destruct i as [c|o|isr z]; cbn [chars uses List.map List.concat app]; fold (chars l); fold (uses l).
    + destruct (Z.eqb_spec (zlen cur) 128) as [E|E].
      * destruct (IH [c]) as (ps & P & M); [rewrite zlen_cons, zlen_nil; lia|].
        exists (cur :: ps). split; [apply pc_more; [exact E|discriminate|exact P]|]. cbn [List.map]. apply mx_r. exact M.
      * destruct (IH (cur ++ [c])) as (ps & P & M); [rewrite zlen_app, zlen_cons, zlen_nil; lia|].
        exists ps. rewrite <- app_assoc in P. split; assumption.
    + destruct (IH cur C) as (ps & P & M). exists ps. split; [exact P|]. apply mx_l. exact M.
    + apply IH. exact C.
Qed.

Definition filling (seen : bool) (cur : list Z) (s : zl) : Prop :=
  z_busy s = true /\ z_ctx s = seen /\ zlen (z_buf s) = 128 /\ z_off s = zlen cur /\ exists rest, z_buf s = cur ++ rest.
Lemma def_flush_agrees : forall cfg tse seen level ts cur s, zlen cur <= 128 -> filling seen cur s ->
  agrees (def_flush cfg tse s level ts) (log_run cfg tse (z_log s) [LSave level 0 ts cur]) (working seen).
Proof.
  intros cfg tse seen level ts cur s C (W1 & W2 & W3 & W4 & rest & B). unfold def_flush. rewrite W4.
  rewrite read_at_some by (pose proof (zlen_nonneg cur); lia). rewrite B, drop_0, take_app_exact by reflexivity. cbn [bind].
  pose proof (save_agrees cfg tse s level ts cur (fun s' => z_busy s' = true /\ z_ctx s' = seen /\ zlen (z_buf s') = 128)) as A.
  unfold agrees in *. destruct (log_run cfg tse (z_log s) [LSave level 0 ts cur]) as [[rs lg]|].
  - destruct A as (s' & -> & L & P); [intros lg'; cbn [zset_log z_busy z_ctx z_buf]; auto|]. cbn [bind fst snd].
    eexists. split; [reflexivity|]. split; [exact L|]. unfold working. cbn [zset_buf z_busy z_ctx z_buf z_off]. tauto.
  - rewrite A; [reflexivity|]. intros lg'; cbn [zset_log z_busy z_ctx z_buf]; auto.
Qed.
Lemma def_put : forall seen cur s c, zlen cur < 128 -> filling seen cur s ->
  exists b, put (z_buf s) (z_off s) c = Some b /\ filling seen (cur ++ [c]) (zset_buf s b (z_off s + 1)) .
Proof.
  intros seen cur s c C (W1 & W2 & W3 & W4 & rest & B). rewrite B, W4 in *.
  destruct rest as [|x rest]; [rewrite app_nil_r in W3; lia|]. rewrite put_app_pre by reflexivity.
  eexists. split; [reflexivity|]. unfold filling. cbn [zset_buf z_busy z_ctx z_buf z_off].
  rewrite !zlen_app, !zlen_cons, zlen_nil in *. split; [exact W1|]. split; [exact W2|]. split; [lia|]. split; [lia|]. exists rest. now rewrite <- app_assoc.
Qed.
Lemma def_items : forall cfg tse seen level ts l s cur, zlen cur <= 128 -> filling seen cur s ->
  agrees (z_items cfg tse Deferred s level ts 0 l) (log_run cfg tse (z_log s) (def_ops level ts cur l)) (working seen).
Proof.
  intros cfg tse seen level ts l. induction l as [|i l IH]; intros s cur C F.
  - cbn [z_items def_ops]. apply def_flush_agrees; assumption.
  - destruct i as [c|o|isr z]; cbn [z_items def_ops].
    + destruct (Z.eqb_spec (zlen cur) 128) as [E|E].
      * change (LSave level 0 ts cur :: def_ops level ts [c] l) with ([LSave level 0 ts cur] ++ def_ops level ts [c] l).
        apply (agrees_app cfg tse s _ _ (def_char cfg tse s level ts c) (fun s => z_items cfg tse Deferred s level ts 0 l) (filling seen [c])).
        -- unfold def_char. pose proof F as (_ & _ & _ & W4 & _). rewrite W4, E. change (128 =? 128) with true. cbv iota.
           pose proof (def_flush_agrees cfg tse seen level ts cur s C F) as A. unfold agrees in *.
           destruct (log_run cfg tse (z_log s) [LSave level 0 ts cur]) as [[rs lg]|].
           ++ destruct A as (s' & -> & L & (P1 & P2 & P3 & P4)). cbn [bind].
              destruct (def_put seen [] s' c) as (b & PB & FB); [rewrite zlen_nil; lia|split; [exact P1|]; split; [exact P2|]; split; [exact P3|]; split; [exact P4|exists (z_buf s'); reflexivity]|].
              rewrite PB. cbn [bind]. eexists. split; [reflexivity|]. split; [exact L|exact FB].
           ++ rewrite A. reflexivity.
        -- intros s' F'. apply IH; [rewrite zlen_cons, zlen_nil; lia|exact F'].
      * unfold def_char. pose proof F as (_ & _ & _ & W4 & _). rewrite W4. replace (zlen cur =? 128) with false by lia.
        cbn [bind]. destruct (def_put seen cur s c ltac:(lia) F) as (b & PB & FB). rewrite W4 in PB, FB. rewrite W4, PB. cbn [bind].
        specialize (IH _ (cur ++ [c]) ltac:(rewrite zlen_app, zlen_cons, zlen_nil; lia) FB). cbn [zset_buf z_log] in IH.
        unfold agrees in *. destruct (log_run cfg tse (z_log s) (def_ops level ts (cur ++ [c]) l)) as [[rs lg]|].
        -- destruct IH as (s' & E' & L & P). exists s'. unfold zset_buf in *. rewrite E'. auto.
        -- unfold zset_buf in *. rewrite IH. reflexivity.
    + apply (use_agrees cfg tse s o _ (fun s => z_items cfg tse Deferred s level ts 0 l)). intros lg. apply (IH (zset_log s lg) cur C). exact F.
    + pose proof F as (W1 & _). rewrite W1. apply IH; assumption.
Qed.

(** * Minimal mode *)
Lemma save_below : forall cfg tse s level ts a b, level < lg_min s -> log_step cfg tse s (LSave level 0 ts a) = log_step cfg tse s (LSave level 0 ts b).
Proof. intros cfg tse s level ts a b L. cbn [log_step]. unfold log_save. replace (level <? lg_min s) with true by lia. reflexivity. Qed.
Lemma min_items : forall cfg tse seen ts level l s t, 4 <= cfg -> cfg <= 128 \/ zlen (t ++ chars l) <= 127 -> working seen s ->
  (exists rest, z_buf s = take 127 t ++ rest) ->
  agrees (z_items cfg tse Minimal s level ts (zlen t) l)
    (log_run cfg tse (z_log s) (uses l ++ (if zlen (t ++ chars l) =? 0 then [] else [LSave 1 0 ts (take (cfg - room ts) (printed (t ++ chars l)))]))) (working seen).
Proof.
  intros cfg tse seen ts level l. induction l as [|i l IH]; intros s t CF OK W (rest & B).
  - cbn [chars List.map List.concat uses app z_items] in *. rewrite app_nil_r in *. unfold min_end.
    destruct W as (W1 & W2 & W3 & W4). pose proof (zlen_nonneg t). pose proof (zlen_take 127 t) as LT. 
    assert (R : exists x r, rest = x :: r).
    { destruct rest as [|x r]; [|eauto]. rewrite B, app_nil_r in W3. lia. }
    destruct R as (x & r & ->). rewrite B. replace (Z.min (zlen t) 127) with (zlen (take 127 t)) by lia.
    rewrite put_app_pre by reflexivity. cbn [bind].
    assert (W' : working seen (zset_buf s (take 127 t ++ 0 :: r) (z_off s))).
    { split; [exact W1|]. split; [exact W2|]. split; [|exact W4]. cbn [zset_buf z_buf]. rewrite B in W3. rewrite zlen_app, zlen_cons in *. lia. }
    destruct (Z.gtb_spec (zlen t) 0) as [G|G].
    + replace (zlen t =? 0) with false by lia. cbn [zset_buf z_log].
      destruct (Z.ltb_spec 1 (lg_min (z_log s))) as [M|M].
      * cbn [log_run]. rewrite (save_below cfg tse (z_log s) 1 ts _ [] M).
        apply (save_agrees cfg tse (zset_buf s (take 127 t ++ 0 :: r) (z_off s)) 1 ts [] (working seen)). intros lg. exact W'.
      * fold (room ts). cbn [zset_buf z_buf].
        assert (RM : 0 <= room ts <= 4) by (destruct ts; cbn; lia).
        assert (LB : zlen (take 127 t ++ 0 :: r) = 128) by (rewrite B in W3; rewrite zlen_app, zlen_cons in *; lia).
        rewrite read_at_some by lia. cbn [bind]. rewrite drop_0.
        assert (TX : take (Z.min (zlen t) (cfg - room ts)) (take 127 t ++ 0 :: r) = take (cfg - room ts) (printed t)).
        { unfold printed. destruct (Z.leb_spec (zlen t) 127) as [S|S].
          - rewrite (take_all 127 t) by lia. rewrite take_app_le by lia. destruct (Z.leb_spec (zlen t) (cfg - room ts)).
            + rewrite Z.min_l by lia. rewrite !take_all by lia. reflexivity.
            + rewrite Z.min_r by lia. reflexivity.
          - rewrite Z.min_r by lia. destruct (Z.leb_spec (cfg - room ts) 127) as [D|D].
            + rewrite !take_app_le by lia. reflexivity.
            + rewrite !take_app_ge by lia. f_equal. replace (cfg - room ts - zlen (take 127 t)) with 1 by lia. reflexivity. }
        rewrite TX. apply (save_agrees cfg tse (zset_buf s (take 127 t ++ 0 :: r) (z_off s)) 1 ts _ (working seen)). intros lg. exact W'.
    + replace (zlen t =? 0) with true by lia. cbn [log_run agrees]. eexists. split; [reflexivity|]. split; [reflexivity|exact W'].
  - destruct i as [c|o|isr z]; cbn [z_items chars uses List.map List.concat app] in *; fold (chars l) in *; fold (uses l).
    + unfold min_char. destruct W as (W1 & W2 & W3 & W4). pose proof (zlen_nonneg t).
      destruct (Z.ltb_spec (zlen t) 127) as [C|C].
      * rewrite (take_all 127 t) in * by lia. rewrite B in *. destruct rest as [|x rest]; [rewrite app_nil_r in W3; lia|].
        rewrite put_app_pre by reflexivity. cbn [bind]. rewrite zlen_app, zlen_cons in W3.
        specialize (IH (zset_buf s (t ++ c :: rest) (z_off s)) (t ++ [c]) CF). rewrite <- app_assoc in IH. cbn [app] in IH.
        replace (zlen (t ++ [c])) with (zlen t + 1) in IH by (rewrite zlen_app, zlen_cons, zlen_nil; lia). apply IH.
        -- exact OK.
        -- split; [exact W1|]. split; [exact W2|]. split; [cbn [zset_buf z_buf]; rewrite zlen_app, zlen_cons; lia|exact W4].
        -- exists rest. cbn [zset_buf z_buf]. rewrite take_all by (rewrite zlen_app, zlen_cons, zlen_nil; lia). now rewrite <- app_assoc.
      * cbn [bind]. specialize (IH s (t ++ [c]) CF). rewrite <- app_assoc in IH. cbn [app] in IH.
        replace (zlen (t ++ [c])) with (zlen t + 1) in IH by (rewrite zlen_app, zlen_cons, zlen_nil; lia). apply IH.
        -- exact OK.
        -- repeat split; assumption.
        -- exists rest. rewrite take_app_le by lia. exact B.
    + apply (use_agrees cfg tse s o _ (fun s => z_items cfg tse Minimal s level ts (zlen t) l)).
      intros lg. apply (IH (zset_log s lg) t CF OK); [exact W|exists rest; exact B].
    + destruct W as (W1 & W2). rewrite W1. apply IH; [exact CF|exact OK|split; assumption|exists rest; exact B].
Qed.

(** * Histories *)
Lemma map_level_ok : forall z, map_level z = severity z.
Proof.
  intros z. unfold map_level, severity. destruct (Z.eqb_spec z 1) as [->|]; [reflexivity|]. destruct (Z.eqb_spec z 2) as [->|]; [reflexivity|].
  destruct (Z.eqb_spec z 3) as [->|]; [reflexivity|]. destruct z as [|[[]|[]|]|]; try reflexivity; try lia; destruct p; try reflexivity; lia.
Qed.
Definition next_seen (m : mode) (seen : bool) (o : z_op) : bool :=
  match o with ZMessage isr _ _ _ => seen || negb (match m with Immediate => isr | _ => false end) | _ => seen end.

Definition ready (m : mode) (seen : bool) (s : zl) : Prop := exists c, idle c s /\ (m = Deferred -> c = seen).

Lemma agrees_weaken : forall r q (P Q : zl -> Prop) f, (forall s, z_log (f s) = z_log s) -> (forall s, P s -> Q (f s)) ->
  agrees r q P -> agrees (do x <- r; Some (fst (x : list log_res * zl), f (snd x))) q Q.
Proof.
  intros r q P Q f F H A. unfold agrees in *. destruct q as [[rs l]|].
  - destruct A as (s & -> & L & PS). cbn [bind fst snd]. exists (f s). split; [reflexivity|]. split; [rewrite F; exact L|apply H; exact PS].
  - rewrite A. reflexivity.
Qed.
Lemma working_idle : forall c s, working c s -> idle c (zset_busy s false).
Proof. intros c s (A & B & C & D). split; [reflexivity|]. split; [exact B|]. split; assumption. Qed.

Lemma message_agrees : forall cfg tse m seen isr z ts l, 4 <= cfg -> message_ok cfg m (ZMessage isr z ts l) ->
  exists ops, tells cfg m isr z ts l ops /\ forall s, ready m seen s ->
    agrees (z_message cfg tse m s isr z ts l) (log_run cfg tse (z_log s) ops) (ready m (next_seen m seen (ZMessage isr z ts l))).
Proof.
  intros cfg tse m seen isr z ts l CF OK.
  destruct m; cbn [message_ok tells next_seen] in *.
  - destruct isr.
    + exists []. split; [reflexivity|]. intros s (c & (I1 & I2 & I3 & I4) & IC); unfold z_message; rewrite I1, Bool.orb_false_r. cbn [log_run agrees]. exists s. split; [reflexivity|]. split; [reflexivity|].
      exists c. split; [split; [exact I1|]; auto|discriminate].
    + destruct OK as [OK|OK]; [discriminate|]. exists (uses l ++ [LSave (severity z) 0 ts (stripped (chars l))]).
      split; [exists (stripped (chars l)); split; [apply stripped_line; exact OK|reflexivity]|]. intros s (c & (I1 & I2 & I3 & I4) & IC); unfold z_message; rewrite I1, Bool.orb_false_r. 
      apply (agrees_weaken _ _ (working true) _ (fun s => zset_busy s false)); [reflexivity| |].
      * intros s' W. exists true. split; [apply working_idle; exact W|discriminate].
      * rewrite map_level_ok. apply (imm_items cfg tse true (severity z) ts l (zset_ctx (zset_busy s true)) []); [exact OK| |].
        -- split; [reflexivity|]. split; [reflexivity|]. split; assumption.
        -- exists (z_buf s). reflexivity.
  - destruct (def_ops_ok (severity z) ts l [] ltac:(rewrite zlen_nil; lia)) as (ps & P & M).
    exists (def_ops (severity z) ts [] l). split; [exists ps; split; assumption|]. intros s (c & (I1 & I2 & I3 & I4) & IC); unfold z_message; rewrite I1, Bool.orb_false_r. 
    apply (agrees_weaken _ _ (working true) _ (fun s => zset_busy s false)); [reflexivity| |].
    + intros s' W. exists true. split; [apply working_idle; exact W|]. intros _. rewrite Bool.orb_true_r. reflexivity.
    + rewrite map_level_ok. apply (def_items cfg tse true (severity z) ts l (zset_ctx (zset_busy s true)) []); [rewrite zlen_nil; lia|].
      split; [reflexivity|]. split; [reflexivity|]. split; [exact I3|]. split; [exact I4|]. exists (z_buf s). reflexivity.
  - eexists. split; [reflexivity|]. intros s (c & (I1 & I2 & I3 & I4) & IC); unfold z_message; rewrite I1, Bool.orb_false_r. 
    apply (agrees_weaken _ _ (working c) _ (fun s => zset_busy s false)); [reflexivity| |].
    + intros s' W. exists c. split; [apply working_idle; exact W|discriminate].
    + apply (min_items cfg tse c ts (map_level z) l (zset_busy s true) []); [exact CF|exact OK| |].
      * split; [reflexivity|]. split; [exact I2|]. split; assumption.
      * exists (z_buf s). reflexivity.
Qed.

Lemma parts_agree : forall cfg tse m seen junk ts parts s, ready m seen s ->
  agrees (z_parts cfg tse s junk ts parts) (log_run cfg tse (z_log s) (List.map (LSave junk 0 ts) parts)) (ready m seen).
Proof.
  intros cfg tse m seen junk ts parts. induction parts as [|p parts IH]; intros s R; cbn [z_parts List.map].
  - cbn [log_run agrees]. exists s. auto.
  - change (LSave junk 0 ts p :: List.map (LSave junk 0 ts) parts) with ([LSave junk 0 ts p] ++ List.map (LSave junk 0 ts) parts).
    apply (agrees_app cfg tse s _ _ (z_save cfg tse s junk ts p) (fun s => z_parts cfg tse s junk ts parts) (ready m seen)); [|exact IH].
    apply save_agrees. intros lg. exact R.
Qed.

Theorem amounts_to : forall cfg tse m h seen, 4 <= cfg -> Forall (message_ok cfg m) h -> noticed m seen h ->
  exists ops, amounts cfg m seen h ops /\
    forall s, ready m seen s -> agrees (zl_run cfg tse m s h) (log_run cfg tse (z_log s) ops) (fun _ => True).
Proof.
  intros cfg tse m h. induction h as [|o h IH]; intros seen CF OK N.
  - exists []. split; [constructor|]. intros s R. exists s. auto.
  - apply Forall_cons_iff in OK. destruct OK as (O1 & OK).
    assert (STEP : exists ops1, (forall r, amounts cfg m (next_seen m seen o) h r -> amounts cfg m seen (o :: h) (ops1 ++ r)) /\
              (forall s, ready m seen s -> agrees (zl_step cfg tse m s o) (log_run cfg tse (z_log s) ops1) (ready m (next_seen m seen o))) /\ noticed m (next_seen m seen o) h).
    { destruct o as [isr z ts l|junk ts parts|o]; cbn [zl_step noticed next_seen] in *.
      - destruct (message_agrees cfg tse m seen isr z ts l CF O1) as (ops1 & T & A).
        exists ops1. split; [intros r; apply am_message; exact T|]. split; [exact A|exact N].
      - destruct N as (NS & N).
        assert (D : m = Deferred \/ m <> Deferred) by (destruct m; [right|left|right]; congruence).
        destruct D as [D|D].
        + rewrite (NS D) in *. exists (List.map (LSave junk 0 ts) parts). split; [intros r; apply am_dropped; exact D|]. split; [|exact N].
          intros s R. rewrite D in *. unfold z_dropped. pose proof R as (c & I & C). pose proof I as (_ & IC & _). rewrite IC, (C eq_refl).
          apply parts_agree. exact R.
        + exists []. split; [intros r; apply am_undropped; exact D|]. split; [|exact N].
          intros s R. destruct m; [|contradiction|]; (exists s; split; [reflexivity|]; split; [reflexivity|exact R]).
      - exists [o]. split; [intros r; apply am_use|]. split; [|exact N].
        intros s R. cbn [log_run]. destruct (log_step cfg tse (z_log s) o) as [[res lg]|]; cbn [bind fst snd agrees]; [|reflexivity].
        exists (zset_log s lg). split; [reflexivity|]. split; [reflexivity|exact R]. }
    destruct STEP as (ops1 & AM & A & N1). destruct (IH (next_seen m seen o) CF OK N1) as (ops2 & AM2 & A2).
    exists (ops1 ++ ops2). split; [apply AM; exact AM2|]. intros s R. cbn [zl_run].
    apply (agrees_app cfg tse s ops1 ops2 (zl_step cfg tse m s o) (fun s => zl_run cfg tse m s h) (ready m (next_seen m seen o))); [apply A; exact R|exact A2].
Qed.

Theorem from_boot : forall cfg tse m h, 4 <= cfg -> Forall (message_ok cfg m) h -> noticed m false h ->
  exists ops, amounts cfg m false h ops /\
    forall l, match log_run cfg tse l ops with
              | Some (rs, l') => exists s, zl_run cfg tse m (zl_boot l) h = Some (rs, s) /\ z_log s = l'
              | None => zl_run cfg tse m (zl_boot l) h = None
              end.
Proof.
  intros cfg tse m h CF OK N. destruct (amounts_to cfg tse m h false CF OK N) as (ops & AM & A).
  exists ops. split; [exact AM|]. intros l. specialize (A (zl_boot l)). cbn [zl_boot z_log] in A. unfold agrees in A.
  assert (R : ready m false (zl_boot l)) by (exists false; split; [repeat split; reflexivity|reflexivity]).
  specialize (A R). destruct (log_run cfg tse l ops) as [[rs l']|]; [|exact A]. destruct A as (s & E & L & _). eauto.
Qed.
