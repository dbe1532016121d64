From Verif Require Import Base CircularBuffer CircularBufferSpec CircularBufferProofs Cbor CborProofs
  EventStorage EventStorageSpec EventStorageProofs Conc ConcSpec ConcProofs EventConc EventConcSpec.

(** Ghost state: where the oldest event starts in the ring, the committed events, the event being
    written as it is in the ring and as the queue has it, and how many events the read covers. *)
Record gh := mk_gh { g_start : Z; g_evs : list (list Z); g_part : option (list Z); g_vpart : option (list Z); g_reading : Z }.
Definition gval (g : gh) : sev := mk_sev (g_evs g) (g_vpart g) (g_reading g).
Definition plen (p : option (list Z)) : Z := match p with Some d => 2 + zlen d | None => 0 end.
Lemma plen_nonneg p : 0 <= plen p.
Proof. destruct p as [d|]; cbn; [pose proof (zlen_nonneg d)|]; lia. Qed.
Definition ring (n r p : Z) : Z := if r + p <? n then r + p else r + p - n.
Lemma ring_range n r p : 0 <= r < n -> 0 <= p < n -> 0 <= ring n r p < n.
Proof. intros. unfold ring. destruct (r + p <? n) eqn:E; lia. Qed.
Lemma ring_inj n r p q : 0 <= r < n -> 0 <= p < n -> 0 <= q < n -> ring n r p = ring n r q -> p = q.
Proof. intros. unfold ring in *. destruct (r + p <? n) eqn:E; destruct (r + q <? n) eqn:E2; lia. Qed.
Lemma ring_plus n r p t : 0 <= r < n -> 0 <= p < n -> 0 <= t -> ring n r p + t < n -> p + t < n -> ring n r (p + t) = ring n r p + t.
Proof. intros. unfold ring in *. destruct (r + p <? n) eqn:E; destruct (r + (p + t) <? n) eqn:E2; lia. Qed.
Lemma ring_wrap n r p m t : 0 <= r < n -> 0 <= p < n -> 0 <= m -> 0 <= t -> m = n - ring n r p -> p + m + t < n -> ring n r (p + m + t) = t.
Proof. intros. unfold ring in *. destruct (r + p <? n) eqn:E; destruct (r + (p + m + t) <? n) eqn:E2; lia. Qed.
(** The committed events are in the ring. *)
Definition committed (n : Z) (m : list Z) (start : Z) (evs : list (list Z)) : Prop :=
  forall j, 0 <= j < cost evs -> get m (ring n start j) = get (enc evs) j.

Section One.
Variables (bc : es_cfg) (n : Z).
Definition conf : Type := (es * option nat * gh)%type.

Record good' (s : es) (ow : option nat) (g : gh) : Prop := {
  d_wf : cb_wf (es_cb s);
  d_tot : tot (es_cb s) = n;
  d_start : 0 <= g_start g < n;
  d_fine : Forall ev_fine (g_evs g);
  d_sz : sz (es_cb s) = cost (g_evs g) + plen (g_part g);
  d_com : committed n (st (es_cb s)) (g_start g) (g_evs g);
  d_rd : ow <> Some 1%nat -> rd (es_cb s) = g_start g;
  d_part : ow <> Some 0%nat -> content (mk_cbuf (g_start g) (sz (es_cb s)) n (st (es_cb s))) = enc (g_evs g) ++ part_bytes (g_part g);
  d_k : 0 <= g_reading g <= zlen (g_evs g) }.
Definition good (c : conf) : Prop := let '(s, ow, g) := c in good' s ow g.
Definition rstate (s : es) : Z * Z * list Z := (es_active s, es_num s, es_hdr s).
Definition wstate (s : es) : bool * Z := (es_wip s, es_written s).

Definition rely (t : nat) (c c' : conf) : Prop :=
  let '(s, ow, g) := c in let '(s', ow', g') := c' in
  (ow = Some t <-> ow' = Some t) /\
  match t with
  | O => wstate s' = wstate s /\ g_part g' = g_part g /\ g_vpart g' = g_vpart g /\ cost (g_evs g') <= cost (g_evs g) /\
         (ow = Some O -> es_cb s' = es_cb s /\ g_start g' = g_start g /\ g_evs g' = g_evs g)
  | S O => rd (es_cb s') = rd (es_cb s) /\ g_start g' = g_start g /\ rstate s' = rstate s /\ g_reading g' = g_reading g /\
         (exists new, g_evs g' = g_evs g ++ new) /\
         (ow = Some (S O) -> es_cb s' = es_cb s /\ g_evs g' = g_evs g /\ g_part g' = g_part g)
  | _ => True
  end.
Lemma rely_refl t c : rely t c c.
Proof.
  destruct c as ((s & ow) & g). split; [reflexivity|]. destruct t as [|[|t]]; cbn; [| |exact I].
  - repeat split; try reflexivity; lia.
  - repeat split; try reflexivity. exists []. now rewrite app_nil_r.
Qed.
Lemma rely_trans t a b c : rely t a b -> rely t b c -> rely t a c.
Proof.
  destruct a as ((s1 & o1) & g1), b as ((s2 & o2) & g2), c as ((s3 & o3) & g3). intros (H1 & H2) (H3 & H4).
  split; [rewrite H1; exact H3|]. destruct t as [|[|t]]; [| |exact I].
  - destruct H2 as (A1 & A2 & A3 & A4 & A5), H4 as (B1 & B2 & B3 & B4 & B5).
    refine (conj _ (conj _ (conj _ (conj _ _)))); try congruence; [lia|]. intros E.
    destruct (A5 E) as (C1 & C2 & C3). destruct (B5 (proj1 H1 E)) as (D1 & D2 & D3). split; [congruence|split; congruence].
  - destruct H2 as (A1 & A2 & A3 & A4 & (n1 & A5) & A6), H4 as (B1 & B2 & B3 & B4 & (n2 & B5) & B6).
    refine (conj _ (conj _ (conj _ (conj _ (conj _ _))))); try congruence.
    + exists (n1 ++ n2). rewrite B5, A5. now rewrite app_assoc.
    + intros E. destruct (A6 E) as (C1 & C2 & C3). destruct (B6 (proj1 H1 E)) as (D1 & D2 & D3). split; [congruence|split; congruence].
Qed.

Notation wp := (wp es es_op es_res sev gh (sev_step bc n) gval good rely).
Notation linstep := (linstep es_op es_res sev gh (sev_step bc n) gval).

(** What the recorder, or the sender, knows while it has the lock. *)
Definition keptW (s : es) (g : gh) (c : conf) : Prop :=
  let '(s', ow, g') := c in ow = Some O /\ es_cb s' = es_cb s /\ wstate s' = wstate s /\
    g_start g' = g_start g /\ g_evs g' = g_evs g /\ g_part g' = g_part g /\ g_vpart g' = g_vpart g.
Definition keptR (s : es) (g : gh) (c : conf) : Prop :=
  let '(s', ow, g') := c in ow = Some (S O) /\ es_cb s' = es_cb s /\ rstate s' = rstate s /\
    g_start g' = g_start g /\ g_evs g' = g_evs g /\ g_part g' = g_part g /\ g_reading g' = g_reading g.
Lemma keptW_stable s g c c' : keptW s g c -> rely O c c' -> keptW s g c'.
Proof.
  destruct c as ((s1 & o1) & g1), c' as ((s2 & o2) & g2). intros (H1 & H2 & H3 & H4 & H5 & H6 & H7) (R1 & R2 & R3 & R4 & R5 & R6).
  destruct (R6 H1) as (C1 & C2 & C3). refine (conj (proj1 R1 H1) _). repeat split; congruence.
Qed.
Lemma keptR_stable s g c c' : keptR s g c -> rely (S O) c c' -> keptR s g c'.
Proof.
  destruct c as ((s1 & o1) & g1), c' as ((s2 & o2) & g2). intros (H1 & H2 & H3 & H4 & H5 & H6 & H7) (R1 & R2 & R3 & R4 & R5 & _ & R6).
  destruct (R6 H1) as (C1 & C2 & C3). refine (conj (proj1 R1 H1) _). repeat split; congruence.
Qed.


Lemma seq {A B} t o (p : prog es A) (q : A -> prog es B) (P : A -> option es_res -> conf -> Prop) Q l c :
  wp t o p P l c -> (forall a l' c', P a l' c' -> wp t o (q a) Q l' c') -> wp t o (pbind p q) Q l c.
Proof. intros H HQ. apply wp_bind. eapply wp_mono; [|exact H]. exact HQ. Qed.

(** Reading under the lock. *)
Definition atW {A} (x : A) (l : option es_res) (s : es) (g : gh) : A -> option es_res -> conf -> Prop :=
  fun a l' c' => a = x /\ l' = l /\ keptW s g c'.
Definition atR {A} (x : A) (l : option es_res) (s : es) (g : gh) : A -> option es_res -> conf -> Prop :=
  fun a l' c' => a = x /\ l' = l /\ keptR s g c'.
Lemma W_fetch {A} (f : es -> A) x o l s g c : keptW s g c -> (forall s' ow g', keptW s g (s', ow, g') -> f s' = x) ->
  wp O o (fetch f) (atW x l s g) l c.
Proof.
  intros K H. cbn [fetch ConcProofs.wp]. intros s' ow g' HR HG. pose proof (keptW_stable _ _ _ _ K HR) as K'.
  exists (f s'), s'. split; [reflexivity|]. exists g', l. split; [left; auto|]. split; [exact HG|]. split; [intros; apply rely_refl|].
  split; [eapply H; exact K'|]. auto.
Qed.
Lemma R_fetch {A} (f : es -> A) x o l s g c : keptR s g c -> (forall s' ow g', keptR s g (s', ow, g') -> f s' = x) ->
  wp (S O) o (fetch f) (atR x l s g) l c.
Proof.
  intros K H. cbn [fetch ConcProofs.wp]. intros s' ow g' HR HG. pose proof (keptR_stable _ _ _ _ K HR) as K'.
  exists (f s'), s'. split; [reflexivity|]. exists g', l. split; [left; auto|]. split; [exact HG|]. split; [intros; apply rely_refl|].
  split; [eapply H; exact K'|]. auto.
Qed.
Lemma W_sz o l s g c : keptW s g c -> wp O o get_sz (atW (sz (es_cb s)) l s g) l c.
Proof. intros K. apply W_fetch; [exact K|]. intros s' ow g' (_ & E & _). now rewrite E. Qed.
Lemma W_rd o l s g c : keptW s g c -> wp O o get_rd (atW (rd (es_cb s)) l s g) l c.
Proof. intros K. apply W_fetch; [exact K|]. intros s' ow g' (_ & E & _). now rewrite E. Qed.
Lemma W_w o l s g c : keptW s g c -> wp O o get_w (atW (wstate s) l s g) l c.
Proof. intros K. apply W_fetch; [exact K|]. intros s' ow g' (_ & _ & E & _). exact E. Qed.
Lemma R_sz o l s g c : keptR s g c -> wp (S O) o get_sz (atR (sz (es_cb s)) l s g) l c.
Proof. intros K. apply R_fetch; [exact K|]. intros s' ow g' (_ & E & _). now rewrite E. Qed.
Lemma R_rd o l s g c : keptR s g c -> wp (S O) o get_rd (atR (rd (es_cb s)) l s g) l c.
Proof. intros K. apply R_fetch; [exact K|]. intros s' ow g' (_ & E & _). now rewrite E. Qed.
Lemma R_r o l s g c : keptR s g c -> wp (S O) o get_r (atR (rstate s) l s g) l c.
Proof. intros K. apply R_fetch; [exact K|]. intros s' ow g' (_ & _ & E & _). exact E. Qed.
Ltac fin := cbn [ConcProofs.wp]; split; [reflexivity|split; [reflexivity|assumption]].
Ltac atk c K := let a := fresh in let l' := fresh in intros a l' c (-> & -> & K).

(** Loads under the lock give what is there. *)
Lemma R_load_n m : forall i o l s g c d, keptR s g c -> read_at (st (es_cb s)) i (Z.of_nat m) = Some d ->
  wp (S O) o (load_n m i) (atR d l s g) l c.
Proof.
  induction m as [|m IH]; intros i o l s g c d K E; cbn [load_n].
  - apply read_at_inv in E as (_ & _ & _ & -> & _). change (Z.of_nat 0) with 0. rewrite take_0. fin.
  - apply read_at_inv in E as (E1 & E2 & E3 & -> & _).
    destruct (get_some (st (es_cb s)) i ltac:(lia)) as (b & EB).
    eapply seq with (P := atR b l s g).
    + cbn [load ConcProofs.wp]. intros s' ow g' HR HG. pose proof (keptR_stable _ _ _ _ K HR) as K'. pose proof K' as (_ & EC & _).
      rewrite EC, EB. exists b, s'. split; [reflexivity|]. exists g', l. split; [left; auto|]. split; [exact HG|].
      split; [intros; apply rely_refl|]. fin.
    + atk c' K'.
      eapply seq; [apply (IH (i + 1) o l s g c' (take (Z.of_nat m) (drop (i + 1) (st (es_cb s)))) K'); apply read_at_some; lia|].
      atk c2 K2. cbn [ConcProofs.wp]. split; [|split; [reflexivity|assumption]].
      symmetry. replace (Z.of_nat (Datatypes.S m)) with (1 + Z.of_nat m) by lia. rewrite take_plus by lia.
      rewrite drop_drop by lia. replace (1 + i) with (i + 1) by lia. change (b :: ?x) with ([b] ++ x). f_equal.
      apply list_eq_get; [zl|]. intros j Hj. assert (j = 0) by (revert Hj; zl). subst j. rewrite get_take' by lia. rewrite get_drop by lia.
      replace (i + 0) with i by lia. rewrite EB. reflexivity.
Qed.
Lemma R_read o l s g c off len r : keptR s g c -> tot (es_cb s) = n -> 0 <= len -> cb_read (es_cb s) off len = Some r ->
  wp (S O) o (p_read n off len) (atR r l s g) l c.
Proof.
  intros K T HL E. unfold cb_read in E. unfold p_read. rewrite T in E.
  eapply seq; [apply R_sz; exact K|]. atk c1 K1. destruct (_ <? _); [injection E as <-; fin|].
  eapply seq; [apply R_rd; exact K1|]. atk c2 K2.
  set (idx := u32 (rd (es_cb s) + off) mod n) in *. set (k := if n - idx >? len then len else n - idx) in *.
  apply bind_inv in E. destruct E as (da & Ea & E). apply bind_inv in E. destruct E as (db & Eb & E). injection E as <-.
  pose proof (read_at_inv _ _ _ _ Ea) as (_ & HK & _).
  eapply seq; [apply (R_load_n (Z.to_nat k) idx o l s g c2 da K2); rewrite Z2Nat.id by exact HK; exact Ea|]. atk c3 K3.
  eapply seq with (P := atR db l s g).
  - destruct (len - k =? 0); [injection Eb as <-; fin|].
    pose proof (read_at_inv _ _ _ _ Eb) as (_ & HK2 & _).
    apply R_load_n; [assumption|]. rewrite Z2Nat.id by exact HK2. exact Eb.
  - atk c4 K4. fin.
Qed.
Lemma R_scan o l s g : tot (es_cb s) = n -> forall fuel num act y c, keptR s g c -> es_scan fuel bc (es_cb s) num act = Some y ->
  wp (S O) o (p_scan n fuel bc num act) (atR y l s g) l c.
Proof.
  intros T. induction fuel as [|fuel IH]; intros num act y c K E; cbn [es_scan p_scan] in *; [discriminate|].
  apply bind_inv in E. destruct E as (r & Er & E).
  eapply seq; [apply (R_read o l s g c act 2 r K T); [lia|exact Er]|]. atk c1 K1.
  destruct r as [b|]; [|injection E as <-; fin].
  destruct (hdr_value b =? in_progress_mark); [injection E as <-; fin|].
  destruct bc as [max|]; [|injection E as <-; fin].
  destruct (_ && _); [injection E as <-; fin|]. apply IH; assumption.
Qed.

(** ** The recorder *)
Definition with_st (s : es) (m : list Z) : es := map_cb (fun c => mk_cbuf (rd c) (sz c) (tot c) m) s.
Lemma splice_cons l i b d m : splice l i (b :: d) = Some m -> exists m1, put l i b = Some m1 /\ splice m1 (i + 1) d = Some m.
Proof.
  intros E. pose proof (splice_inv _ _ _ _ E) as (H1 & H2 & _). rewrite zlen_cons in H2. pose proof (zlen_nonneg d).
  unfold put. destruct (splice l i [b]) as [m1|] eqn:E1.
  2:{ rewrite splice_some in E1 by (change (zlen [b]) with 1; lia). discriminate. }
  exists m1. split; [reflexivity|]. pose proof (splice_zlen _ _ _ _ E1) as L1.
  destruct (splice m1 (i + 1) d) as [m2|] eqn:E2.
  2:{ rewrite splice_some in E2 by lia. discriminate. }
  f_equal. pose proof (splice_zlen _ _ _ _ E2). pose proof (splice_zlen _ _ _ _ E).
  apply list_eq_get; [lia|]. intros j Hj. rewrite (get_splice _ _ _ _ j E2), (get_splice _ _ _ _ j E), (get_splice _ _ _ _ j E1).
  change (zlen [b]) with 1. rewrite zlen_cons.
  destruct (Z.eq_dec j i) as [->|N].
  - replace ((i + 1 <=? i) && _) with false by lia. replace ((i <=? i) && _) with true by lia. replace ((i <=? i) && _) with true by lia.
    now rewrite Z.sub_diag.
  - replace ((i <=? j) && (j <? i + 1)) with false by lia.
    replace ((i <=? j) && (j <? i + (1 + zlen d))) with ((i + 1 <=? j) && (j <? i + 1 + zlen d)) by lia.
    destruct ((i + 1 <=? j) && (j <? i + 1 + zlen d)) eqn:E3; [|reflexivity].
    change (b :: d) with ([b] ++ d). rewrite get_app2 by (change (zlen [b]) with 1; lia). f_equal. change (zlen [b]) with 1. lia.
Qed.
Lemma W_store o l s g c i b m p : keptW s g c -> cost (g_evs g) <= p < n -> i = ring n (g_start g) p -> is_u8 b ->
  put (st (es_cb s)) i b = Some m -> wp O o (store i b) (atW tt l (with_st s m) g) l c.
Proof.
  intros K HP HI HB EP. cbn [store ConcProofs.wp]. intros s' ow g' HR HG.
  pose proof (keptW_stable _ _ _ _ K HR) as (K1 & K2 & K3 & K4 & K5 & K6 & K7). rewrite K2, EP.
  eexists _, _. split; [reflexivity|]. exists g', l. split; [left; auto|]. destruct HG. rewrite K2 in *.
  pose proof (splice_zlen _ _ _ _ EP) as LM. destruct d_wf0 as (W1 & W2 & W3 & W4 & W5).
  split; [|split].
  - constructor; unfold map_cb; cbn [set_cb es_cb rd sz tot st]; rewrite ?K2; cbn [rd sz tot st]; try assumption; try congruence.
    + unfold cb_wf; cbn [rd sz tot st]. refine (conj W1 (conj _ (conj W3 (conj W4 _)))); [congruence|]. eapply bytes_splice; [exact W5|constructor; [exact HB|constructor]|exact EP].
    + intros j Hj. rewrite <- (d_com0 j Hj). rewrite (get_splice _ _ _ _ _ EP). change (zlen [b]) with 1.
      rewrite K4, K5 in *. destruct ((i <=? ring n (g_start g) j) && _) eqn:E; [|reflexivity].
      pose proof (cost_nonneg (g_evs g)). assert (ring n (g_start g) j = ring n (g_start g) p) by lia. apply ring_inj in H0; lia.
  - intros u N. destruct u as [|[|u]]; [congruence| |].
    + split; [reflexivity|]. unfold map_cb. cbn [set_cb es_cb rd]. rewrite K2. repeat split; try reflexivity; try congruence.
      exists []. now rewrite app_nil_r.
    + split; [reflexivity|exact I].
  - split; [reflexivity|]. split; [reflexivity|]. unfold keptW, with_st, map_cb. cbn [set_cb es_cb wstate es_wip es_written].
    rewrite K2. unfold wstate in K3. repeat split; try assumption.
Qed.
Lemma W_store_n o l g : forall d i s c m, keptW s g c ->
  (forall j, 0 <= j < zlen d -> exists p, cost (g_evs g) <= p < n /\ i + j = ring n (g_start g) p) -> bytes d ->
  splice (st (es_cb s)) i d = Some m -> wp O o (store_n i d) (atW tt l (with_st s m) g) l c.
Proof.
  induction d as [|b d IH]; intros i s c m K HP HB E; cbn [store_n].
  - apply splice_inv in E as (E1 & E2 & ->). change (zlen (@nil Z)) with 0. rewrite Z.add_0_r. cbn [app]. rewrite take_drop.
    cbn [ConcProofs.wp]. split; [reflexivity|]. split; [reflexivity|]. destruct c as ((s' & ow) & g'). destruct K as (K1 & K2 & K3 & K4 & K5 & K6 & K7).
    unfold keptW, with_st, map_cb. cbn [set_cb es_cb wstate es_wip es_written]. unfold wstate in K3. rewrite K2. repeat split; try assumption.
    now destruct (es_cb s).
  - destruct (splice_cons _ _ _ _ _ E) as (m1 & E1 & E2). pose proof (zlen_nonneg d).
    destruct (HP 0) as (p & P1 & P2); [rewrite zlen_cons; lia|]. rewrite Z.add_0_r in P2.
    eapply seq; [apply (W_store o l s g c i b m1 p K P1 P2); [exact (Forall_inv HB)|exact E1]|]. atk c1 K1.
    eapply wp_mono; [|apply (IH (i + 1) (with_st s m1) c1 m K1)].
    + intros a l' c' H2. exact H2.
    + intros j Hj. destruct (HP (j + 1)) as (p' & P1' & P2'); [rewrite zlen_cons; lia|]. exists p'. split; [exact P1'|]. lia.
    + exact (Forall_inv_tail HB).
    + exact E2.
Qed.

Definition linW (o : es_op) (g : gh) (l : option es_res) (evs : list (list Z)) (part : option (list Z)) (vpart : option (list Z)) (l' : option es_res) : Prop :=
  forall k, linstep o l (mk_gh (g_start g) (g_evs g) (g_part g) (g_vpart g) k) l' (mk_gh (g_start g) evs part vpart k).
Lemma committed_content c start evs rest : cb_wf c -> rd c = start -> content c = enc evs ++ rest -> committed (tot c) (st c) start evs.
Proof.
  intros W R C j Hj. pose proof (content_len c W) as L. rewrite C, zlen_app, enc_len in L. pose proof (zlen_nonneg rest).
  pose proof (get_content c j W ltac:(lia)) as E. rewrite C, R in E. unfold ring. rewrite <- E. apply get_app1. rewrite enc_len. lia.
Qed.
(** The last step of a change under the lock: the size. *)
Lemma W_put_sz o l l' s g c x c' evs part vpart : keptW s g c -> c' = mk_cbuf (rd (es_cb s)) x (tot (es_cb s)) (st (es_cb s)) ->
  cb_wf c' -> Forall ev_fine evs -> (exists new, evs = g_evs g ++ new) -> content c' = enc evs ++ part_bytes part ->
  linW o g l evs part vpart l' ->
  wp O o (put_sz x) (atW tt l' (set_cb s c') (mk_gh (g_start g) evs part vpart 0)) l c.
Proof.
  intros K EC W F (new & EN) CT HL. cbn [put_sz change ConcProofs.wp]. intros s' ow g' HR HG.
  pose proof (keptW_stable _ _ _ _ K HR) as (K1 & K2 & K3 & K4 & K5 & K6 & K7).
  eexists _, _. split; [reflexivity|]. exists (mk_gh (g_start g) evs part vpart (g_reading g')), l'.
  assert (EM : map_cb (fun c0 => mk_cbuf (rd c0) x (tot c0) (st c0)) s' = set_cb s' c') by (unfold map_cb; rewrite K2; now subst c').
  rewrite EM. assert (EG : mk_gh (g_start g) (g_evs g) (g_part g) (g_vpart g) (g_reading g') = g') by (rewrite <- K4, <- K5, <- K6, <- K7; now destruct g').
  pose proof (content_len c' W) as LC. rewrite CT, zlen_app, enc_len, part_len in LC.
  pose proof (d_rd _ _ _ HG) as RD. specialize (RD ltac:(rewrite K1; discriminate)). rewrite K2, K4 in RD.
  pose proof (d_tot _ _ _ HG) as TT. rewrite K2 in TT.
  assert (T' : tot c' = n) by (rewrite EC; exact TT). assert (R' : rd c' = g_start g) by (rewrite EC; exact RD).
  split; [specialize (HL (g_reading g')); rewrite EG in HL; exact HL|]. split; [|split].
  - constructor; cbn [set_cb es_cb g_start g_evs g_part g_vpart g_reading]; try assumption; try congruence.
    + rewrite <- K4. exact (d_start _ _ _ HG).
    + rewrite <- LC. unfold plen. reflexivity.
    + rewrite <- T'. eapply committed_content; [exact W|exact R'|exact CT].
    + pose proof (d_k _ _ _ HG) as DK. rewrite K5 in DK. rewrite EN, zlen_app. pose proof (zlen_nonneg new). lia.
  - intros u N. destruct u as [|[|u]]; [congruence| |].
    + split; [reflexivity|]. cbn [set_cb es_cb rstate es_active es_num es_hdr g_start g_evs g_part g_vpart g_reading].
      refine (conj _ (conj _ (conj _ (conj _ (conj _ _))))); try reflexivity; try congruence.
      exists new. rewrite K5. exact EN.
    + split; [reflexivity|exact I].
  - split; [reflexivity|]. split; [reflexivity|]. cbn [keptW set_cb es_cb wstate es_wip es_written g_start g_evs g_part g_vpart g_reading].
    unfold wstate in K3. repeat split; try assumption.
Qed.
Lemma W_write o l l' s g c k d c' evs part vpart : keptW s g c -> cb_wf (es_cb s) -> tot (es_cb s) = n -> rd (es_cb s) = g_start g ->
  0 <= k <= sz (es_cb s) - cost (g_evs g) -> bytes d -> is_u32 (zlen d) ->
  cb_write_at_offset (es_cb s) k d = Some (true, c') ->
  Forall ev_fine evs -> (exists new, evs = g_evs g ++ new) -> content c' = enc evs ++ part_bytes part -> linW o g l evs part vpart l' ->
  wp O o (p_write_at n k d) (atW true l' (set_cb s c') (mk_gh (g_start g) evs part vpart 0)) l c.
Proof.
  intros K W T RD HK HB HU E F EN CT HL. pose proof W as (W1 & W2 & W3 & W4 & W5). unfold is_u32 in HU.
  pose proof (cost_nonneg (g_evs g)) as CN.
  assert (IK : is_u32 k) by (unfold is_u32; lia).
  destruct (cb_write_at_ok (es_cb s) k d W HB IK HU) as (b' & c'' & E' & W' & T' & B' & _ & _). rewrite E in E'. injection E' as <- <-.
  symmetry in B'. rewrite content_len in B' by exact W.
  unfold cb_write_at_offset, cb_get_write_size in E. unfold p_write_at. rewrite T in *.
  eapply seq; [apply W_sz; exact K|]. atk c1 K1. destruct (sz (es_cb s) <? k); [discriminate|].
  eapply seq; [apply W_sz; exact K1|]. atk c2 K2. set (nb := if zlen d >? k then zlen d - k else 0) in *.
  destruct (n - sz (es_cb s) <? nb) eqn:E2; [discriminate|].
  eapply seq; [apply W_rd; exact K2|]. atk c3 K3. eapply seq; [apply W_sz; exact K3|]. atk c4 K4.
  set (idx := u32 (rd (es_cb s) + sz (es_cb s) - k) mod n) in *.
  set (m := if n - idx >? zlen d then zlen d else n - idx) in *.
  apply bind_inv in E. destruct E as (m1 & E1 & E). apply bind_inv in E. destruct E as (m2 & E3 & E). injection E as EC.
  assert (HI : idx = ring n (g_start g) (sz (es_cb s) - k)).
  { unfold idx. rewrite <- RD. unfold ring. replace (rd (es_cb s) + sz (es_cb s) - k) with (rd (es_cb s) + (sz (es_cb s) - k)) by lia. rewrite ring_idx by lia. reflexivity. }
  set (p0 := sz (es_cb s) - k) in *.
  assert (Hidx : g_start g + p0 < n /\ idx = g_start g + p0 \/ n <= g_start g + p0 /\ idx = g_start g + p0 - n)
    by (rewrite HI; unfold ring; destruct (g_start g + p0 <? n) eqn:G; lia).
  pose proof (zlen_nonneg d) as LD.
  assert (HM : m = Z.min (zlen d) (n - idx)) by (unfold m; destruct (n - idx >? zlen d) eqn:G; lia).
  assert (FIT : p0 + zlen d <= n) by lia.
  clearbody idx m.
  eapply seq; [apply (W_store_n o l g (take m d) idx s c4 m1 K4)|].
  { intros j Hj. rewrite zlen_take in Hj. exists (p0 + j). split; [lia|]. unfold ring. destruct (g_start g + (p0 + j) <? n) eqn:G; lia. }
  { apply bytes_take. exact HB. } { exact E1. }
  atk c5 K5. eapply seq with (P := atW tt l (with_st s m2) g).
  { destruct (zlen d - m =? 0) eqn:G.
    - injection E3 as <-. cbn [ConcProofs.wp]. split; [reflexivity|split; [reflexivity|exact K5]].
    - eapply wp_mono; [|apply (W_store_n o l g (drop m d) 0 (with_st s m1) c5 m2 K5)].
      + intros a l1 c6 H6. exact H6.
      + intros j Hj. rewrite zlen_drop in Hj. exists (p0 + m + j). split; [lia|]. unfold ring. destruct (g_start g + (p0 + m + j) <? n) eqn:G2; lia.
      + apply bytes_drop. exact HB.
      + exact E3. }
  atk c6 K6. eapply seq; [apply W_sz; exact K6|]. atk c7 K7. unfold with_st, map_cb in K7 |- *. cbn [set_cb es_cb sz] in *.
  eapply seq; [eapply (W_put_sz o l l' (with_st s m2) g c7 _ c' evs part vpart K7)|].
  { unfold with_st, map_cb. cbn [set_cb es_cb rd sz tot st]. rewrite <- EC. now rewrite T. }
  { exact W'. } { exact F. } { exact EN. } { exact CT. } { exact HL. }
  atk c8 K8. cbn [ConcProofs.wp]. split; [reflexivity|]. split; [reflexivity|]. exact K8.
Qed.
(** No room: the point is where the size is read. *)
Lemma W_full o s g c d r : keptW s g c -> 0 <= sz (es_cb s) -> n - sz (es_cb s) < zlen d ->
  (forall k, sev_step bc n (mk_sev (g_evs g) (g_vpart g) k) o = Some (r, mk_sev (g_evs g) (g_vpart g) k)) ->
  wp O o (p_write_at n 0 d) (atW false (Some r) s g) None c.
Proof.
  intros K HS HF SP. unfold p_write_at. eapply seq; [apply W_sz; exact K|]. atk c1 K1.
  replace (sz (es_cb s) <? 0) with false by lia. pose proof (zlen_nonneg d).
  eapply seq with (P := atW (sz (es_cb s)) (Some r) s g).
  - cbn [get_sz fetch ConcProofs.wp]. intros s' ow g' HR HG. pose proof (keptW_stable _ _ _ _ K1 HR) as K2. pose proof K2 as (A1 & A2 & A3 & A4 & A5 & A6 & A7).
    exists (sz (es_cb s')), s'. split; [reflexivity|]. exists g', (Some r). split; [right; split; [reflexivity|]; exists r; split; [reflexivity|]|].
    + unfold gval. rewrite A5, A7. apply SP.
    + split; [exact HG|]. split; [intros; apply rely_refl|]. split; [now rewrite A2|]. split; [reflexivity|exact K2].
  - atk c2 K2. replace (n - sz (es_cb s) <? _) with true by (destruct (zlen d >? 0) eqn:G; lia). fin.
Qed.

(** Outside the lock. *)
Definition freeW (w : bool * Z) (part vpart : option (list Z)) (bound : Z) (c : conf) : Prop :=
  let '(s, ow, g) := c in ow <> Some O /\ wstate s = w /\ g_part g = part /\ g_vpart g = vpart /\ cost (g_evs g) <= bound.
Lemma freeW_stable w part vpart b c c' : freeW w part vpart b c -> rely O c c' -> freeW w part vpart b c'.
Proof.
  destruct c as ((s1 & o1) & g1), c' as ((s2 & o2) & g2). intros (H1 & H2 & H3 & H4 & H5) (R1 & R2 & R3 & R4 & R5 & _).
  refine (conj _ (conj _ (conj _ (conj _ _)))); try congruence; [|lia]. intros E. apply H1. now apply R1.
Qed.
Lemma W_lock o l w part vpart b c : freeW w part vpart b c ->
  wp O o lock (fun _ l' c' => l' = l /\ exists s g, keptW s g c' /\ wstate s = w /\ g_part g = part /\ g_vpart g = vpart /\
    cost (g_evs g) <= b /\ cb_wf (es_cb s) /\ tot (es_cb s) = n /\ rd (es_cb s) = g_start g /\
    content (es_cb s) = enc (g_evs g) ++ part_bytes part /\ Forall ev_fine (g_evs g)) l c.
Proof.
  intros FW. cbn [lock ConcProofs.wp]. intros s ow g HR HG. pose proof (freeW_stable _ _ _ _ _ _ FW HR) as (H1 & H2 & H3 & H4 & H5).
  split; [exact H1|]. intros ->. exists g, l. split; [left; auto|]. destruct HG. split; [|split; [|split]].
  - constructor; try assumption. intros _. apply d_rd0. discriminate. congruence.
  - intros u N. destruct u as [|[|u]]; [congruence| |].
    + split; [split; discriminate|]. repeat split; try reflexivity; try discriminate. exists []. now rewrite app_nil_r.
    + split; [split; discriminate|exact I].
  - reflexivity.
  - exists s, g. assert (RD : rd (es_cb s) = g_start g) by (apply d_rd0; discriminate).
    split; [repeat split|]. do 4 (split; [assumption|]). do 3 (split; [assumption|]). split; [|assumption].
    rewrite <- H3, <- d_part0 by discriminate. rewrite <- RD, <- d_tot0. now destruct (es_cb s).
Qed.
Lemma W_unlock o l s g c : keptW s g c -> content (es_cb s) = enc (g_evs g) ++ part_bytes (g_part g) ->
  wp O o unlock (fun _ l' c' => l' = l /\ freeW (wstate s) (g_part g) (g_vpart g) (cost (g_evs g)) c') l c.
Proof.
  intros K CT. cbn [unlock ConcProofs.wp]. intros s' ow g' HR HG. pose proof (keptW_stable _ _ _ _ K HR) as (K1 & K2 & K3 & K4 & K5 & K6 & K7).
  split; [exact K1|]. exists g', l. split; [left; auto|]. destruct HG. split; [|split; [|split]].
  - constructor; try assumption.
    + intros _. apply d_rd0. rewrite K1. discriminate.
    + intros _. rewrite K5, K6, <- CT. rewrite <- (d_rd0 ltac:(rewrite K1; discriminate)), <- d_tot0, K2. now destruct (es_cb s).
  - intros u N. destruct u as [|[|u]]; [congruence| |].
    + split; [split; [rewrite K1|]; discriminate|]. repeat split; try reflexivity; try (rewrite K1 in *; discriminate). exists []. now rewrite app_nil_r.
    + split; [split; [rewrite K1; congruence|discriminate]|exact I].
  - reflexivity.
  - refine (conj _ (conj _ (conj _ (conj _ _)))); try assumption; try discriminate. rewrite K5. lia.
Qed.
Lemma W_put_w o l w part vpart b c x y : freeW w part vpart b c ->
  wp O o (put_w x y) (fun _ l' c' => l' = l /\ freeW (x, y) part vpart b c') l c.
Proof.
  intros FW. cbn [put_w change ConcProofs.wp]. intros s ow g HR HG. pose proof (freeW_stable _ _ _ _ _ _ FW HR) as (H1 & H2 & H3 & H4 & H5).
  eexists _, _. split; [reflexivity|]. exists g, l. split; [left; auto|]. split; [|split; [|split]].
  - destruct HG. constructor; cbn [set_w es_cb]; assumption.
  - intros u N. destruct u as [|[|u]]; [congruence| |].
    + split; [reflexivity|]. repeat split; try reflexivity. exists []. now rewrite app_nil_r.
    + split; [reflexivity|exact I].
  - reflexivity.
  - repeat split; assumption.
Qed.
Lemma W_get_w o l w part vpart b c : freeW w part vpart b c ->
  wp O o get_w (fun x l' c' => x = w /\ l' = l /\ freeW w part vpart b c') l c.
Proof.
  intros FW. cbn [get_w fetch ConcProofs.wp]. intros s ow g HR HG. pose proof (freeW_stable _ _ _ _ _ _ FW HR) as FW'.
  eexists _, s. split; [reflexivity|]. exists g, l. split; [left; auto|]. split; [exact HG|]. split; [intros; apply rely_refl|].
  split; [apply FW'|]. auto.
Qed.

Definition rok (s : es) (g : gh) : Prop :=
  rstate s = (cost (take (g_reading g) (g_evs g)), g_reading g, hdr_of bc (g_reading g)) /\ 0 <= g_reading g <= zlen (g_evs g).
Definition idle (t : nat) (h : list (es_op * es_res)) (c : conf) : Prop :=
  let '(s, ow, g) := c in ow <> Some t /\
  match t with
  | O => match writing_of Closed h with
         | Closed => es_wip s = false /\ g_part g = None /\ g_vpart g = None
         | Opened sp a =>
             (sp = 0 /\ a = 0 /\ es_wip s = false /\ g_part g = None /\ g_vpart g = None) \/
             (wstate s = (true, 2 + a) /\ a <= sp /\ cost (g_evs g) + 2 + sp <= n /\
              exists p, g_part g = Some p /\ g_vpart g = Some p /\ zlen p = a /\ bytes p)
         end
  | S O => rok s g
  | _ => True
  end.
Lemma take_reading g new : 0 <= g_reading g <= zlen (g_evs g) -> take (g_reading g) (g_evs g ++ new) = take (g_reading g) (g_evs g).
Proof. intros. apply take_app_le. lia. Qed.
Lemma rok_stable s ow g s' ow' g' : rok s g -> rely (S O) (s, ow, g) (s', ow', g') -> rok s' g'.
Proof.
  intros (H & HB) (R1 & R2 & R3 & R4 & R5 & (new & R6) & _). unfold rok in *. rewrite R4, R5, R6, take_reading; [|exact HB].
  split; [exact H|]. rewrite zlen_app. pose proof (zlen_nonneg new). lia.
Qed.
Lemma idle_owner t h s ow g : idle t h (s, ow, g) -> ow <> Some t.
Proof. intros (H & _). exact H. Qed.
Lemma writing_of_app w h o r : writing_of w (h ++ [(o, r)]) = writing_of (writing_of w h) [(o, r)].
Proof.
  revert w. induction h as [|(o1 & r1) h IH]; intros w; [reflexivity|]. cbn [app].
  destruct o1; destruct r1; cbn [writing_of]; apply IH.
Qed.
Notation returns := (returns es es_op es_res gh idle).
Lemma free_pure w part vpart b s ow g : freeW w part vpart b (s, ow, g) -> wstate s = w /\ g_part g = part /\ g_vpart g = vpart /\ cost (g_evs g) <= b /\ ow <> Some O.
Proof. intros (H1 & H2 & H3 & H4 & H5). auto. Qed.
Lemma used_of evs vpart k : used (mk_sev evs vpart k) = cost evs + plen vpart.
Proof. reflexivity. Qed.

(** begin *)
Lemma begin_ok h c : good c -> idle O h c -> writing_of Closed h = Closed ->
  wp O EBegin (es_code n bc EBegin) (returns O h EBegin) None c.
Proof.
  destruct c as ((s & ow) & g). intros HG (NO & ID) EW. rewrite EW in ID. destruct ID as (I1 & I2 & I3).
  cbn [es_code].
  assert (RET : forall sp l c', l = Some (RSpace sp) -> idle O (h ++ [(EBegin, RSpace sp)]) c' -> returns O h EBegin (RSpace sp) l c') by (intros; split; assumption).
  assert (FW : freeW (false, es_written s) None None (cost (g_evs g)) (s, ow, g)).
  { refine (conj NO (conj _ (conj I2 (conj I3 _)))); [unfold wstate; now rewrite I1|lia]. }
  assert (NW : forall sp, writing_of Closed (h ++ [(EBegin, RSpace sp)]) = Opened sp 0) by (intros sp; rewrite writing_of_app, EW; reflexivity).
  apply wp_bind. unfold p_begin. eapply seq; [apply (W_get_w EBegin None _ _ _ _ _ FW)|].
  intros x l1 c1 (-> & -> & F1). cbn [fst].
  eapply seq; [apply (W_lock EBegin None _ _ _ _ _ F1)|]. intros u l2 c2 (-> & s2 & g2 & K2 & S2 & P2 & V2 & B2 & W2 & T2 & R2 & C2 & E2).
  cbn [part_bytes] in C2. rewrite app_nil_r in C2. pose proof (content_len _ W2) as L2. rewrite C2, enc_len in L2.
  pose proof (cost_nonneg (g_evs g2)) as CN. pose proof W2 as (W21 & W22 & W23 & W24 & W25).
  assert (HB : bytes (hdr_bytes in_progress_mark)) by apply hdr_bytes_bytes.
  destruct (Z.le_gt_cases (cost (g_evs g2) + 2) n) as [FIT|FULL].
  - destruct (cb_write_at_ok (es_cb s2) 0 (hdr_bytes in_progress_mark) W2 HB ltac:(unfold is_u32; lia) ltac:(rewrite hdr_bytes_len; unfold is_u32; lia))
      as (b & c' & EC & W' & T' & BB & _ & CT).
    assert (b = true) by (rewrite BB, C2, enc_len, hdr_bytes_len; lia). subst b. rewrite H in *.
    specialize (CT eq_refl). rewrite C2, enc_len, Z.sub_0_r in CT. rewrite take_all in CT by (rewrite enc_len; lia).
    rewrite drop_all in CT by (rewrite enc_len, hdr_bytes_len; lia). rewrite app_nil_r in CT.
    eapply seq; [apply (W_write EBegin None None s2 g2 c2 0 (hdr_bytes in_progress_mark) c' (g_evs g2) (Some []) None K2 W2 T2 R2)|].
    { lia. } { exact HB. } { rewrite hdr_bytes_len; unfold is_u32; lia. } { exact EC. } { exact E2. }
    { exists []. now rewrite app_nil_r. } { rewrite CT. cbn [part_bytes]. now rewrite app_nil_r. }
    { intros k. left. split; [reflexivity|]. unfold gval. cbn [g_evs g_vpart g_reading]. now rewrite V2. }
    intros a l3 c3 (-> & -> & K3).
    eapply seq; [apply (W_unlock EBegin None _ _ c3 K3)|].
    { cbn [set_cb es_cb g_evs g_part]. rewrite CT. cbn [part_bytes]. now rewrite app_nil_r. }
    intros a l4 c4 (-> & F4). cbn [negb g_part g_vpart g_evs] in F4 |- *.
    eapply seq; [apply (W_put_w EBegin None _ _ _ _ c4 true 2 F4)|]. intros a5 l5 c5 (-> & F5).
    apply wp_fetch_lin. intros s6 ow6 g6 HR6 HG6.
    pose proof (freeW_stable _ _ _ _ _ _ F5 HR6) as (A1 & A2 & A3 & A4 & A5).
    exists (mk_gh (g_start g6) (g_evs g6) (g_part g6) (Some []) (g_reading g6)), (RSpace (n - sz (es_cb s6))).
    pose proof (d_sz _ _ _ HG6) as SZ6. rewrite A3 in SZ6. cbn [plen] in SZ6. change (zlen (@nil Z)) with 0 in SZ6.
    split; [|split; [|split]].
    + unfold gval. rewrite A4. cbn [sev_step v_part g_evs g_vpart g_reading v_events v_reading].
      rewrite used_of. cbn [plen]. replace (cost (g_evs g6) + 0 + 2 <=? n) with true by lia.
      do 3 f_equal. lia.
    + destruct HG6. constructor; assumption.
    + intros u' N. destruct u' as [|[|u']]; [congruence| |].
      * split; [reflexivity|]. repeat split; try reflexivity. exists []. now rewrite app_nil_r.
      * split; [reflexivity|exact I].
    + cbn [ConcProofs.wp]. apply RET; [reflexivity|]. split; [exact A1|]. rewrite NW. right.
      split; [exact A2|]. pose proof (d_wf _ _ _ HG6) as (_ & _ & _ & X4 & _). rewrite (d_tot _ _ _ HG6) in X4. split; [lia|].
      cbn [g_evs]. split; [lia|]. exists []. repeat split; try assumption. constructor.
  - eapply seq; [apply (W_full EBegin s2 g2 c2 (hdr_bytes in_progress_mark) (RSpace 0) K2)|].
    { lia. } { rewrite hdr_bytes_len. lia. }
    { intros k. rewrite V2. cbn [sev_step v_part]. rewrite used_of. cbn [plen]. replace (cost (g_evs g2) + 0 + 2 <=? n) with false by lia. reflexivity. }
    intros a l3 c3 (-> & -> & K3).
    eapply seq; [apply (W_unlock EBegin (Some (RSpace 0)) s2 g2 c3 K3)|].
    { rewrite C2, P2. cbn [part_bytes]. now rewrite app_nil_r. }
    intros a l4 c4 (-> & F4). cbn [negb ConcProofs.wp]. apply RET; [reflexivity|]. destruct c4 as ((s4 & ow4) & g4).
    destruct (free_pure _ _ _ _ _ _ _ F4) as (X1 & X2 & X3 & X4 & X5). split; [exact X5|]. rewrite NW. left.
    refine (conj eq_refl (conj eq_refl (conj _ (conj _ _)))); try congruence. rewrite S2 in X1. unfold wstate in X1. congruence.
Qed.

(** append *)
Lemma append_ok h c sp a d : good c -> idle O h c -> writing_of Closed h = Opened sp a -> bytes d -> a + zlen d <= sp -> 0 < sp ->
  wp O (EAppend d) (es_code n bc (EAppend d)) (returns O h (EAppend d)) None c.
Proof.
  destruct c as ((s & ow) & g). intros HG (NO & ID) EW HB HA HS. rewrite EW in ID.
  destruct ID as [(I1 & _)|(I1 & I2 & I3 & p & I4 & I5 & I6 & I7)]; [lia|].
  cbn [es_code]. apply wp_bind. unfold p_append. pose proof (zlen_nonneg d) as LD. pose proof (zlen_nonneg p) as LP.
  assert (FW : freeW (true, 2 + a) (Some p) (Some p) (n - 2 - sp) (s, ow, g)) by (refine (conj NO (conj I1 (conj I4 (conj I5 _)))); lia).
  pose proof (d_wf _ _ _ HG) as (N1 & _). rewrite (d_tot _ _ _ HG) in N1.
  eapply seq; [apply (W_lock (EAppend d) None _ _ _ _ _ FW)|]. intros u l2 c2 (-> & s2 & g2 & K2 & S2 & P2 & V2 & B2 & W2 & T2 & R2 & C2 & E2).
  pose proof (content_len _ W2) as L2. rewrite C2, zlen_app, enc_len, part_len in L2.
  pose proof (cost_nonneg (g_evs g2)) as CN.
  destruct (cb_write_at_ok (es_cb s2) 0 d W2 HB ltac:(unfold is_u32; lia) ltac:(unfold is_u32; lia)) as (b & c' & EC & W' & T' & BB & _ & CT).
  rewrite content_len in BB by exact W2.
  assert (b = true) by (rewrite BB; lia). subst b. rewrite H in *. specialize (CT eq_refl).
  rewrite content_len in CT by exact W2. rewrite Z.sub_0_r in CT. pose proof (content_len _ W2) as LC.
  rewrite take_all in CT by lia. rewrite drop_all in CT by lia. rewrite app_nil_r, C2, <- app_assoc in CT.
  assert (CT' : content c' = enc (g_evs g2) ++ part_bytes (Some (p ++ d))) by (rewrite CT; cbn [part_bytes]; now rewrite <- app_assoc).
  eapply seq; [apply (W_write (EAppend d) None (Some (ROk true)) s2 g2 c2 0 d c' (g_evs g2) (Some (p ++ d)) (Some (p ++ d)) K2 W2 T2 R2)|].
  { lia. } { exact HB. } { unfold is_u32; lia. } { exact EC. } { exact E2. } { exists []. now rewrite app_nil_r. } { exact CT'. }
  { intros k. right. split; [reflexivity|]. exists (ROk true). split; [reflexivity|].
    unfold gval. cbn [g_evs g_vpart g_reading]. rewrite V2. cbn [sev_step v_part v_events v_reading]. rewrite used_of. cbn [plen].
    replace (_ <=? n) with true by lia. reflexivity. }
  intros x l3 c3 (-> & -> & K3).
  eapply seq; [apply (W_unlock (EAppend d) (Some (ROk true)) _ _ c3 K3)|]. { exact CT'. }
  intros x l4 c4 (-> & F4). cbn [g_part g_vpart g_evs] in F4. change (wstate (set_cb s2 c')) with (wstate s2) in F4. rewrite S2 in F4.
  eapply seq with (P := fun _ l' c' => l' = Some (ROk true) /\ freeW (true, 2 + (a + zlen d)) (Some (p ++ d)) (Some (p ++ d)) (cost (g_evs g2)) c').
  { eapply seq; [apply (W_get_w (EAppend d) (Some (ROk true)) _ _ _ _ c4 F4)|]. intros x5 l5 c5 (-> & -> & F5). cbn [fst snd].
    rewrite u32_in by lia. replace (2 + a + zlen d) with (2 + (a + zlen d)) by lia. apply (W_put_w _ _ _ _ _ _ c5 _ _ F5). }
  intros x5 l5 c5 (-> & F5). cbn [ConcProofs.wp]. split; [reflexivity|]. destruct c5 as ((s5 & ow5) & g5).
  destruct (free_pure _ _ _ _ _ _ _ F5) as (X1 & X2 & X3 & X4 & X5). split; [exact X5|]. rewrite writing_of_app, EW. cbn [writing_of]. right.
  split; [exact X1|]. split; [lia|]. split; [lia|]. exists (p ++ d). split; [exact X2|]. split; [exact X3|]. split; [rewrite zlen_app; lia|].
  apply bytes_app. split; assumption.
Qed.

(** finish *)
Lemma finish_ok h c sp a rb : good c -> idle O h c -> writing_of Closed h = Opened sp a -> (rb = false -> 1 <= a <= 65532) ->
  wp O (EFinish rb) (es_code n bc (EFinish rb)) (returns O h (EFinish rb)) None c.
Proof.
  destruct c as ((s & ow) & g). intros HG (NO & ID) EW HC. rewrite EW in ID.
  assert (NW : writing_of Closed (h ++ [(EFinish rb, RUnit)]) = Closed) by (rewrite writing_of_app, EW; reflexivity).
  assert (END : forall w c' l, l = Some RUnit -> fst w = false -> freeW w None None (cost (g_evs g)) c' \/ (exists b, freeW w None None b c') ->
    returns O h (EFinish rb) RUnit l c').
  { intros w ((s' & ow') & g') l -> EF D. assert (exists b, freeW w None None b (s', ow', g')) as (b & F) by (destruct D; eauto).
    destruct (free_pure _ _ _ _ _ _ _ F) as (X1 & X2 & X3 & X4 & X5). split; [reflexivity|]. split; [exact X5|]. rewrite NW.
    split; [|split; assumption]. unfold wstate in X1. rewrite <- X1 in EF. exact EF. }
  cbn [es_code]. apply wp_bind. unfold p_finish.
  destruct ID as [(I1 & I2 & I3 & I4 & I5)|(I1 & I2 & I3 & p & I4 & I5 & I6 & I7)].
  - assert (FW : freeW (false, es_written s) None None (cost (g_evs g)) (s, ow, g)).
    { refine (conj NO (conj _ (conj I4 (conj I5 _)))); [unfold wstate; now rewrite I3|lia]. }
    apply wp_fetch_lin. intros s1 ow1 g1 HR HG1. pose proof (freeW_stable _ _ _ _ _ _ FW HR) as F1.
    destruct (free_pure _ _ _ _ _ _ _ F1) as (X1 & X2 & X3 & X4 & X5).
    exists g1, RUnit. split; [unfold gval; rewrite X3; reflexivity|]. split; [exact HG1|]. split; [intros; apply rely_refl|].
    change (es_wip s1, es_written s1) with (wstate s1). rewrite X1. cbn [fst negb ConcProofs.wp]. eapply END; [reflexivity| |left; exact F1]. reflexivity.
  - assert (FW : freeW (true, 2 + a) (Some p) (Some p) (n - 2 - sp) (s, ow, g)) by (refine (conj NO (conj I1 (conj I4 (conj I5 _)))); lia).
    pose proof (d_wf _ _ _ HG) as (N1 & _). rewrite (d_tot _ _ _ HG) in N1.
    eapply seq; [apply (W_get_w (EFinish rb) None _ _ _ _ _ FW)|]. intros x l1 c1 (-> & -> & F1). cbn [fst negb].
    eapply seq; [apply (W_lock (EFinish rb) None _ _ _ _ _ F1)|]. intros u l2 c2 (-> & s2 & g2 & K2 & S2 & P2 & V2 & B2 & W2 & T2 & R2 & C2 & E2).
    pose proof (content_len _ W2) as L2. rewrite C2, zlen_app, enc_len, part_len in L2.
    pose proof (cost_nonneg (g_evs g2)) as CN. pose proof (zlen_nonneg p) as LP.
    eapply seq; [apply W_w; exact K2|]. atk c3 K3. rewrite S2. cbn [snd].
    assert (OUT : forall s' g' c', g_part g' = None -> g_vpart g' = None -> content (es_cb s') = enc (g_evs g') -> keptW s' g' c' ->
       wp O (EFinish rb) (unlock ;; put_w false 0) (fun x l0 c0 => wp O (EFinish rb) (Ret RUnit) (returns O h (EFinish rb)) l0 c0) (Some RUnit) c').
    { intros s' g' c' Y1 Y2 Y3 Y4. eapply seq; [apply (W_unlock (EFinish rb) (Some RUnit) s' g' c' Y4)|]; [rewrite Y1, Y3; cbn [part_bytes]; now rewrite app_nil_r|].
      intros x l4 c4 (-> & F4). rewrite Y1, Y2 in F4. eapply wp_mono; [|apply (W_put_w (EFinish rb) (Some RUnit) _ _ _ _ c4 false 0 F4)].
      intros x' l5 c5 (-> & F5). cbn [ConcProofs.wp]. eapply END; [reflexivity| |right; eexists; exact F5]. reflexivity. }
    destruct rb.
    + eapply seq with (P := fun _ l' c' => l' = Some RUnit /\ exists s' g', keptW s' g' c' /\ g_part g' = None /\ g_vpart g' = None /\ content (es_cb s') = enc (g_evs g')).
      * unfold p_consume_end. eapply seq; [apply W_sz; exact K3|]. atk c4 K4. replace (sz (es_cb s2) <? 2 + a) with false by lia.
        eapply seq; [apply W_sz; exact K4|]. atk c5 K5.
        pose proof (cb_consume_end_ok (es_cb s2) (2 + a) W2 ltac:(unfold is_u32; lia)) as CE. cbn zeta in CE.
        unfold cb_consume_from_end in CE. replace (sz (es_cb s2) <? 2 + a) with false in CE by lia. destruct CE as (W' & T' & _ & _ & CT).
        specialize (CT eq_refl). rewrite content_len in CT by exact W2. rewrite C2 in CT.
        rewrite take_app_exact in CT by (rewrite enc_len; lia).
        eapply seq; [eapply (W_put_sz (EFinish true) None (Some RUnit) s2 g2 c5 _ _ (g_evs g2) None None K5 eq_refl W' E2)|].
        { exists []. now rewrite app_nil_r. } { rewrite CT. cbn [part_bytes]. now rewrite app_nil_r. }
        { intros k. right. split; [reflexivity|]. exists RUnit. split; [reflexivity|]. unfold gval. cbn [g_evs g_vpart g_reading]. rewrite V2. reflexivity. }
        intros x l6 c6 (-> & -> & K6). cbn [ConcProofs.wp]. split; [reflexivity|]. eexists _, _. split; [exact K6|].
        cbn [g_part g_vpart g_evs set_cb es_cb]. auto.
      * intros x l6 c6 (-> & s' & g' & Y1 & Y2 & Y3 & Y4). eapply OUT; eassumption.
    + specialize (HC eq_refl).
      assert (HB : bytes (hdr_bytes (u16 (2 + a)))) by apply hdr_bytes_bytes.
      assert (HU : u16 (2 + a) = 2 + a) by (unfold u16; apply Z.mod_small; lia). rewrite HU in *.
      destruct (cb_write_at_ok (es_cb s2) (2 + a) (hdr_bytes (2 + a)) W2 HB ltac:(unfold is_u32; lia) ltac:(rewrite hdr_bytes_len; unfold is_u32; lia))
        as (b & c' & EC & W' & T' & BB & _ & CT).
      rewrite content_len in BB by exact W2. rewrite hdr_bytes_len in BB. pose proof W2 as (_ & _ & _ & W24 & _).
      assert (b = true) by (rewrite BB; lia). subst b. rewrite H in *. specialize (CT eq_refl).
      rewrite content_len in CT by exact W2. rewrite hdr_bytes_len, C2 in CT.
      rewrite take_app_exact in CT by (rewrite enc_len; lia).
      replace (sz (es_cb s2) - (2 + a) + 2) with (zlen (enc (g_evs g2) ++ hdr_bytes in_progress_mark)) in CT
        by (rewrite zlen_app, enc_len, hdr_bytes_len; lia).
      cbn [part_bytes] in CT. replace (enc (g_evs g2) ++ hdr_bytes in_progress_mark ++ p) with ((enc (g_evs g2) ++ hdr_bytes in_progress_mark) ++ p) in CT by now rewrite app_assoc.
      rewrite (drop_app_exact _ (enc (g_evs g2) ++ hdr_bytes in_progress_mark) p) in CT by reflexivity.
      assert (CT' : content c' = enc (g_evs g2 ++ [p])).
      { rewrite CT, enc_app. f_equal. rewrite enc_cons. change (enc []) with (@nil Z). rewrite app_nil_r. now rewrite I6. }
      eapply seq; [apply (W_write (EFinish false) None (Some RUnit) s2 g2 c3 (2 + a) (hdr_bytes (2 + a)) c' (g_evs g2 ++ [p]) None None K3 W2 T2 R2)|].
      { lia. } { exact HB. } { rewrite hdr_bytes_len; unfold is_u32; lia. } { exact EC. }
      { apply Forall_app. split; [exact E2|]. constructor; [|constructor]. split; [exact I7|lia]. }
      { exists [p]. reflexivity. } { rewrite CT'. cbn [part_bytes]. now rewrite app_nil_r. }
      { intros k. right. split; [reflexivity|]. exists RUnit. split; [reflexivity|]. unfold gval. cbn [g_evs g_vpart g_reading].
        rewrite V2. cbn [sev_step v_part v_events v_reading]. replace ((1 <=? zlen p) && (zlen p <=? 65532)) with true by lia. reflexivity. }
      intros x l6 c6 (-> & -> & K6). eapply OUT; [| | |exact K6]; [reflexivity|reflexivity|]. cbn [set_cb es_cb g_evs]. exact CT'.
Qed.

(** ** The sender *)
Definition freeR (rs : Z * Z * list Z) (start k : Z) (evs : list (list Z)) (c : conf) : Prop :=
  let '(s, ow, g) := c in ow <> Some (S O) /\ rstate s = rs /\ g_start g = start /\ g_reading g = k /\ exists new, g_evs g = evs ++ new.
Lemma freeR_stable rs start k evs c c' : freeR rs start k evs c -> rely (S O) c c' -> freeR rs start k evs c'.
Proof.
  destruct c as ((s1 & o1) & g1), c' as ((s2 & o2) & g2). intros (H1 & H2 & H3 & H4 & (n1 & H5)) (R1 & R2 & R3 & R4 & R5 & (n2 & R6) & _).
  refine (conj _ (conj _ (conj _ (conj _ _)))); try congruence; [intros E; apply H1; now apply R1|].
  exists (n1 ++ n2). rewrite R6, H5. now rewrite app_assoc.
Qed.
Lemma R_lock o l rs start k evs c : freeR rs start k evs c ->
  wp (S O) o lock (fun _ l' c' => l' = l /\ exists s g, keptR s g c' /\ rstate s = rs /\ g_start g = start /\ g_reading g = k /\
    (exists new, g_evs g = evs ++ new) /\ cb_wf (es_cb s) /\ tot (es_cb s) = n /\ rd (es_cb s) = g_start g /\
    content (es_cb s) = enc (g_evs g) ++ part_bytes (g_part g) /\ Forall ev_fine (g_evs g) /\ 0 <= k <= zlen (g_evs g)) l c.
Proof.
  intros FW. cbn [lock ConcProofs.wp]. intros s ow g HR HG. pose proof (freeR_stable _ _ _ _ _ _ FW HR) as (H1 & H2 & H3 & H4 & H5).
  split; [exact H1|]. intros ->. exists g, l. split; [left; auto|]. destruct HG. split; [|split; [|split]].
  - constructor; try assumption; try congruence. intros _. apply d_part0. discriminate.
  - intros u N. destruct u as [|[|u]]; [|congruence|].
    + split; [split; discriminate|]. repeat split; try reflexivity; try discriminate; lia.
    + split; [split; discriminate|exact I].
  - reflexivity.
  - exists s, g. assert (RD : rd (es_cb s) = g_start g) by (apply d_rd0; discriminate).
    split; [repeat split|]. do 4 (split; [assumption|]). do 3 (split; [assumption|]). split; [|split; [assumption|rewrite <- H4; assumption]].
    rewrite <- d_part0 by discriminate. rewrite <- RD, <- d_tot0. now destruct (es_cb s).
Qed.
Lemma R_unlock o l s g c : keptR s g c -> rd (es_cb s) = g_start g ->
  wp (S O) o unlock (fun _ l' c' => l' = l /\ freeR (rstate s) (g_start g) (g_reading g) (g_evs g) c') l c.
Proof.
  intros K CT. cbn [unlock ConcProofs.wp]. intros s' ow g' HR HG. pose proof (keptR_stable _ _ _ _ K HR) as (K1 & K2 & K3 & K4 & K5 & K6 & K7).
  split; [exact K1|]. exists g', l. split; [left; auto|]. destruct HG. split; [|split; [|split]].
  - constructor; try assumption; try congruence. intros _. apply d_part0. rewrite K1. discriminate.
  - intros u N. destruct u as [|[|u]]; [|congruence|].
    + split; [split; [rewrite K1|]; discriminate|]. repeat split; try reflexivity; try (rewrite K1 in *; discriminate); lia.
    + split; [split; [rewrite K1; congruence|discriminate]|exact I].
  - reflexivity.
  - refine (conj _ (conj _ (conj _ (conj _ _)))); try assumption; try discriminate. exists []. now rewrite app_nil_r.
Qed.
Lemma R_put_r o l l' s g c a num h k : keptR s g c -> 0 <= k <= zlen (g_evs g) ->
  (forall vp, linstep o l (mk_gh (g_start g) (g_evs g) (g_part g) vp (g_reading g)) l' (mk_gh (g_start g) (g_evs g) (g_part g) vp k)) ->
  wp (S O) o (put_r a num h) (atR tt l' (set_r s a num h) (mk_gh (g_start g) (g_evs g) (g_part g) None k)) l c.
Proof.
  intros K HK HL. cbn [put_r change ConcProofs.wp]. intros s' ow g' HR HG. pose proof (keptR_stable _ _ _ _ K HR) as (K1 & K2 & K3 & K4 & K5 & K6 & K7).
  eexists _, _. split; [reflexivity|]. exists (mk_gh (g_start g) (g_evs g) (g_part g) (g_vpart g') k), l'.
  assert (EG : mk_gh (g_start g) (g_evs g) (g_part g) (g_vpart g') (g_reading g) = g') by (rewrite <- K4, <- K5, <- K6, <- K7; now destruct g').
  split; [specialize (HL (g_vpart g')); rewrite EG in HL; exact HL|]. split; [|split].
  - destruct HG. constructor; cbn [set_r es_cb g_start g_evs g_part g_reading]; rewrite <- ?K4, <- ?K5, <- ?K6; try assumption; try congruence.
  - intros u N. destruct u as [|[|u]]; [|congruence|].
    + split; [reflexivity|]. cbn [set_r es_cb g_start g_evs g_part g_vpart g_reading wstate es_wip es_written]. repeat split; try reflexivity; try congruence. rewrite K5. lia.
    + split; [reflexivity|exact I].
  - split; [reflexivity|]. split; [reflexivity|]. cbn [keptR set_r es_cb rstate es_active es_num es_hdr g_start g_evs g_part g_reading]. repeat split; try assumption.
Qed.
(** Reading the read state outside the lock. *)
Lemma R_get_r o l rs start k evs c : freeR rs start k evs c ->
  wp (S O) o get_r (fun x l' c' => x = rs /\ l' = l /\ freeR rs start k evs c') l c.
Proof.
  intros FW. cbn [get_r fetch ConcProofs.wp]. intros s ow g HR HG. pose proof (freeR_stable _ _ _ _ _ _ FW HR) as FW'.
  eexists _, s. split; [reflexivity|]. exists g, l. split; [left; auto|]. split; [exact HG|]. split; [intros; apply rely_refl|].
  split; [apply FW'|]. auto.
Qed.
(** The state as the sequential model sees it: only what is committed. *)
Definition shown (m : list Z) (start : Z) (evs : list (list Z)) (k : Z) : es :=
  mk_es (mk_cbuf start (cost evs) n m) false 0 (cost (take k evs)) k (hdr_of bc k).
Lemma shown_ok s ow g k : good' s ow g -> 0 <= k <= zlen (g_evs g) ->
  esim bc n (shown (st (es_cb s)) (g_start g) (g_evs g) k) (mk_sev (g_evs g) None k).
Proof.
  intros HG HK. destruct HG. destruct d_wf0 as (W1 & W2 & W3 & W4 & W5). rewrite d_tot0 in *. pose proof (plen_nonneg (g_part g)).
  pose proof (cost_nonneg (g_evs g)).
  assert (W : cb_wf (mk_cbuf (g_start g) (cost (g_evs g)) n (st (es_cb s)))).
  { unfold cb_wf; cbn [rd sz tot st]. refine (conj W1 (conj W2 (conj d_start0 (conj _ W5)))). lia. }
  constructor; cbn [shown es_cb es_wip es_written es_num es_active es_hdr v_events v_part v_reading tot part_bytes]; try reflexivity; try assumption.
  rewrite app_nil_r. apply list_eq_get; [rewrite (content_len _ W), enc_len; reflexivity|].
  intros j Hj. rewrite (content_len _ W) in Hj. rewrite (get_content _ j W Hj). cbn [rd tot st sz] in *.
  rewrite <- (d_com0 j Hj). reflexivity.
Qed.
Lemma total_ok s ow g k : good' s ow g -> 0 <= k <= zlen (g_evs g) ->
  total_of (cost (take k (g_evs g)), k, hdr_of bc k) = zlen (message bc (g_evs g) k) /\
  (zlen (message bc (g_evs g) k) =? 0) = (k =? 0).
Proof. intros HG HK. exact (esim_total _ _ _ _ (shown_ok s ow g k HG HK)). Qed.
Lemma total_prefix s ow g evs new k : good' s ow g -> g_evs g = evs ++ new -> 0 <= k <= zlen evs ->
  total_of (cost (take k evs), k, hdr_of bc k) = zlen (message bc evs k) /\ (zlen (message bc evs k) =? 0) = (k =? 0).
Proof.
  intros HG E HK. pose proof (zlen_nonneg new). destruct (total_ok s ow g k HG) as (T1 & T2); [rewrite E, zlen_app; lia|].
  rewrite E in *. unfold message in *. rewrite take_app_le in * by lia. auto.
Qed.
Lemma idleR h rs start k evs c : freeR rs start k evs c -> rs = (cost (take k evs), k, hdr_of bc k) -> 0 <= k <= zlen evs -> idle (S O) h c.
Proof.
  destruct c as ((s & ow) & g). intros (H1 & H2 & H3 & H4 & (new & H5)) -> HK. split; [exact H1|]. unfold rok. rewrite H2, H4, H5.
  rewrite take_app_le by lia. split; [reflexivity|]. rewrite zlen_app. pose proof (zlen_nonneg new). lia.
Qed.

(** has more *)
Lemma has_ok h c : good c -> idle (S O) h c -> wp (S O) EHas (es_code n bc EHas) (returns (S O) h EHas) None c.
Proof.
  destruct c as ((s & ow) & g). intros HG (NO & ID & _). pose proof (d_k _ _ _ HG) as DK.
  cbn [es_code]. apply wp_bind. unfold p_has.
  assert (F0 : freeR (rstate s) (g_start g) (g_reading g) (g_evs g) (s, ow, g)) by (repeat split; try assumption; exists []; now rewrite app_nil_r).
  eapply seq; [apply (R_lock EHas None _ _ _ _ _ F0)|].
  intros u l1 c1 (-> & s1 & g1 & K1 & A1 & A2 & A3 & (new1 & A4) & W1 & T1 & R1 & C1 & E1 & B1).
  rewrite ID in *. rewrite <- A3 in *.
  assert (TK : take (g_reading g1) (g_evs g) = take (g_reading g1) (g_evs g1)) by (rewrite A4; symmetry; apply take_app_le; lia). rewrite TK in *.
  set (k := g_reading g1) in *.
  destruct (Z.eq_dec k 0) as [K0|K0].
  - (* nothing read yet *)
    eapply seq; [apply R_r; exact K1|]. atk c2 K2. eapply seq; [apply (R_unlock EHas None s1 g1 c2 K2 R1)|]. intros x l3 c3 (-> & F3).
    rewrite A1 in *. fold k in F3. rewrite K0 in *. rewrite take_0, cost_nil, hdr_of_0 in *. change (negb (total_of (0, 0, []) =? 0)) with false. cbn iota.
    eapply seq; [apply (R_lock EHas None _ _ _ _ _ F3)|].
    intros x4 l4 c4 (-> & s4 & g4 & K4 & D1 & D2 & D3 & (new4 & D4) & W4 & T4 & R4 & C4 & E4 & B4).
    pose proof (content_len _ W4) as L4. rewrite C4, zlen_app, enc_len, part_len in L4. pose proof (cost_zlen _ E4) as CZ.
    pose proof W4 as (W42 & _ & _ & W44 & _). pose proof (plen_nonneg (g_part g4)) as PN. unfold plen in PN.
    destruct (scan_ok bc (es_cb s4) (g_part g4) (g_evs g4) [] (Datatypes.S (Z.to_nat n)) W4 C4 E4) as (k' & ES & KR & ST).
    { unfold zlen in *. lia. } { destruct bc; [intros j Hj; change (zlen (@nil (list Z))) with 0 in Hj; lia|reflexivity]. }
    change (zlen (@nil (list Z))) with 0 in ES. rewrite cost_nil, app_nil_l in ES. rewrite app_nil_l in KR, ST.
    pose proof (stops_batch _ _ _ KR ST) as EB.
    eapply seq; [apply (R_scan EHas None s4 g4 T4 _ _ _ _ c4 K4 ES)|]. atk c5 K5. cbn [fst snd].
    assert (EH : match bc with None => [] | Some _ => batch_header k' end = hdr_of bc k').
    { unfold hdr_of. destruct bc; [|reflexivity]. apply batch_header_eq. clear -CZ L4 W44 PN T4 W42 KR. lia. }
    rewrite EH. set (r := RSome (1 <=? k') (zlen (message bc (g_evs g4) k'))).
    eapply seq; [apply (R_put_r EHas None (Some r) s4 g4 c5 (cost (take k' (g_evs g4))) k' (hdr_of bc k') k' K5 KR)|].
    { intros vp. right. split; [reflexivity|]. exists r. split; [reflexivity|]. unfold gval. cbn [g_evs g_vpart g_reading sev_step v_reading v_events v_part].
      rewrite D3. change (0 =? 0) with true. cbn iota. rewrite EB. reflexivity. }
    atk c6 K6. eapply seq; [apply (R_unlock EHas (Some r) _ _ c6 K6); cbn [set_r es_cb g_start]; exact R4|]. intros x7 l7 c7 (-> & F7).
    cbn [g_start g_evs g_reading] in F7. change (rstate (set_r s4 (cost (take k' (g_evs g4))) k' (hdr_of bc k'))) with (cost (take k' (g_evs g4)), k', hdr_of bc k') in F7.
    apply wp_fetch; [exact rely_refl|]. intros s8 ow8 g8 HR8 HG8. pose proof (freeR_stable _ _ _ _ _ _ F7 HR8) as F8.
    pose proof F8 as (X1 & X2 & X3 & X4 & (new8 & X5)). change (es_active s8, es_num s8, es_hdr s8) with (rstate s8). rewrite X2.
    destruct (total_prefix s8 ow8 g8 (g_evs g4) new8 k' HG8 X5 KR) as (TT1 & TT2). rewrite TT1, TT2. cbn [ConcProofs.wp fst snd].
    replace (negb (k' =? 0)) with (1 <=? k') by lia. split; [reflexivity|]. eapply idleR; [exact F8|reflexivity|exact KR].
  - (* a read is in progress *)
    set (r := RSome true (zlen (message bc (g_evs g1) k))).
    eapply seq with (P := atR (rstate s1) (Some r) s1 g1).
    { cbn [get_r fetch ConcProofs.wp]. intros s2 ow2 g2 HR2 HG2. pose proof (keptR_stable _ _ _ _ K1 HR2) as K2. pose proof K2 as (X1 & X2 & X3 & X4 & X5 & X6 & X7).
      eexists _, s2. split; [reflexivity|]. exists g2, (Some r). split.
      - right. split; [reflexivity|]. exists r. split; [reflexivity|]. unfold gval. cbn [sev_step v_reading v_events v_part]. rewrite X7, X5. fold k.
        replace (k =? 0) with false by lia. unfold r. do 3 f_equal. lia.
      - split; [exact HG2|]. split; [intros; apply rely_refl|]. split; [exact X3|]. split; [reflexivity|exact K2]. }
    atk c2 K2. eapply seq; [apply (R_unlock EHas (Some r) s1 g1 c2 K2 R1)|]. intros x l3 c3 (-> & F3). rewrite A1 in *. fold k in F3.
    assert (TOT : total_of (cost (take k (g_evs g1)), k, hdr_of bc k) = zlen (message bc (g_evs g1) k) /\ (zlen (message bc (g_evs g1) k) =? 0) = false).
    { assert (M : esim bc n (mk_es (es_cb s1) (match g_part g1 with Some _ => true | None => false end)
          (plen (g_part g1)) (cost (take k (g_evs g1))) k (hdr_of bc k)) (mk_sev (g_evs g1) (g_part g1) k)).
      { constructor; cbn [es_cb es_wip es_written es_num es_active es_hdr v_events v_part v_reading]; try assumption; try reflexivity.
        - destruct (g_part g1) as [p|] eqn:EP; [|reflexivity]. split; [reflexivity|]. split; [reflexivity|].
          assert (BC : bytes (content (es_cb s1))). { unfold content. apply bytes_take. apply bytes_drop. apply bytes_app. split; apply W1. }
          rewrite C1 in BC. apply bytes_app in BC as (_ & BC). cbn [part_bytes] in BC. apply bytes_app in BC as (_ & BC). exact BC. }
      destruct (esim_total _ _ _ _ M) as (Y1 & Y2). cbn [es_num es_active es_hdr v_events v_part v_reading] in *.
      split; [exact Y1|]. rewrite Y2. lia. }
    destruct TOT as (TT1 & TT2). rewrite TT1, TT2. cbn [negb ConcProofs.wp fst snd]. split; [reflexivity|].
    eapply idleR; [exact F3|reflexivity|lia].
Qed.

(** mark read *)
Lemma R_put_rd o l s g c x : keptR s g c -> 0 <= x < n ->
  wp (S O) o (put_rd x) (atR tt l (map_cb (fun c => mk_cbuf x (sz c) (tot c) (st c)) s) g) l c.
Proof.
  intros K HX. cbn [put_rd change ConcProofs.wp]. intros s' ow g' HR HG. pose proof (keptR_stable _ _ _ _ K HR) as (K1 & K2 & K3 & K4 & K5 & K6 & K7).
  eexists _, _. split; [reflexivity|]. exists g', l. split; [left; auto|]. destruct HG. destruct d_wf0 as (W1 & W2 & W3 & W4 & W5). split; [|split].
  - constructor; unfold map_cb; cbn [set_cb es_cb rd sz tot st]; try assumption; try congruence.
    unfold cb_wf; cbn [rd sz tot st]. refine (conj W1 (conj W2 (conj _ (conj W4 W5)))). lia.
  - intros u N. destruct u as [|[|u]]; [|congruence|].
    + split; [reflexivity|]. repeat split; try reflexivity; try congruence; lia.
    + split; [reflexivity|exact I].
  - split; [reflexivity|]. split; [reflexivity|]. unfold keptR, map_cb. cbn [set_cb es_cb]. rewrite K2. unfold rstate in *. repeat split; try assumption.
Qed.
Lemma mark_ok h c : good c -> idle (S O) h c -> wp (S O) EMark (es_code n bc EMark) (returns (S O) h EMark) None c.
Proof.
  destruct c as ((s & ow) & g). intros HG (NO & ID & _). pose proof (d_k _ _ _ HG) as DK.
  cbn [es_code]. apply wp_bind. unfold p_mark.
  assert (F0 : freeR (rstate s) (g_start g) (g_reading g) (g_evs g) (s, ow, g)) by (repeat split; try assumption; exists []; now rewrite app_nil_r).
  set (k := g_reading g) in *.
  assert (FK : Forall ev_fine (take k (g_evs g))).
  { pose proof (d_fine _ _ _ HG) as F. rewrite <- (take_drop k (g_evs g)), Forall_app in F. apply F. }
  pose proof (cost_zlen _ FK) as CZ. rewrite zlen_take in CZ.
  destruct (Z.eq_dec k 0) as [K0|K0].
  - apply wp_fetch_lin. intros s1 ow1 g1 HR1 HG1. pose proof (freeR_stable _ _ _ _ _ _ F0 HR1) as F1. pose proof F1 as (X1 & X2 & X3 & X4 & X5).
    exists g1, RUnit. split; [|split; [exact HG1|split; [intros; apply rely_refl|]]].
    + unfold gval. cbn [sev_step v_reading v_events v_part]. rewrite X4, K0, drop_0. reflexivity.
    + change (es_active s1, es_num s1, es_hdr s1) with (rstate s1). rewrite X2, ID. cbn [fst]. rewrite K0, take_0, cost_nil.
      change (0 =? 0) with true. cbn [ConcProofs.wp]. split; [reflexivity|]. eapply idleR; [exact F1|exact ID|lia].
  - eapply seq; [apply (R_get_r EMark None _ _ _ _ _ F0)|]. intros x l1 c1 (-> & -> & F1). rewrite ID in *. cbn [fst].
    replace (cost (take k (g_evs g)) =? 0) with false by lia.
    eapply seq; [apply (R_lock EMark None _ _ _ _ _ F1)|].
    intros u l2 c2 (-> & s2 & g2 & K2 & A1 & A2 & A3 & (new2 & A4) & W2 & T2 & R2 & C2 & E2 & B2).
    assert (TK : take k (g_evs g) = take k (g_evs g2)) by (rewrite A4; symmetry; apply take_app_le; lia). rewrite TK in *.
    eapply seq; [apply R_r; exact K2|]. atk c3 K3. rewrite A1. cbn [fst]. set (a := cost (take k (g_evs g2))) in *.
    pose proof (content_len _ W2) as L2. rewrite C2, zlen_app, enc_len, part_len in L2.
    pose proof (cost_take_drop k (g_evs g2)) as CTD. fold a in CTD. pose proof (cost_nonneg (drop k (g_evs g2))) as CN.
    pose proof (plen_nonneg (g_part g2)) as PN. unfold plen in PN. pose proof W2 as (W21 & W22 & W23 & W24 & W25). rewrite T2 in *.
    set (start' := u32 (rd (es_cb s2) + a) mod n).
    assert (HS' : 0 <= start' < n) by (apply Z.mod_pos_bound; lia).
    pose proof (cb_consume_ok (es_cb s2) a W2 ltac:(unfold is_u32; lia)) as CE. cbn zeta in CE. unfold cb_consume in CE.
    replace (sz (es_cb s2) <? a) with false in CE by lia. destruct CE as (W' & T' & _ & _ & CT). specialize (CT eq_refl).
    rewrite T2 in *. fold start' in CT, W', T'. rewrite C2 in CT.
    assert (CT' : content (mk_cbuf start' (sz (es_cb s2) - a) n (st (es_cb s2))) = enc (drop k (g_evs g2)) ++ part_bytes (g_part g2)).
    { rewrite CT. rewrite <- (take_drop k (g_evs g2)) at 1. rewrite enc_app, <- app_assoc. apply drop_app_exact. rewrite enc_len. reflexivity. }
    eapply seq with (P := fun _ l' c' => l' = Some RUnit /\ keptR (set_cb s2 (mk_cbuf start' (sz (es_cb s2) - a) n (st (es_cb s2))))
        (mk_gh start' (drop k (g_evs g2)) (g_part g2) None 0) c').
    { unfold p_consume. eapply seq; [apply R_sz; exact K3|]. atk c4 K4. replace (sz (es_cb s2) <? a) with false by lia.
      eapply seq; [apply R_rd; exact K4|]. atk c5 K5. fold start'.
      eapply seq; [apply (R_put_rd EMark None s2 g2 c5 start' K5 HS')|]. atk c6 K6.
      eapply seq; [apply R_sz; exact K6|]. atk c7 K7. unfold map_cb at 1. cbn [set_cb es_cb sz].
      eapply seq with (P := fun _ l' c' => l' = Some RUnit /\ keptR (set_cb s2 (mk_cbuf start' (sz (es_cb s2) - a) n (st (es_cb s2))))
        (mk_gh start' (drop k (g_evs g2)) (g_part g2) None 0) c').
      - cbn [put_sz change ConcProofs.wp]. intros s8 ow8 g8 HR8 HG8. pose proof (keptR_stable _ _ _ _ K7 HR8) as (Y1 & Y2 & Y3 & Y4 & Y5 & Y6 & Y7).
        unfold map_cb in Y2, Y3. cbn [set_cb es_cb] in Y2, Y3.
        eexists _, _. split; [reflexivity|]. exists (mk_gh start' (drop k (g_evs g2)) (g_part g2) (g_vpart g8) 0), (Some RUnit).
        assert (EM : map_cb (fun c0 => mk_cbuf (rd c0) (sz (es_cb s2) - a) (tot c0) (st c0)) s8 = set_cb s8 (mk_cbuf start' (sz (es_cb s2) - a) n (st (es_cb s2)))).
        { unfold map_cb. rewrite Y2. cbn [rd sz tot st]. now rewrite T2. }
        rewrite EM. split; [|split; [|split; [|split]]].
        + right. split; [reflexivity|]. exists RUnit. split; [reflexivity|]. unfold gval. cbn [sev_step v_events v_part v_reading g_evs g_vpart g_reading].
          rewrite Y5, Y7, A3. reflexivity.
        + constructor; cbn [set_cb es_cb rd sz tot st g_start g_evs g_part g_reading]; try assumption; try reflexivity; try congruence.
          * pose proof E2 as F. rewrite <- (take_drop k (g_evs g2)), Forall_app in F. apply F.
          * unfold plen. lia.
          * exact (committed_content (mk_cbuf start' (sz (es_cb s2) - a) n (st (es_cb s2))) start' _ _ W' eq_refl CT').
          * pose proof (zlen_nonneg (drop k (g_evs g2))). lia.
        + intros u' N. destruct u' as [|[|u']]; [|congruence|].
          * split; [reflexivity|]. cbn [set_cb es_cb g_start g_evs g_part g_vpart g_reading wstate es_wip es_written]. repeat split; try reflexivity; try congruence.
            rewrite Y5. lia.
          * split; [reflexivity|exact I].
        + reflexivity.
        + cbn [keptR set_cb es_cb g_start g_evs g_part g_vpart g_reading]. unfold rstate in *. cbn [set_cb es_active es_num es_hdr] in *. repeat split; try assumption.
      - intros x8 l8 c8 (-> & K8). cbn [ConcProofs.wp]. auto. }
    intros x8 l8 c8 (-> & K8).
    eapply seq; [apply (R_put_r EMark (Some RUnit) (Some RUnit) _ _ c8 0 0 [] 0 K8)|].
    { cbn [g_evs]. pose proof (zlen_nonneg (drop k (g_evs g2))). lia. } { intros vp. left. split; reflexivity. }
    atk c9 K9. eapply seq; [apply (R_unlock EMark (Some RUnit) _ _ c9 K9)|].
    { cbn [set_r set_cb es_cb rd g_start]. reflexivity. }
    intros x10 l10 c10 (-> & F10). cbn [ConcProofs.wp]. split; [reflexivity|]. cbn [g_start g_evs g_reading] in F10.
    eapply idleR; [exact F10| |pose proof (zlen_nonneg (drop k (g_evs g2))); lia]. rewrite take_0, cost_nil, hdr_of_0. reflexivity.
Qed.

(** read: the committed events are read without the lock *)
Lemma freeR_get rs start k evs s ow g j : good' s ow g -> freeR rs start k evs (s, ow, g) -> 0 <= j < cost evs ->
  get (st (es_cb s)) (ring n start j) = get (enc evs) j.
Proof.
  intros HG (_ & _ & <- & _ & (new & E)) Hj. pose proof (cost_nonneg new) as CN. pose proof (cost_app evs new) as CA.
  rewrite (d_com _ _ _ HG) by (rewrite E; lia). rewrite E, enc_app. apply get_app1. rewrite enc_len. lia.
Qed.
Lemma U_load_n rs start k evs o l d : forall i j c, freeR rs start k evs c ->
  (forall t, 0 <= t < zlen d -> ring n start (j + t) = i + t /\ 0 <= j + t < cost evs /\ get (enc evs) (j + t) = get d t) ->
  wp (S O) o (load_n (length d) i) (fun x l' c' => x = d /\ l' = l /\ freeR rs start k evs c') l c.
Proof.
  induction d as [|b d IH]; intros i j c F H; cbn [length load_n].
  - cbn [ConcProofs.wp]. auto.
  - pose proof (zlen_nonneg d) as ZN. rewrite zlen_cons in H.
    eapply seq with (P := fun x l' c' => x = b /\ l' = l /\ freeR rs start k evs c').
    + cbn [load ConcProofs.wp]. intros s ow g HR HG. pose proof (freeR_stable _ _ _ _ _ _ F HR) as F'.
      destruct (H 0 ltac:(lia)) as (H1 & H2 & H3). rewrite !Z.add_0_r in *. pose proof (freeR_get _ _ _ _ _ _ _ _ HG F' H2) as G.
      rewrite H1, H3 in G. change (get (b :: d) 0) with (Some b) in G. rewrite G. exists b, s. split; [reflexivity|]. exists g, l. split; [left; auto|].
      split; [exact HG|]. split; [intros; apply rely_refl|]. auto.
    + intros x l1 c1 (-> & -> & F1). eapply seq; [apply (IH (i + 1) (j + 1) c1 F1)|].
      * intros t Ht. destruct (H (1 + t) ltac:(lia)) as (H1 & H2 & H3). replace (j + 1 + t) with (j + (1 + t)) by lia. split; [lia|]. split; [lia|].
        rewrite H3. change (b :: d) with ([b] ++ d). rewrite get_app2 by (change (zlen [b]) with 1; lia). f_equal. change (zlen [b]) with 1. lia.
      * intros x2 l2 c2 (-> & -> & F2). cbn [ConcProofs.wp]. auto.
Qed.
Lemma U_fetch {A} (f : es -> A) (x : A) o l rs start k evs c : freeR rs start k evs c ->
  (forall s ow g, good' s ow g -> freeR rs start k evs (s, ow, g) -> f s = x) ->
  wp (S O) o (fetch f) (fun y l' c' => y = x /\ l' = l /\ freeR rs start k evs c') l c.
Proof.
  intros F H. cbn [fetch ConcProofs.wp]. intros s ow g HR HG. pose proof (freeR_stable _ _ _ _ _ _ F HR) as F'.
  eexists _, s. split; [reflexivity|]. exists g, l. split; [left; auto|]. split; [exact HG|]. split; [intros; apply rely_refl|].
  split; [exact (H _ _ _ HG F')|]. auto.
Qed.
Lemma U_read rs start k evs o l pre d post c : 0 <= start < n -> n <= 2147483648 -> cost evs <= n -> freeR rs start k evs c -> enc evs = pre ++ d ++ post ->
  wp (S O) o (p_read n (zlen pre) (zlen d)) (fun x l' c' => x = Some d /\ l' = l /\ freeR rs start k evs c') l c.
Proof.
  intros HS HN HC F E. unfold p_read. pose proof (zlen_nonneg pre). pose proof (zlen_nonneg d). pose proof (zlen_nonneg post).
  assert (LE : zlen pre + zlen d + zlen post = cost evs) by (rewrite <- enc_len, E, !zlen_app; lia).
  eapply seq with (P := fun x l' c' => cost evs <= x /\ l' = l /\ freeR rs start k evs c').
  { cbn [get_sz fetch ConcProofs.wp]. intros s ow g HR HG. pose proof (freeR_stable _ _ _ _ _ _ F HR) as F'.
    eexists _, s. split; [reflexivity|]. exists g, l. split; [left; auto|]. split; [exact HG|]. split; [intros; apply rely_refl|].
    split; [|auto]. rewrite (d_sz _ _ _ HG). destruct F' as (_ & _ & _ & _ & (new & ->)). rewrite cost_app. pose proof (cost_nonneg new). pose proof (plen_nonneg (g_part g)). lia. }
  intros x l1 c1 (HX & -> & F1). rewrite u32_in by lia. replace (x <? zlen pre + zlen d) with false by lia.
  eapply seq; [apply (U_fetch (fun s => rd (es_cb s)) start o l _ _ _ _ c1 F1)|].
  { intros s ow g HG (X1 & _ & X3 & _). rewrite <- X3. apply (d_rd _ _ _ HG X1). }
  intros x2 l2 c2 (-> & -> & F2). rewrite u32_in by lia.
  destruct (Z.eq_dec (zlen d) 0) as [D0|D0].
  { assert (d = []) as -> by (destruct d; [reflexivity|rewrite zlen_cons in D0; pose proof (zlen_nonneg d); lia]).
    change (zlen (@nil Z)) with 0 in *. set (idx := (start + zlen pre) mod n).
    assert (0 <= idx < n) by (apply Z.mod_pos_bound; lia).
    replace (n - idx >? 0) with true by lia. change (Z.to_nat 0) with O. cbn [load_n]. apply wp_bind. cbn [ConcProofs.wp].
    change (0 - 0 =? 0) with true. apply wp_bind. cbn [ConcProofs.wp]. auto. }
  assert (EI : (start + zlen pre) mod n = ring n start (zlen pre)).
  { unfold ring. destruct (start + zlen pre <? n) eqn:EL; [apply Z.mod_small; lia|].
    replace ((start + zlen pre) mod n) with ((start + zlen pre - n + 1 * n) mod n) by (f_equal; lia). rewrite Z_mod_plus_full. apply Z.mod_small; lia. }
  rewrite EI. set (idx := ring n start (zlen pre)). pose proof (ring_range n start (zlen pre) HS ltac:(lia)) as IR. fold idx in IR.
  set (m := if n - idx >? zlen d then zlen d else n - idx). assert (HM : 0 <= m <= zlen d /\ m <= n - idx /\ (m < zlen d -> m = n - idx)) by (unfold m; destruct (n - idx >? zlen d) eqn:Q; lia).
  assert (GD : forall t, 0 <= t < zlen d -> get (enc evs) (zlen pre + t) = get d t).
  { intros t Ht. rewrite E, get_app2 by lia. replace (zlen pre + t - zlen pre) with t by lia. apply get_app1. lia. }
  assert (LT : length (take m d) = Z.to_nat m) by (pose proof (zlen_take m d) as Q; unfold zlen in *; lia). rewrite <- LT.
  eapply seq; [apply (U_load_n _ _ _ _ o l (take m d) idx (zlen pre) c2 F2)|].
  { intros t Ht. rewrite zlen_take in Ht. split; [|split; [lia|rewrite GD by lia; symmetry; apply get_take'; lia]].
    unfold idx in *. apply ring_plus; lia. }
  intros x3 l3 c3 (-> & -> & F3).
  eapply seq with (P := fun x l' c' => x = drop m d /\ l' = l /\ freeR rs start k evs c').
  - destruct (zlen d - m =? 0) eqn:ER; [cbn [ConcProofs.wp]; rewrite drop_all by lia; auto|].
    assert (LD : length (drop m d) = Z.to_nat (zlen d - m)) by (pose proof (zlen_drop m d) as Q; unfold zlen in *; lia). rewrite <- LD.
    apply (U_load_n _ _ _ _ o l (drop m d) 0 (zlen pre + m) c3 F3).
    intros t Ht. rewrite zlen_drop in Ht. split; [unfold idx in *; rewrite ring_wrap; lia|]. split; [lia|].
    rewrite <- Z.add_assoc, GD by lia. rewrite <- (take_drop m d) at 1. rewrite get_app2 by (rewrite zlen_take; lia). f_equal. rewrite zlen_take. lia.
  - intros x4 l4 c4 (-> & -> & F4). cbn [ConcProofs.wp]. rewrite take_drop. auto.
Qed.
Lemma U_read_loop rs start k evs o l : 0 <= start < n -> n <= 2147483648 -> cost evs <= n -> forall rest pre fuel m off cur c,
  freeR rs start k evs c -> enc evs = pre ++ enc rest -> Forall ev_fine rest -> (length rest < fuel)%nat ->
  0 <= cur -> 0 <= m -> cur <= off -> off - cur + m <= zlen (concat rest) -> cur + cost rest <= 4294967295 ->
  wp (S O) o (p_read_loop n fuel m off cur (zlen pre))
    (fun x l' c' => x = Some (take m (drop (off - cur) (concat rest))) /\ l' = l /\ freeR rs start k evs c') l c.
Proof.
  intros HS HN HC. induction rest as [|e rest IH]; intros pre fuel m off cur c FR C F Hf Hcu Hn Ho Hl Hb.
  - cbn [concat] in Hl. change (zlen (@nil Z)) with 0 in Hl. replace m with 0 by lia.
    rewrite take_0. destruct fuel; cbn [p_read_loop]; change (0 =? 0) with true; cbn [ConcProofs.wp]; auto.
  - destruct fuel as [|fuel]; [cbn in Hf; lia|]. cbn [length] in Hf. cbn [p_read_loop].
    destruct (m =? 0) eqn:N0; [replace m with 0 by lia; cbn [ConcProofs.wp]; rewrite take_0; auto|].
    assert (L : zlen pre + cost (e :: rest) = cost evs) by (rewrite <- (enc_len evs), C, zlen_app, enc_len; reflexivity).
    rewrite cost_cons in Hb, L. pose proof (zlen_nonneg pre). pose proof (cost_nonneg rest).
    pose proof (Forall_inv F) as [Be Le]. pose proof (Forall_inv_tail F) as Fr.
    cbn [concat] in *. rewrite zlen_app in Hl.
    assert (zlen (concat rest) <= cost rest) by (unfold cost; pose proof (zlen_nonneg rest); lia).
    pose proof (U_read rs start k evs o l pre (hdr_bytes (2 + zlen e)) (e ++ enc rest) c HS HN HC FR ltac:(rewrite C, enc_cons, <- ?app_assoc; reflexivity)) as UR.
    rewrite hdr_bytes_len in UR. eapply seq; [exact UR|]. intros x1 l1 c1 (-> & -> & F1). rewrite hdr_roundtrip by lia. cbn zeta.
    rewrite (u32_in (2 + zlen e - 2)) by lia. replace (2 + zlen e - 2) with (zlen e) by lia.
    rewrite (u32_in (cur + zlen e)) by lia. rewrite (u32_in (zlen pre + 2)) by lia.
    rewrite (u32_in (zlen pre + 2 + zlen e)) by lia.
    set (pre' := pre ++ hdr_bytes (2 + zlen e) ++ e).
    assert (LP : zlen pre + 2 + zlen e = zlen pre') by (unfold pre'; rewrite !zlen_app, hdr_bytes_len; lia).
    assert (C' : enc evs = pre' ++ enc rest) by (unfold pre'; rewrite C, enc_cons, <- ?app_assoc; reflexivity).
    destruct (cur + zlen e <? off) eqn:SK.
    + rewrite LP. replace (drop (off - cur) (e ++ concat rest)) with (drop (off - (cur + zlen e)) (concat rest)).
      * apply IH; try assumption; lia.
      * rewrite drop_app_ge by lia. f_equal. lia.
    + rewrite (u32_in (off - cur)) by lia. rewrite (u32_in (zlen e - (off - cur))) by lia.
      rewrite (u32_in (zlen pre + 2 + (off - cur))) by lia.
      set (q := Z.min (zlen e - (off - cur)) m). assert (Hk : 0 <= q <= m) by lia.
      pose proof (U_read rs start k evs o l (pre ++ hdr_bytes (2 + zlen e) ++ take (off - cur) e) (take q (drop (off - cur) e))
                 (drop q (drop (off - cur) e) ++ enc rest) c1 HS HN HC F1) as UR2.
      rewrite !zlen_app, hdr_bytes_len, !zlen_take, zlen_drop in UR2.
      replace (zlen pre + (2 + Z.min (Z.max 0 (off - cur)) (zlen e))) with (zlen pre + 2 + (off - cur)) in UR2 by lia.
      replace (Z.min (Z.max 0 q) (zlen e - Z.min (Z.max 0 (off - cur)) (zlen e))) with q in UR2 by lia.
      eapply seq; [apply UR2|].
      { rewrite C, enc_cons, <- ?app_assoc. do 2 f_equal. rewrite <- (take_drop (off - cur) e) at 1. rewrite <- app_assoc. f_equal.
        rewrite <- (take_drop q (drop (off - cur) e)) at 1. now rewrite <- app_assoc. }
      intros x2 l2 c2 (-> & -> & F2). rewrite (u32_in (m - q)) by lia. rewrite (u32_in (off + q)) by lia. rewrite LP.
      destruct (Z.eq_dec (m - q) 0) as [Z0|Z0].
      * rewrite Z0. eapply seq with (P := fun x l' c' => x = Some [] /\ l' = l /\ freeR rs start k evs c').
        -- destruct fuel; cbn [p_read_loop]; change (0 =? 0) with true; cbn [ConcProofs.wp]; auto.
        -- intros x3 l3 c3 (-> & -> & F3). cbn [ConcProofs.wp]. split; [|auto]. rewrite app_nil_r. f_equal. replace q with m by lia.
           rewrite drop_app_le by lia. symmetry. apply take_app_le. rewrite zlen_drop. lia.
      * eapply seq; [apply IH; try assumption; lia|]. intros x3 l3 c3 (-> & -> & F3). cbn [ConcProofs.wp]. split; [|auto]. f_equal.
        rewrite drop_app_le by lia. replace q with (zlen e - (off - cur)) by lia.
        rewrite (take_all _ (drop (off - cur) e)) by (rewrite zlen_drop; lia). rewrite take_app_ge by (rewrite zlen_drop; lia).
        f_equal. rewrite zlen_drop. replace (off + (zlen e - (off - cur)) - (cur + zlen e)) with 0 by lia. rewrite drop_0. f_equal. lia.
Qed.
Lemma read_ok h c off m : good c -> idle (S O) h c -> 0 <= off -> 0 <= m -> off + m < 4294967296 ->
  wp (S O) (ERead off m) (es_code n bc (ERead off m)) (returns (S O) h (ERead off m)) None c.
Proof.
  destruct c as ((s & ow) & g). intros HG (NO & ID & _) Ho Hm Hb. pose proof (d_k _ _ _ HG) as DK.
  cbn [es_code]. apply wp_bind. unfold p_read_msg.
  assert (F0 : freeR (rstate s) (g_start g) (g_reading g) (g_evs g) (s, ow, g)) by (repeat split; try assumption; exists []; now rewrite app_nil_r).
  set (k := g_reading g) in *. rewrite ID in F0. set (evs := g_evs g) in *.
  destruct (total_ok s ow g k HG DK) as (ET & _). fold evs in ET. set (msg := message bc evs k) in *.
  set (r := if off + m <=? zlen msg then Some (take m (drop off msg)) else None).
  assert (KIN : 0 <= k <= zlen evs) by exact DK.
  assert (FIN : forall c', freeR (cost (take k evs), k, hdr_of bc k) (g_start g) k evs c' ->
     returns (S O) h (ERead off m) (RBytes r) (Some (RBytes r)) c').
  { intros c' F'. split; [reflexivity|]. eapply idleR; [exact F'|reflexivity|exact KIN]. }
  apply wp_fetch_lin. intros s1 ow1 g1 HR1 HG1. pose proof (freeR_stable _ _ _ _ _ _ F0 HR1) as F1. pose proof F1 as (X1 & X2 & X3 & X4 & (new & X5)).
  exists g1, (RBytes r). split; [|split; [exact HG1|split; [intros; apply rely_refl|]]].
  { unfold gval. cbn [sev_step v_reading v_events v_part]. rewrite X4, X5. unfold message. rewrite take_app_le by lia.
    replace ((0 <=? off) && (0 <=? m) && (off + m <? 4294967296)) with true by lia. reflexivity. }
  change (es_active s1, es_num s1, es_hdr s1) with (rstate s1). rewrite X2. cbn [snd]. rewrite ET.
  rewrite u32_in by lia. unfold r in *. destruct (off + m <=? zlen msg) eqn:E; [|replace (_ <? _) with true by lia; cbn [ConcProofs.wp]; apply FIN; exact F1].
  replace (_ <? _) with false by lia.
  pose proof (cost_zlen _ (d_fine _ _ _ HG)) as CZ. fold evs in CZ. pose proof (d_wf _ _ _ HG) as (W1 & _ & _ & W4 & _). rewrite (d_tot _ _ _ HG) in *.
  pose proof (d_sz _ _ _ HG) as DS. fold evs in DS. pose proof (plen_nonneg (g_part g)) as PN. pose proof (d_start _ _ _ HG) as SR.
  set (hh := hdr_of bc k) in *. pose proof (hdr_of_len bc k) as HL. fold hh in HL.
  set (body := concat (take k evs)).
  assert (EM : msg = hh ++ body) by reflexivity.
  assert (EB : concat evs = body ++ concat (drop k evs)).
  { unfold body. rewrite <- concat_app. now rewrite take_drop. }
  assert (LM : zlen msg = zlen hh + zlen body) by (rewrite EM; apply zlen_app).
  assert (LB : zlen (concat evs) <= cost evs) by (rewrite zlen_concat; pose proof (zlen_nonneg evs); lia).
  assert (LB2 : zlen body <= zlen (concat evs)) by (rewrite EB, zlen_app; pose proof (zlen_nonneg (concat (drop k evs))); lia).
  assert (RL : forall o q l c', freeR (cost (take k evs), k, hh) (g_start g) k evs c' -> 0 <= q -> 0 <= o -> o + q <= zlen body ->
     wp (S O) (ERead off m) (p_read_loop n (Datatypes.S (Z.to_nat n)) q o 0 0)
      (fun x l' c' => x = Some (take q (drop o body)) /\ l' = l /\ freeR (cost (take k evs), k, hh) (g_start g) k evs c') l c').
  { intros o q l c' F' H1 H2 H3.
    pose proof (U_read_loop (cost (take k evs), k, hh) (g_start g) k evs (ERead off m) l SR ltac:(lia) ltac:(lia) evs [] (Datatypes.S (Z.to_nat n)) q o 0 c' F') as R.
    change (zlen (@nil Z)) with 0 in R. rewrite Z.sub_0_r in R.
    replace (take q (drop o body)) with (take q (drop o (concat evs))).
    - apply R; try lia; try apply HG; [reflexivity|]. clear -CZ W4 DS PN. unfold zlen in CZ. lia.
    - rewrite EB, drop_app_le by lia. apply take_app_le. rewrite zlen_drop. lia. }
  pose proof (zlen_nonneg body) as ZB.
  eapply seq; [apply (R_get_r _ _ _ _ _ _ _ F1)|]. intros x2 l2 c2 (-> & -> & F2). cbn [snd].
  destruct (off <? zlen hh) eqn:EH.
  - rewrite u32_in by lia. eapply seq; [apply RL; [exact F2|lia..]|]. intros x3 l3 c3 (-> & -> & F3). cbn [ConcProofs.wp].
    rewrite drop_0.
    replace (Some (take (Z.min m (zlen hh - off)) (drop off hh) ++ take (m - Z.min m (zlen hh - off)) body)) with (Some (take m (drop off msg))).
    + apply FIN; exact F3.
    + f_equal. rewrite EM, drop_app_le by lia. destruct (Z.le_gt_cases m (zlen hh - off)).
      * replace (Z.min m (zlen hh - off)) with m by lia. rewrite Z.sub_diag, take_0, app_nil_r. apply take_app_le. rewrite zlen_drop. lia.
      * replace (Z.min m (zlen hh - off)) with (zlen hh - off) by lia.
        rewrite (take_all _ (drop off hh)) by (rewrite zlen_drop; lia). rewrite take_app_ge by (rewrite zlen_drop; lia). f_equal. f_equal. rewrite zlen_drop; lia.
  - rewrite u32_in by lia. eapply wp_mono; [|apply RL; [exact F2|lia..]]. intros x3 l3 c3 (-> & -> & F3). cbn [ConcProofs.wp].
    replace (take m (drop (off - zlen hh) body)) with (take m (drop off msg)) by (rewrite EM; now rewrite drop_app_ge by lia).
    apply FIN; exact F3.
Qed.

Lemma idle_stable t h a b : idle t h a -> rely t a b -> good b -> idle t h b.
Proof.
  destruct a as ((s1 & o1) & g1), b as ((s2 & o2) & g2). intros (H1 & H2) HR HG. pose proof HR as (R1 & R2).
  split; [intros E; apply H1; now apply R1|]. destruct t as [|[|t]]; [| |exact H2].
  - destruct R2 as (A1 & A2 & A3 & A4 & _). destruct (writing_of Closed h) as [|sp a].
    + destruct H2 as (B1 & B2 & B3). unfold wstate in A1. injection A1 as A1 _. rewrite A1, A2, A3. auto.
    + destruct H2 as [(B1 & B2 & B3 & B4 & B5)|(B1 & B2 & B3 & p & B4 & B5 & B6)].
      * left. unfold wstate in A1. injection A1 as A1 _. rewrite A1, A2, A3. auto.
      * right. rewrite A1, A2, A3. split; [exact B1|]. split; [exact B2|]. split; [lia|]. exists p. auto.
  - exact (rok_stable _ _ _ _ _ _ H2 HR).
Qed.
Lemma calls_ok t h o c : idle t h c -> one_each t h o -> good c -> wp t o (es_code n bc o) (returns t h o) None c.
Proof.
  intros HI HL HG. destruct t as [|[|t]]; [| |contradiction]; cbn [one_each] in HL.
  - unfold recorder_may in HL. destruct (writing_of Closed h) as [|sp a] eqn:EW; destruct o as [|d|rb| |off m| | |]; try contradiction.
    + apply begin_ok; assumption.
    + destruct HL as (L1 & L2 & L3). eapply append_ok; eassumption.
    + eapply finish_ok; eassumption.
  - destruct o as [|d|rb| |off m| | |]; try contradiction.
    + apply has_ok; assumption.
    + destruct HL as (L1 & L2 & L3). apply read_ok; assumption.
    + apply mark_ok; assumption.
Qed.
End One.

Lemma one_each_ok bc storage s sched : 0 < zlen storage <= 2147483648 -> es_boot storage (zlen storage) = Some (Some s) ->
  legal_run (es_code (zlen storage) bc) one_each (start_mach s) sched ->
  exists m, mach_run (es_code (zlen storage) bc) (start_mach s) sched = Some m /\
    linearizable (sev_step bc (zlen storage)) (mk_sev [] None 0) (m_hist m) /\ no_deadlock m.
Proof.
  intros HS HB HL. set (n := zlen storage) in *.
  destruct (es_boot_ok bc storage HS) as (s' & EB & M). fold n in EB, M. rewrite HB in EB. injection EB as <-.
  pose proof (content_len _ (m_wf _ _ _ _ M)) as CL. rewrite (m_cont _ _ _ _ M) in CL. cbn [v_events v_part part_bytes] in CL.
  change (zlen (enc [] ++ [])) with 0 in CL. pose proof (m_wf _ _ _ _ M) as W. pose proof (m_tot _ _ _ _ M) as T.
  assert (ER : rd (es_cb s) = 0).
  { unfold es_boot in HB. apply bind_inv in HB as (c & Ec & HB). destruct c as [c|]; [|discriminate]. injection HB as <-. cbn [es_cb].
    unfold cb_init in Ec. destruct (n =? 0); [discriminate|]. apply bind_inv in Ec as (x & _ & Ec). injection Ec as <-. reflexivity. }
  refine (sound es es_op es_res sev gh (sev_step bc n) (es_code n bc) gval (good n) rely rely_refl rely_trans (idle bc n) one_each
    (idle_stable bc n) (fun t h s ow g => idle_owner bc n t h s ow g) (calls_ok bc n) (mk_sev [] None 0) s (mk_gh 0 [] None None 0) sched _ eq_refl _ HL).
  - constructor; cbn [g_start g_evs g_part g_reading]; try assumption; try lia.
    + constructor.
    + change (cost [] + plen None) with 0. lia.
    + intros j Hj. rewrite cost_nil in Hj. lia.
    + intros _. cbn [part_bytes]. pose proof (m_cont _ _ _ _ M) as MC. cbn [v_events v_part part_bytes] in MC. rewrite <- MC, <- ER, <- T. now destruct (es_cb s).
    + change (zlen (@nil (list Z))) with 0. lia.
  - intros t. split; [discriminate|]. destruct t as [|[|t]]; cbn [writing_of].
    + split; [|split; reflexivity]. pose proof (m_wip _ _ _ _ M) as Q. exact Q.
    + split; [|cbn [g_reading g_evs]; change (zlen (@nil (list Z))) with 0; lia]. unfold rstate. rewrite (m_num _ _ _ _ M), (m_active _ _ _ _ M), (m_hdr _ _ _ _ M). reflexivity.
    + exact I.
Qed.

(** ** Computing with schedules *)
Definition u8b (x : Z) : bool := (0 <=? x) && (x <? 256).
Definition recorder_mayb (h : list (es_op * es_res)) (o : es_op) : bool :=
  match writing_of Closed h, o with
  | Closed, EBegin => true
  | Opened n a, EAppend d => forallb u8b d && (a + zlen d <=? n) && (0 <? n)
  | Opened n a, EFinish rollback => rollback || ((1 <=? a) && (a <=? 65532))
  | _, _ => false
  end.
Lemma recorder_mayb_ok h o : recorder_mayb h o = true -> recorder_may h o.
Proof.
  unfold recorder_mayb, recorder_may. destruct (writing_of Closed h) as [|n a]; destruct o as [|d|rb| |off k| | |]; intros H; try discriminate; try exact I.
  - apply andb_prop in H as (H & H3). apply andb_prop in H as (H1 & H2). split; [|lia]. apply Forall_forall. intros x Hx.
    rewrite forallb_forall in H1. specialize (H1 x Hx). unfold u8b, is_u8 in *. lia.
  - intros ->. cbn [orb] in H. lia.
Qed.
Definition sender_mayb (o : es_op) : bool :=
  match o with EHas | EMark => true | ERead off n => (0 <=? off) && (0 <=? n) && (off + n <? 4294967296) | _ => false end.
Lemma sender_mayb_ok o : sender_mayb o = true -> sender_may o.
Proof. destruct o; cbn; intros H; try discriminate; try exact I. lia. Qed.
Definition one_eachb (t : nat) (h : list (es_op * es_res)) (o : es_op) : bool :=
  match t with O => recorder_mayb h o | S O => sender_mayb o | _ => false end.
Lemma one_eachb_ok t h o : one_eachb t h o = true -> one_each t h o.
Proof. destruct t as [|[|t]]; cbn [one_eachb one_each]; [apply recorder_mayb_ok|apply sender_mayb_ok|discriminate]. Qed.
Definition recordersb (t : nat) (h : list (es_op * es_res)) (o : es_op) : bool :=
  match t with S O => false | _ => recorder_mayb h o end.
Lemma recordersb_ok t h o : recordersb t h o = true -> recorders t h o.
Proof. destruct t as [|[|t]]; cbn [recordersb recorders]; [apply recorder_mayb_ok|discriminate|apply recorder_mayb_ok]. Qed.
Definition sendersb (t : nat) (h : list (es_op * es_res)) (o : es_op) : bool :=
  match t with O => recorder_mayb h o | _ => sender_mayb o end.
Lemma sendersb_ok t h o : sendersb t h o = true -> senders t h o.
Proof. destruct t as [|t]; cbn [sendersb senders]; [apply recorder_mayb_ok|apply sender_mayb_ok]. Qed.
Definition listb (a b : list Z) : bool := if list_eq_dec Z.eq_dec a b then true else false.
Definition resb (a b : es_res) : bool :=
  match a, b with
  | RSpace x, RSpace y | RNum x, RNum y => x =? y
  | ROk x, ROk y => Bool.eqb x y
  | RUnit, RUnit => true
  | RSome x m, RSome y n => Bool.eqb x y && (m =? n)
  | RBytes None, RBytes None => true
  | RBytes (Some x), RBytes (Some y) => listb x y
  | _, _ => false
  end.
Lemma resb_refl r : resb r r = true.
Proof.
  destruct r as [x|x|x m|[d|]| |x]; cbn [resb]; rewrite ?Z.eqb_refl, ?Bool.eqb_reflx; try reflexivity.
  unfold listb. destruct (list_eq_dec Z.eq_dec d d); congruence.
Qed.
Definition sizedb (t : nat) (h : list (es_op * es_res)) (o : es_op) : bool :=
  match t with O => recorder_mayb h o | S O => match o with EUsed => true | _ => sender_mayb o end | _ => false end.
Lemma sizedb_ok t h o : sizedb t h o = true -> one_each_sized t h o.
Proof.
  destruct t as [|[|t]]; cbn [sizedb one_each_sized]; [apply recorder_mayb_ok| |discriminate].
  destruct o; intros H; try (left; apply sender_mayb_ok; exact H). now right.
Qed.
(** A run that may be made and whose history is not linearizable. *)
Definition counterexample (bc : es_cfg) (n : Z) (threads : list nat) (legalb : nat -> list (es_op * es_res) -> es_op -> bool) (sched : list (item es_op)) : bool :=
  match es_boot (fill n 170) n with
  | Some (Some s) =>
      match mach_run (es_code n bc) (start_mach s) sched with
      | Some m =>
          may_run (es_code n bc) legalb (start_mach s) sched &&
          forallb (fun e => match e with Inv t _ => existsb (Nat.eqb t) threads | Res _ _ _ => true end) (m_hist m) &&
          negb (can (sev_step bc n) resb threads 40 (mk_sev [] None 0) (fun _ => None) (m_hist m))
      | None => false
      end
  | _ => false
  end.
Lemma counterexample_ok bc n threads (legal : nat -> list (es_op * es_res) -> es_op -> Prop) legalb sched :
  (forall t h o, legalb t h o = true -> legal t h o) -> counterexample bc n threads legalb sched = true ->
  exists s m, es_boot (fill n 170) n = Some (Some s) /\ legal_run (es_code n bc) legal (start_mach s) sched /\
    mach_run (es_code n bc) (start_mach s) sched = Some m /\ ~ linearizable (sev_step bc n) (mk_sev [] None 0) (m_hist m).
Proof.
  intros HL H. unfold counterexample in H. destruct (es_boot (fill n 170) n) as [[s|]|]; try discriminate.
  destruct (mach_run (es_code n bc) (start_mach s) sched) as [m|] eqn:F; [|discriminate].
  apply andb_prop in H as (H & H3). apply andb_prop in H as (H1 & H2). exists s, m. split; [reflexivity|].
  split; [eapply may_run_ok; eassumption|]. split; [exact F|].
  eapply (not_linearizable _ resb resb_refl threads 40); [|now apply Bool.negb_true_iff].
  intros t o X. rewrite forallb_forall in H2. specialize (H2 _ X). cbn in H2. apply existsb_exists in H2 as (u & Hu & E).
  apply Nat.eqb_eq in E. now subst u.
Qed.
