From Verif Require Import Base CircularBuffer CircularBufferSpec CircularBufferProofs Log LogSpec LogLists.

Lemma u32_in x : 0 <= x < 4294967296 -> u32 x = x.
Proof. apply u32_id. Qed.
Lemma s32_in x : -2147483648 <= x < 2147483648 -> s32 x = x.
Proof. intros. unfold s32. change (2^31) with 2147483648. change (2^32) with 4294967296. rewrite Z.mod_small; lia. Qed.

(** ** Headers *)
Definition hdr_byte (level type : Z) (t s r : bool) : Z :=
  level + 8 * type + (if t then 16 else 0) + (if s then 64 else 0) + (if r then 128 else 0).
Definition hdr_facts (level type : Z) (t s r : bool) : bool :=
  let h := hdr_byte level type t s r in
  (hdr_level h =? level) && (hdr_type h =? type) && Bool.eqb (hdr_ts h) t && Bool.eqb (hdr_sent h) s &&
  Bool.eqb (negb (Z.land h (Z.lor READ_MASK SENT_MASK) =? 0)) (s || r) &&
  (Z.lor h READ_MASK =? hdr_byte level type t s true) && (Z.lor h SENT_MASK =? hdr_byte level type t true r) &&
  (log_build_header level type t =? hdr_byte level type t false false) && (0 <=? h) && (h <? 256).
Lemma hdr_facts_all : forallb (fun l => forallb (fun ty => forallb (fun t => forallb (fun s => forallb (hdr_facts l ty t s)
   [true; false]) [true; false]) [true; false]) [0; 1]) [0; 1; 2; 3; 4; 5; 6; 7] = true.
Proof. vm_compute. reflexivity. Qed.
Lemma in_bools b : In b [true; false]. Proof. destruct b; cbn; auto. Qed.
Lemma hdr_facts_ok l ty t s r : 0 <= l < 8 -> 0 <= ty < 2 -> hdr_facts l ty t s r = true.
Proof.
  intros Hl Ht. pose proof hdr_facts_all as H.
  assert (In l [0; 1; 2; 3; 4; 5; 6; 7]) by (cbn; lia). assert (In ty [0; 1]) by (cbn; lia).
  rewrite forallb_forall in H. specialize (H _ H0). rewrite forallb_forall in H. specialize (H _ H1).
  rewrite forallb_forall in H. specialize (H _ (in_bools t)). rewrite forallb_forall in H. specialize (H _ (in_bools s)).
  rewrite forallb_forall in H. exact (H _ (in_bools r)).
Qed.

Definition has_ts (e : slog) : bool := match g_ts e with Some _ => true | None => false end.
Definition hdr_e (e : slog) : Z := hdr_byte (g_level e) (g_type e) (has_ts e) (g_sent e) (g_read e).
Definition payload (e : slog) : list Z := (match g_ts e with Some t => le32 t | None => [] end) ++ g_text e.
Definition ebytes (e : slog) : list Z := hdr_e e :: zlen (payload e) :: payload e.
Definition lenc (l : list slog) : list Z := concat (map ebytes l).

Definition fine (M : Z) (tse : bool) (e : slog) : Prop :=
  0 <= g_level e < 8 /\ 0 <= g_type e < 2 /\ bytes (g_text e) /\ zlen (payload e) <= M /\ M <= 255 /\
  match g_ts e with Some t => is_u32 t /\ tse = true | None => True end.

Lemma fine_hdr M tse e : fine M tse e -> hdr_facts (g_level e) (g_type e) (has_ts e) (g_sent e) (g_read e) = true.
Proof. intros (H1 & H2 & _). now apply hdr_facts_ok. Qed.
Ltac hdrs H := unfold hdr_facts in H; cbn zeta in H; repeat (apply andb_prop in H; let X := fresh "HF" in destruct H as [H X]).

Lemma fine_u8 M tse e : fine M tse e -> is_u8 (hdr_e e).
Proof. intros F. pose proof (fine_hdr _ _ _ F) as H. hdrs H. fold (hdr_e e) in *. unfold is_u8. clear -HF HF0. lia. Qed.

Lemma payload_len e : zlen (payload e) = room e - 2.
Proof. unfold payload, room, ts_room. destruct (g_ts e); rewrite zlen_app; [change (zlen (le32 z)) with 4|change (zlen (@nil Z)) with 0]; lia. Qed.
Lemma ebytes_len e : zlen (ebytes e) = room e.
Proof. unfold ebytes. rewrite !zlen_cons, payload_len. lia. Qed.
Lemma room_pos e : 2 <= room e.
Proof. unfold room, ts_room. pose proof (zlen_nonneg (g_text e)). destruct (g_ts e); lia. Qed.
Lemma rooms_nonneg l : 0 <= rooms l.
Proof. induction l; cbn [rooms]; [lia|]. pose proof (room_pos a). lia. Qed.
Lemma rooms_app a b : rooms (a ++ b) = rooms a + rooms b.
Proof. induction a; cbn [rooms app]; lia. Qed.
Lemma rooms_zlen l : 2 * zlen l <= rooms l.
Proof. induction l; cbn [rooms]; [reflexivity|]. rewrite zlen_cons. pose proof (room_pos a). lia. Qed.
Lemma lenc_len l : zlen (lenc l) = rooms l.
Proof. induction l; cbn [rooms]; [reflexivity|]. unfold lenc in *. cbn [map concat]. rewrite zlen_app, ebytes_len, IHl. lia. Qed.
Lemma lenc_app a b : lenc (a ++ b) = lenc a ++ lenc b.
Proof. unfold lenc. now rewrite map_app, concat_app. Qed.
Lemma lenc_cons e l : lenc (e :: l) = ebytes e ++ lenc l.
Proof. reflexivity. Qed.
Lemma le32_bytes t : bytes (le32 t).
Proof. unfold le32. repeat constructor; unfold is_u8; apply Z.mod_pos_bound; lia. Qed.
Lemma payload_bytes M tse e : fine M tse e -> bytes (payload e).
Proof. intros (_ & _ & H & _). unfold payload. apply bytes_app. split; [|exact H]. destruct (g_ts e); [apply le32_bytes|constructor]. Qed.

Definition cb_is (c : cbuf) (cap : Z) (l : list slog) : Prop := cb_wf c /\ tot c = cap /\ content c = lenc l.
Lemma cb_is_sz c cap l : cb_is c cap l -> sz c = rooms l /\ 0 < cap <= 2147483648 /\ 0 <= rooms l <= cap.
Proof. intros (W & T & C). pose proof (content_len c W) as L. rewrite C, lenc_len in L. destruct W as (W1 & _ & _ & W4 & _). lia. Qed.

Lemma cb_read2' c a d rest off n : cb_wf c -> content c = a ++ d ++ rest -> off = zlen a -> n = zlen d ->
  cb_read c off n = Some (Some d).
Proof.
  intros W C -> ->. pose proof (content_len c W) as L. rewrite C, !zlen_app in L. pose proof W as (H1 & _ & _ & H4 & _).
  pose proof (zlen_nonneg a). pose proof (zlen_nonneg d). pose proof (zlen_nonneg rest).
  rewrite cb_read_ok by (try assumption; lia). replace (_ <=? _) with true by lia.
  rewrite C, drop_app_exact, take_app_exact by reflexivity. reflexivity.
Qed.
Lemma read_hdr c cap pre e post : cb_is c cap (pre ++ e :: post) ->
  cb_read c (rooms pre) 2 = Some (Some [hdr_e e; zlen (payload e)]).
Proof.
  intros (W & T & C). apply (cb_read2' c (lenc pre) [hdr_e e; zlen (payload e)] (payload e ++ lenc post)).
  - exact W.
  - rewrite C, lenc_app, lenc_cons. reflexivity.
  - now rewrite lenc_len.
  - reflexivity.
Qed.
Lemma read_payload c cap pre e post : cb_is c cap (pre ++ e :: post) ->
  cb_read c (rooms pre + 2) (zlen (payload e)) = Some (Some (payload e)).
Proof.
  intros (W & T & C). apply (cb_read2' c (lenc pre ++ [hdr_e e; zlen (payload e)]) (payload e) (lenc post)).
  - exact W.
  - rewrite C, lenc_app, lenc_cons. unfold ebytes. now rewrite <- app_assoc.
  - rewrite zlen_app, lenc_len. reflexivity.
  - reflexivity.
Qed.
Lemma read_end c cap l : cb_is c cap l -> cb_read c (rooms l) 2 = Some None.
Proof. intros H. destruct (cb_is_sz _ _ _ H) as (S & Hc & Hr). rewrite cb_read_ok by (try apply H; lia). now replace (_ <=? _) with false by lia. Qed.

Lemma cb_app c cap l d : cb_wf c -> tot c = cap -> content c = l -> bytes d -> zlen l + zlen d <= cap ->
  exists c', cb_write c d = Some (true, c') /\ cb_wf c' /\ tot c' = cap /\ content c' = l ++ d.
Proof.
  intros W T C B L. pose proof W as (W1 & _). pose proof (zlen_nonneg l). pose proof (zlen_nonneg d). unfold cb_write.
  destruct (cb_write_at_ok c 0 d) as (b & c' & EW & W' & T' & Hb & Hf & Ht); [exact W|exact B|unfold is_u32; lia|unfold is_u32; lia|].
  rewrite C in *. replace b with true in * by lia. exists c'. split; [exact EW|]. split; [exact W'|]. split; [lia|].
  rewrite Ht by reflexivity. rewrite Z.sub_0_r, take_all, drop_all by lia. now rewrite app_nil_r.
Qed.

Lemma update_ok c cap pre e e' post : cb_is c cap (pre ++ e :: post) -> payload e' = payload e -> is_u8 (hdr_e e') -> zlen (payload e) <= 255 ->
  exists c', log_update_entry c (rooms pre) (hdr_e e') (zlen (payload e)) = Some (true, c') /\ cb_is c' cap (pre ++ e' :: post).
Proof.
  intros H P U L. destruct (cb_is_sz _ _ _ H) as (S & Hc & Hr). destruct H as (W & T & C).
  rewrite rooms_app in *. cbn [rooms] in *. pose proof (rooms_nonneg pre). pose proof (room_pos e). pose proof (rooms_nonneg post). pose proof (zlen_nonneg (payload e)).
  unfold log_update_entry, cb_get_read_size. rewrite u32_in by lia.
  destruct (cb_write_at_ok c (sz c - rooms pre) [hdr_e e'; zlen (payload e)]) as (b & c' & EW & W' & T' & Hb & Hf & Ht);
    [exact W|constructor; [exact U|constructor; [unfold is_u8; lia|constructor]]|unfold is_u32; lia|change (zlen [hdr_e e'; zlen (payload e)]) with 2; unfold is_u32; lia|].
  pose proof (content_len c W) as LC. rewrite LC in *. change (zlen [hdr_e e'; zlen (payload e)]) with 2 in *.
  replace b with true in * by lia. exists c'. split; [exact EW|]. split; [exact W'|]. split; [lia|].
  rewrite Ht by reflexivity. replace (sz c - (sz c - rooms pre)) with (rooms pre) by lia.
  rewrite C, !lenc_app, !lenc_cons. rewrite take_app_exact by now rewrite lenc_len.
  rewrite drop_app_ge by (rewrite lenc_len; lia). rewrite lenc_len. replace (rooms pre + 2 - rooms pre) with 2 by lia.
  f_equal. unfold ebytes. rewrite P. cbn [app]. do 2 f_equal.
Qed.

(** ** Iteration *)
Fixpoint giter {A} (g : A -> slog -> bool * slog * A) (a : A) (rest : list slog) : list slog * A * Z :=
  match rest with
  | [] => ([], a, 0)
  | e :: r => let '(go, e', a') := g a e in
              if go then let '(r', a'', n) := giter g a' r in (e' :: r', a'', room e + n) else (e' :: r, a', room e)
  end.
Lemma iterate_ok {A} (f : cbuf -> A -> Z -> Z -> Z -> option (bool * cbuf * A)) (g : A -> slog -> bool * slog * A) M tse cap :
  (forall c a pre e post, cb_is c cap (pre ++ e :: post) -> fine M tse e ->
     exists c', f c a (rooms pre) (hdr_e e) (zlen (payload e)) = (let '(b, e', a') := g a e in Some (b, c', a')) /\
       let '(b, e', a') := g a e in cb_is c' cap (pre ++ e' :: post) /\ room e' = room e) ->
  forall rest pre c a fuel, cb_is c cap (pre ++ rest) -> Forall (fine M tse) rest -> (length rest < fuel)%nat ->
  exists c', log_iterate fuel f c a (rooms pre) = (let '(rest', a', n) := giter g a rest in Some (c', a', rooms pre + n)) /\
    cb_is c' cap (pre ++ fst (fst (giter g a rest))).
Proof.
  intros Hf. induction rest as [|e rest IH]; intros pre c a fuel H F Hfu; (destruct fuel as [|fuel]; [cbn in Hfu; lia|]); cbn [log_iterate giter].
  - rewrite app_nil_r in H. rewrite (read_end _ _ _ H). cbn [bind fst]. rewrite app_nil_r, Z.add_0_r. eauto.
  - rewrite (read_hdr _ _ _ _ _ H). cbn [bind].
    destruct (Hf c a pre e rest H (Forall_inv F)) as (c1 & E1 & H1).
    rewrite E1. destruct (g a e) as [[b e'] a']. destruct H1 as (H1 & R1). cbn [bind].
    destruct (cb_is_sz _ _ _ H) as (S & Hc & Hr). rewrite rooms_app in Hr. cbn [rooms] in Hr.
    pose proof (rooms_nonneg pre). pose proof (rooms_nonneg rest). pose proof (room_pos e).
    rewrite payload_len. replace (rooms pre + (2 + (room e - 2))) with (rooms pre + room e) by lia. rewrite u32_in by lia.
    destruct b.
    + assert (P : cb_is c1 cap ((pre ++ [e']) ++ rest)) by (rewrite <- app_assoc; exact H1).
      assert (RP : rooms (pre ++ [e']) = rooms pre + room e) by (rewrite rooms_app; cbn [rooms]; lia).
      destruct (IH (pre ++ [e']) c1 a' fuel P (Forall_inv_tail F) ltac:(cbn [length] in Hfu; lia)) as (c2 & EI2 & HI2).
      rewrite RP in EI2. rewrite EI2. destruct (giter g a' rest) as [[r' a''] n]. cbn [fst] in *. exists c2. split; [do 2 f_equal; lia|].
      rewrite <- app_assoc in HI2. exact HI2.
    + cbn [fst]. exists c1. split; [reflexivity|exact H1].
Qed.
Lemma giter_id {A} (g : A -> slog -> bool * slog * A) l : (forall a e, snd (fst (g a e)) = e) -> forall a, fst (fst (giter g a l)) = l.
Proof.
  intros H. induction l as [|e l IH]; intros a; cbn [giter]; [reflexivity|].
  specialize (H a e). destruct (g a e) as [[b e'] a']. cbn [fst snd] in H. subst e'.
  destruct b; [|reflexivity]. specialize (IH a'). destruct (giter g a' l) as [[r' a''] n]. cbn [fst] in *. now rewrite IH.
Qed.

(** ** Simulation *)
Record lsim (M : Z) (tse : bool) (cap : Z) (s : lg) (v : slg) : Prop := {
  k_cb : cb_is (lg_cb s) cap (v_logs v);
  k_fine : Forall (fine M tse) (v_logs v);
  k_min : lg_min s = v_min v;
  k_dropped : lg_dropped s = v_dropped v;
  k_u32 : is_u32 (v_dropped v);
  k_recorded : lg_recorded s = v_recorded v;
  k_last : lg_last s = v_last v;
  k_trig : lg_trig s = v_trig v;
  k_num : lg_num s = v_num v;
  k_time : lg_time s = v_time v;
  k_num1 : v_trig v = true -> 1 <= v_num v < 4294967296;
  k_pos : v_sane v = true -> exists a b, v_logs v = a ++ b /\ forallb g_read a = true /\ forallb (fun e => negb (g_read e)) b = true /\ lg_roff s = rooms a }.

Definition lcap (cap : Z) : Prop := 0 < cap < 2147483648.

Lemma wrap_add d a b : wrap32 (wrap32 (d + a) + b) = wrap32 (d + (a + b)).
Proof. unfold wrap32. rewrite Zplus_mod_idemp_l. f_equal. lia. Qed.
Lemma lost_cons e l : lost (e :: l) = (if negb (g_read e) && negb (g_sent e) then 1 else 0) + lost l.
Proof. unfold lost. cbn [filter]. destruct (_ && _); rewrite ?zlen_cons; lia. Qed.
Lemma lost_nil : lost [] = 0. Proof. reflexivity. Qed.
Lemma wrap32_u32 x : is_u32 (wrap32 x).
Proof. unfold is_u32, wrap32. apply Z.mod_pos_bound. lia. Qed.
Lemma wrap32_id x : is_u32 x -> wrap32 x = x.
Proof. intros. unfold wrap32. apply Z.mod_small. exact H. Qed.

Lemma slg_eta v : mk_slg (v_logs v) (v_min v) (v_dropped v) (v_recorded v) (v_last v) (v_trig v) (v_num v) (v_time v) (v_sane v) = v.
Proof. now destruct v. Qed.

Definition evicted (cap need : Z) (v : slg) : slg :=
  let (gone, kept) := evict cap need (v_logs v) in
  mk_slg kept (v_min v) (wrap32 (v_dropped v + lost gone)) (v_recorded v) (v_last v) (v_trig v) (v_num v) (v_time v)
         (v_sane v && forallb (fun e => implb (g_sent e) (g_read e)) gone).

Definition pop (v : slg) (e : slog) (r : list slog) : slg :=
  mk_slg r (v_min v) (if negb (g_read e) && negb (g_sent e) then wrap32 (v_dropped v + 1) else v_dropped v) (v_recorded v) (v_last v)
         (v_trig v) (v_num v) (v_time v) (v_sane v && implb (g_sent e) (g_read e)).

Lemma free_loop_ok M tse cap need : lcap cap -> 0 < need <= cap -> forall logs s v fuel, v_logs v = logs -> lsim M tse cap s v ->
  (length logs < fuel)%nat -> 0 < rooms logs + need - cap ->
  exists s', log_free_loop fuel s (rooms logs + need - cap) (rooms logs) = Some (true, s') /\ lsim M tse cap s' (evicted cap need v).
Proof.
  intros Hcap Hneed. unfold lcap in Hcap. induction logs as [|e r IH]; intros s v fuel L K Hf Hn; [cbn [rooms] in Hn; lia|].
  destruct fuel as [|fuel]; [cbn in Hf; lia|]. cbn [log_free_loop].
  pose proof (room_pos e). pose proof (rooms_nonneg r). cbn [rooms] in *.
  replace (room e + rooms r =? 0) with false by lia.
  pose proof (k_cb _ _ _ _ _ K) as HC. rewrite L in HC. destruct (cb_is_sz _ _ _ HC) as (S & _ & Hr). cbn [rooms] in Hr.
  pose proof (read_hdr (lg_cb s) cap [] e r HC) as RH. cbn [rooms] in RH. rewrite RH. cbn [bind].
  pose proof (k_fine _ _ _ _ _ K) as F. rewrite L in F. pose proof (Forall_inv F) as Fe.
  pose proof (fine_hdr _ _ _ Fe) as HF. hdrs HF. fold (hdr_e e) in *.
  rewrite payload_len. replace (room e - 2 + 2) with (room e) by lia. rewrite (u32_in (room e)) by lia.
  apply eqb_prop in HF5. rewrite HF5.
  (* consume *)
  set (s1 := if g_sent e || g_read e then lset_roff s (u32 (lg_roff s - room e)) else lset_dropped s (u32 (lg_dropped s + 1))).
  assert (ECB : lg_cb s1 = lg_cb s) by (unfold s1; destruct (_ || _); reflexivity). rewrite ECB.
  pose proof HC as (W & T & C).
  pose proof (cb_consume_ok (lg_cb s) (room e) W ltac:(unfold is_u32; lia)) as CE. cbn zeta in CE.
  destruct (cb_consume (lg_cb s) (room e)) as [b c']. cbn [snd]. destruct CE as (W' & T' & Hb & _ & Ht).
  pose proof (content_len _ W) as LC. rewrite LC in Hb. cbn [rooms] in S. replace b with true in Ht by lia. specialize (Ht eq_refl).
  rewrite C, lenc_cons, drop_app_exact in Ht by (now rewrite ebytes_len).
  assert (HC' : cb_is c' cap r) by (split; [exact W'|split; [lia|exact Ht]]).
  set (v1 := pop v e r).
  assert (K1 : lsim M tse cap (lset_cb s1 c') v1).
  { unfold v1, pop, s1. pose proof K as [K1 K2 K3 K4 K5 K6 K7 K8 K9 K10 K11 K12].
    constructor; cbn [v_logs v_min v_dropped v_recorded v_last v_trig v_num v_time v_sane lset_cb lg_cb].
    - exact HC'.
    - exact (Forall_inv_tail F).
    - destruct (_ || _); cbn [lg_min lset_roff lset_dropped]; exact K3.
    - destruct (g_sent e), (g_read e); first [exact K4 | rewrite <- K4; reflexivity].
    - destruct (_ && _); [apply wrap32_u32|exact K5].
    - destruct (_ || _); cbn [lg_recorded lset_roff lset_dropped]; exact K6.
    - destruct (_ || _); cbn [lg_last lset_roff lset_dropped]; exact K7.
    - destruct (_ || _); cbn [lg_trig lset_roff lset_dropped]; exact K8.
    - destruct (_ || _); cbn [lg_num lset_roff lset_dropped]; exact K9.
    - destruct (_ || _); cbn [lg_time lset_roff lset_dropped]; exact K10.
    - exact K11.
    - intros HS. apply andb_prop in HS. destruct HS as [HS HI]. destruct (K12 HS) as (a & b' & EL & FA & FB & RO). rewrite L in EL.
      destruct a as [|e0 a].
      + cbn [app] in EL. subst b'. cbn [forallb] in FB. apply andb_prop in FB. destruct FB as [FB0 FB]. destruct (g_read e); [discriminate|].
        destruct (g_sent e); [discriminate|]. exists [], r. cbn [orb lg_roff lset_dropped rooms forallb app]. repeat split; assumption.
      + cbn [app] in EL. injection EL as <- ->. cbn [forallb] in FA. apply andb_prop in FA. destruct FA as [FA0 FA].
        exists a, b'. repeat split; try assumption. rewrite FA0, orb_true_r. cbn [lg_roff lset_roff]. rewrite RO. cbn [rooms].
        rewrite rooms_app in Hr. pose proof (rooms_nonneg b'). pose proof (rooms_nonneg a).
        clear -Hr H H0 H1 H2 Hcap; cbn [lset_cb lg_roff lset_roff]; rewrite u32_in by lia; lia. }
  rewrite s32_in by lia.
  assert (EV : evicted cap need v = evicted cap need v1).
  { unfold evicted. rewrite L. cbn [evict]. unfold v1, pop; cbn [v_logs v_min v_dropped v_recorded v_last v_trig v_num v_time v_sane]. replace (rooms (e :: r) + need <=? cap) with false by (cbn [rooms]; lia).
    destruct (evict cap need r) as [gone kept]. rewrite lost_cons. cbn [forallb]. rewrite andb_assoc. f_equal.
    destruct (negb (g_read e) && negb (g_sent e)); [now rewrite wrap_add|]. f_equal; lia. }
  destruct (room e + rooms r + need - cap - room e <=? 0) eqn:EE.
  - exists (lset_cb s1 c'). split; [reflexivity|]. rewrite EV. unfold evicted. unfold v1 at 1. cbn [pop v_logs].
    assert (EVR : evict cap need r = ([], r)). { destruct r; cbn [evict]; [reflexivity|]. replace (rooms (s0 :: r) + need <=? cap) with true by lia. reflexivity. }
    rewrite EVR. rewrite lost_nil, Z.add_0_r. cbn [forallb]. rewrite andb_true_r. rewrite wrap32_id by apply K1. change r with (v_logs v1). rewrite slg_eta. exact K1.
  - replace (room e + rooms r + need - cap - room e) with (rooms r + need - cap) by lia.
    unfold cb_get_read_size. cbn [lset_cb lg_cb]. destruct (cb_is_sz _ _ _ HC') as (S' & _). rewrite S'.
    destruct (IH (lset_cb s1 c') v1 fuel eq_refl K1 ltac:(cbn [length] in Hf; lia) ltac:(lia)) as (s' & E' & K').
    exists s'. split; [exact E'|]. rewrite EV. exact K'.
Qed.

Lemma try_free_ok M tse cap need s v : lcap cap -> 0 < need <= 1000 -> lsim M tse cap s v ->
  let bad := (cap <? need) || (v_trig v && (cap <? rooms (v_logs v) + need)) in
  exists s', log_try_free_space s need = Some (negb bad, s') /\ lsim M tse cap s' (if bad then v else evicted cap need v) /\
    (bad = false -> rooms (v_logs (evicted cap need v)) + need <= cap).
Proof.
  intros Hcap Hneed K bad. pose proof (k_cb _ _ _ _ _ K) as HC. destruct (cb_is_sz _ _ _ HC) as (S & _ & Hr). pose proof HC as (_ & T & _).
  unfold lcap in Hcap. unfold log_try_free_space, cb_get_write_size, cb_get_read_size. rewrite S, T. rewrite s32_in by lia.
  destruct (need - (cap - rooms (v_logs v)) <=? 0) eqn:E0.
  - assert (B : bad = false) by (unfold bad; destruct (v_trig v); lia). rewrite B.
    assert (EV : evict cap need (v_logs v) = ([], v_logs v)). { destruct (v_logs v) as [|e0 l0] eqn:EL; cbn [evict]; [reflexivity|]. replace (rooms (e0 :: l0) + need <=? cap) with true by lia. reflexivity. }
    exists s. split; [reflexivity|]. unfold evicted. rewrite EV. cbn [v_logs]. split; [|intros _; lia].
    rewrite lost_nil, Z.add_0_r. cbn [forallb]. rewrite andb_true_r. rewrite wrap32_id by apply K. rewrite slg_eta. exact K.
  - rewrite s32_in by lia. destruct (rooms (v_logs v) <? need - (cap - rooms (v_logs v))) eqn:E1.
    + assert (B : bad = true) by (unfold bad; destruct (v_trig v); lia). rewrite B. exists s. split; [reflexivity|split; [exact K|discriminate]].
    + rewrite (k_trig _ _ _ _ _ K). destruct (v_trig v) eqn:ET.
      * assert (B : bad = true) by (unfold bad; lia). rewrite B. exists s. split; [reflexivity|split; [exact K|discriminate]].
      * assert (B : bad = false) by (unfold bad; lia). rewrite B. cbn [negb].
        replace (need - (cap - rooms (v_logs v))) with (rooms (v_logs v) + need - cap) by lia.
        destruct (free_loop_ok M tse cap need Hcap ltac:(lia) (v_logs v) s v (Datatypes.S (Z.to_nat (rooms (v_logs v)))) eq_refl K) as (s' & E' & K').
        -- pose proof (rooms_zlen (v_logs v)). unfold zlen in *. lia.
        -- lia.
        -- exists s'. split; [exact E'|]. split; [exact K'|]. intros _. unfold evicted.
           assert (G : forall l, rooms (snd (evict cap need l)) + need <= cap).
           { induction l as [|x l IHl]; cbn [evict]; [cbn; lia|]. destruct (rooms (x :: l) + need <=? cap) eqn:EX; [cbn [snd]; lia|].
             destruct (evict cap need l); exact IHl. }
           specialize (G (v_logs v)). destruct (evict cap need (v_logs v)). exact G.
Qed.

Lemma log_save_ok M tse cap s v level type ts text : lcap cap -> 4 <= M <= 255 -> lsim M tse cap s v ->
  log_op_ok tse (LSave level type ts text) ->
  let e := mk_slog level type ts (take (M - ts_room ts) text) false false in
  exists s', log_save M s level type ts text = Some (fst (slg_save cap v e), s') /\ lsim M tse cap s' (snd (slg_save cap v e)).
Proof.
  intros Hcap HM K (HL & HT & HB & HZ & HTS) e. unfold log_save, slg_save. cbn [g_level e].
  rewrite (k_min _ _ _ _ _ K). destruct (level <? v_min v) eqn:EM; [exists s; split; [reflexivity|exact K]|].
  fold (ts_room ts). assert (HR : 0 <= ts_room ts <= 4) by (unfold ts_room; destruct ts; lia).
  rewrite u32_in by lia. pose proof (zlen_nonneg text).
  assert (LT : zlen (g_text e) = Z.min (zlen text) (M - ts_room ts)) by (unfold e; cbn [g_text]; rewrite zlen_take; lia).
  assert (RE : room e = 2 + ts_room ts + Z.min (zlen text) (M - ts_room ts)) by (unfold room; rewrite LT; reflexivity).
  assert (UE : u8 (Z.min (zlen text) (M - ts_room ts) + ts_room ts) = room e - 2) by (unfold u8; change (2^8) with 256; rewrite Z.mod_small; lia).
  fold (ts_room ts). rewrite UE. replace (2 + (room e - 2)) with (room e) by lia.
  destruct (try_free_ok M tse cap (room e) s v Hcap ltac:(lia) K) as (s1 & E1 & K1 & R1). cbn zeta in R1.
  destruct ((cap <? room e) || (v_trig v && (cap <? rooms (v_logs v) + room e))) eqn:EB; cbn [negb] in *; rewrite E1; cbn [bind].
  - eexists. split; [reflexivity|]. cbn [snd]. pose proof K1 as [X1 X2 X3 X4 X5 X6 X7 X8 X9 X10 X11 X12].
    constructor; cbn [lset_dropped lg_cb lg_min lg_roff lg_dropped lg_recorded lg_last lg_trig lg_num lg_time v_logs v_min v_dropped v_recorded v_last v_trig v_num v_time v_sane]; try assumption.
    + now rewrite X4.
    + apply wrap32_u32.
  - specialize (R1 eq_refl). unfold evicted in *. destruct (evict cap (room e) (v_logs v)) as [gone kept]. cbn [v_logs] in R1.
    pose proof K1 as [X1 X2 X3 X4 X5 X6 X7 X8 X9 X10 X11 X12]. cbn [v_logs v_min v_dropped v_recorded v_last v_trig v_num v_time v_sane] in *.
    pose proof X1 as (W & T & C).
    assert (Fe : fine M tse e).
    { unfold fine. rewrite payload_len. cbn [e g_level g_type g_text g_ts]. repeat split; try lia; try assumption. now apply bytes_take. }
    pose proof (fine_hdr _ _ _ Fe) as HF. hdrs HF. fold (hdr_e e) in *.
    assert (HH : log_build_header level type (match ts with Some _ => true | None => false end) = hdr_e e).
    { apply Z.eqb_eq in HF2. exact HF2. }
    assert (HB8 : 0 <= hdr_e e < 256) by (clear -HF0 HF1; lia).
    clear HF HF0 HF1 HF2 HF3 HF4 HF5 HF6 HF7 HF8 EB EM. pose proof (rooms_nonneg kept) as RK. clear K K1.
    rewrite HH. cbn [lset_recorded lg_cb].
    destruct (cb_app (lg_cb s1) cap (lenc kept) [hdr_e e; room e - 2] W T C) as (c1 & EW1 & W1 & T1 & C1).
    { repeat constructor; unfold is_u8; lia. }
    { rewrite lenc_len. change (zlen [hdr_e e; room e - 2]) with 2. lia. }
    rewrite EW1. cbn [bind snd].
    assert (STEP2 : exists c2, (match ts with Some t => cb_write c1 (le32 (u32 t)) | None => Some (true, c1) end) = Some (true, c2) /\ cb_wf c2 /\ tot c2 = cap /\
       content c2 = lenc kept ++ [hdr_e e; room e - 2] ++ match ts with Some t => le32 t | None => [] end).
    { destruct ts as [t|].
      - destruct HTS as [HTS _]. rewrite u32_id by exact HTS.
        destruct (cb_app c1 cap (lenc kept ++ [hdr_e e; room e - 2]) (le32 t) W1 T1 C1) as (c2 & EW2 & W2 & T2 & C2).
        { apply le32_bytes. }
        { rewrite zlen_app, lenc_len. change (zlen [hdr_e e; room e - 2]) with 2. change (zlen (le32 t)) with 4. cbn [ts_room] in *. lia. }
        exists c2. rewrite <- app_assoc in C2. auto.
      - exists c1. rewrite app_nil_r. auto. }
    destruct STEP2 as (c2 & EW2 & W2 & T2 & C2). rewrite EW2. cbn [bind snd].
    assert (ETK : take (Z.min (zlen text) (M - ts_room ts)) text = g_text e).
    { unfold e; cbn [g_text]. destruct (Z.le_gt_cases (zlen text) (M - ts_room ts)); [rewrite !take_all by lia; reflexivity|]. f_equal. lia. }
    rewrite ETK.
    destruct (cb_app c2 cap _ (g_text e) W2 T2 C2) as (c3 & EW3 & W3 & T3 & C3).
    { apply Fe. }
    { rewrite !zlen_app, lenc_len. change (zlen [hdr_e e; room e - 2]) with 2.
      assert (zlen (match ts with Some t => le32 t | None => [] end) = ts_room ts) by (destruct ts; reflexivity). lia. }
    rewrite EW3. cbn [bind snd fst]. eexists. split; [reflexivity|].
    constructor; cbn [lset_cb lset_recorded lg_cb lg_min lg_roff lg_dropped lg_recorded lg_last lg_trig lg_num lg_time v_logs v_min v_dropped v_recorded v_last v_trig v_num v_time v_sane]; try assumption.
    + split; [exact W3|]. split; [exact T3|]. rewrite C3, lenc_app, lenc_cons. unfold ebytes. rewrite payload_len. change (lenc []) with (@nil Z). rewrite app_nil_r.
      unfold payload. cbn [e g_ts]. rewrite <- !app_assoc. reflexivity.
    + apply Forall_app. split; [exact X2|repeat constructor; apply Fe].
    + now rewrite X6.
    + intros HS. destruct (X12 HS) as (a & b & EL & FA & FB & RO). exists a, (b ++ [e]). rewrite EL, app_assoc. repeat split; try assumption.
      rewrite forallb_app, FB. reflexivity.
Qed.

Definition g_readf (a : option rlog) (e : slog) : bool * slog * option rlog := (false, set_read e, Some (as_read e)).
Lemma le32_value t : is_u32 t -> match le32 t with [b0; b1; b2; b3] => b0 + 256 * b1 + 65536 * b2 + 16777216 * b3 | _ => 0 end = t.
Proof.
  intros H. unfold is_u32 in H. unfold le32. 
  replace (t / 65536) with (t / 256 / 256) by (rewrite Z.div_div by lia; reflexivity).
  replace (t / 16777216) with (t / 256 / 256 / 256) by (rewrite !Z.div_div by lia; reflexivity).
  pose proof (Z.div_mod t 256 ltac:(lia)). pose proof (Z.div_mod (t / 256) 256 ltac:(lia)). pose proof (Z.div_mod (t / 256 / 256) 256 ltac:(lia)).
  rewrite (Z.mod_small (t / 256 / 256 / 256)); [lia|]. rewrite !Z.div_div by lia. split; [apply Z.div_pos; lia|apply Z.div_lt_upper_bound; lia].
Qed.

Lemma read_cb_ok M tse cap c a pre e post : lcap cap -> cb_is c cap (pre ++ e :: post) -> fine M tse e ->
  exists c', log_read_cb M tse c a (rooms pre) (hdr_e e) (zlen (payload e)) = (let '(b, e', a') := g_readf a e in Some (b, c', a')) /\
    let '(b, e', a') := g_readf a e in cb_is c' cap (pre ++ e' :: post) /\ room e' = room e.
Proof.
  intros Hcap H F. unfold lcap in Hcap. unfold g_readf. destruct (cb_is_sz _ _ _ H) as (_ & _ & Hr). rewrite rooms_app in Hr. cbn [rooms] in Hr.
  pose proof (rooms_nonneg pre). pose proof (rooms_nonneg post). pose proof (room_pos e).
  pose proof (fine_hdr _ _ _ F) as HF. hdrs HF. fold (hdr_e e) in *.
  assert (F' : fine M tse (set_read e)) by exact F.
  pose proof (fine_hdr _ _ _ F') as HG. hdrs HG. cbn [set_read g_level g_type g_sent g_read has_ts g_ts] in *. change (has_ts (set_read e)) with (has_ts e) in *.
  apply Z.eqb_eq in HF4. change (hdr_byte (g_level e) (g_type e) (has_ts e) (g_sent e) true) with (hdr_e (set_read e)) in *.
  unfold log_read_cb. rewrite HF4.
  pose proof F as (_ & _ & _ & FM & FM2 & FTS). assert (U8 : is_u8 (hdr_e (set_read e))) by (exact (fine_u8 _ _ _ F')).
  assert (P8 : zlen (payload e) <= 255) by (clear -FM FM2; lia).
  destruct (update_ok c cap pre e (set_read e) post H eq_refl U8 P8) as (c' & EU & HU). rewrite EU. cbn [bind negb].
  rewrite u32_in by lia.
  pose proof (read_payload c' cap pre (set_read e) post HU) as RP. change (payload (set_read e)) with (payload e) in RP. rewrite RP. cbn [bind].
  replace (M <? zlen (payload e)) with false by lia.
  assert (E1 : hdr_level (hdr_e (set_read e)) = g_level e) by (apply Z.eqb_eq; exact HG).
  assert (E2 : hdr_type (hdr_e (set_read e)) = g_type e) by (apply Z.eqb_eq; assumption).
  assert (E3 : hdr_ts (hdr_e (set_read e)) = has_ts e) by (apply eqb_prop; assumption).
  rewrite E1, E2, E3. exists c'. split; [|split; [exact HU|reflexivity]].
  unfold as_read, has_ts, payload. destruct (g_ts e) as [t|].
  - destruct FTS as [Ht ->]. rewrite zlen_app. change (zlen (le32 t)) with 4. pose proof (zlen_nonneg (g_text e)). replace (4 <=? 4 + zlen (g_text e)) with true by lia.
    cbn [andb]. rewrite take_app_exact by reflexivity. rewrite drop_app_exact by reflexivity. rewrite le32_value by exact Ht. reflexivity.
  - rewrite andb_false_r. reflexivity.
Qed.

Lemma first_unread_app a b : forallb g_read a = true -> first_unread (a ++ b) =
  match first_unread b with Some (x, b') => Some (x, a ++ b') | None => None end.
Proof.
  induction a as [|e a IH]; cbn [forallb app first_unread]; intros H.
  - destruct (first_unread b) as [[x b']|]; reflexivity.
  - apply andb_prop in H. destruct H as [He Ha]. rewrite He, IH by exact Ha. destruct (first_unread b) as [[x b']|]; reflexivity.
Qed.
Lemma iter_fuel_ok c cap l : cb_is c cap l -> (length l < log_iter_fuel c)%nat.
Proof. intros H. destruct (cb_is_sz _ _ _ H) as (S & _). unfold log_iter_fuel, cb_get_read_size. rewrite S. pose proof (rooms_zlen l). unfold zlen in *. lia. Qed.

Lemma notice_eq M d : is_u32 d -> log_notice M d = notice M d.
Proof.
  intros H. unfold is_u32 in H. unfold log_notice, notice, print_int, s32. change (2^31) with 2147483648. change (2^32) with 4294967296.
  destruct (d <? 2147483648) eqn:E.
  - rewrite Z.mod_small by lia. replace (d + 2147483648 - 2147483648) with d by lia. reflexivity.
  - replace ((d + 2147483648) mod 4294967296) with (d - 2147483648).
    + replace (d - 2147483648 - 2147483648) with (d - 4294967296) by lia. reflexivity.
    + apply (Z.mod_unique _ _ 1); lia.
Qed.

Definition last_read (v : slg) (logs : list slog) : slg :=
  mk_slg logs (v_min v) (v_dropped v) (v_recorded v) (v_dropped v) (v_trig v) (v_num v) (v_time v) (v_sane v).
Lemma log_read_ok M tse cap s v r v' : lcap cap -> lsim M tse cap s v -> slg_step M cap v LRead = Some (r, v') ->
  exists s', log_step M tse s LRead = Some (r, s') /\ lsim M tse cap s' v'.
Proof.
  intros Hcap K HS. cbn [log_step slg_step] in *. unfold log_read.
  pose proof K as [K1 K2 K3 K4 K5 K6 K7 K8 K9 K10 K11 K12]. rewrite K7, K4.
  destruct (negb (v_last v =? v_dropped v) && (0 <? v_dropped v)) eqn:EN.
  - injection HS as <- <-. apply andb_prop in EN. destruct EN as [EN1 EN2]. rewrite EN1. cbn [lset_last lg_last lg_dropped]. rewrite EN2. cbn [bind].
    eexists. split; [rewrite K4, notice_eq by exact K5; reflexivity|].
    constructor; cbn [lset_last lg_cb lg_min lg_roff lg_dropped lg_recorded lg_last lg_trig lg_num lg_time v_logs v_min v_dropped v_recorded v_last v_trig v_num v_time v_sane]; try assumption; reflexivity.
  - set (iter := fun s0 : lg => do x <- log_iterate (log_iter_fuel (lg_cb s0)) (log_read_cb M tse) (lg_cb s0) None (lg_roff s0);
         let '(c, r0, off) := x in Some (r0, lset_roff (lset_cb s0 c) off)).
    assert (IT : forall s0, lsim M tse cap s0 (last_read v (v_logs v)) -> exists s', (do x <- iter s0; let (r0, s1) := x in Some (RLog r0, s1)) = Some (r, s') /\ lsim M tse cap s' v').
    { intros s0 K0. destruct (v_sane v) eqn:ES; [|discriminate]. clear K1 K2 K3 K4 K5 K6 K7 K8 K9 K10 K11 K12.
      pose proof K0 as [K1 K2 K3 K4 K5 K6 K7 K8 K9 K10 K11 K12]. cbn [last_read v_logs v_min v_dropped v_recorded v_last v_trig v_num v_time v_sane] in *.
      destruct (K12 ES) as (a & b & EL & FA & FB & RO). rewrite EL in *.
      rewrite first_unread_app in HS by exact FA.
      pose proof (proj2 (proj1 (Forall_app _ _ _) K2)) as Fb.
      destruct (iterate_ok (log_read_cb M tse) g_readf M tse cap
                  (fun c a0 pre e post H F => read_cb_ok M tse cap c a0 pre e post Hcap H F) b a (lg_cb s0) None (log_iter_fuel (lg_cb s0)) K1 Fb) as (c' & EI & HI).
      { pose proof (iter_fuel_ok _ _ _ K1) as X. rewrite app_length in X. lia. }
      unfold iter. rewrite RO, EI. destruct b as [|e b]; cbn [giter g_readf] in *.
      - cbn [first_unread] in HS. injection HS as <- <-. cbn [bind]. eexists. split; [reflexivity|].
        cbn [fst] in HI. constructor; cbn [lset_roff lset_cb lg_cb lg_min lg_roff lg_dropped lg_recorded lg_last lg_trig lg_num lg_time v_logs v_min v_dropped v_recorded v_last v_trig v_num v_time v_sane]; rewrite ?EL; try assumption.
        intros _. exists a, []. rewrite Z.add_0_r. auto.
      - cbn [first_unread] in HS. cbn [forallb] in FB. apply andb_prop in FB. destruct FB as [FB0 FB]. destruct (g_read e) eqn:ER; [discriminate|].
        injection HS as <- <-. cbn [bind fst] in *. eexists. split; [reflexivity|].
        constructor; cbn [lset_roff lset_cb lg_cb lg_min lg_roff lg_dropped lg_recorded lg_last lg_trig lg_num lg_time v_logs v_min v_dropped v_recorded v_last v_trig v_num v_time v_sane]; try assumption.
        + apply Forall_app in K2. destruct K2 as [Ka Kb]. apply Forall_app. split; [exact Ka|]. constructor; [exact (Forall_inv Kb)|exact (Forall_inv_tail Kb)].
        + intros _. exists (a ++ [set_read e]), b. rewrite <- app_assoc. split; [reflexivity|]. split; [rewrite forallb_app, FA; reflexivity|]. split; [exact FB|].
          rewrite rooms_app. cbn [rooms]. change (room (set_read e)) with (room e). lia. }
    destruct (negb (v_last v =? v_dropped v)) eqn:EN1; cbn [andb] in EN.
    + cbn [lset_last lg_last lg_dropped]. rewrite EN. apply IT.
      constructor; cbn [lset_last last_read lg_cb lg_min lg_roff lg_dropped lg_recorded lg_last lg_trig lg_num lg_time v_logs v_min v_dropped v_recorded v_last v_trig v_num v_time v_sane]; try assumption. reflexivity.
    + apply IT. assert (v_last v = v_dropped v) by lia.
      constructor; cbn [lset_last last_read lg_cb lg_min lg_roff lg_dropped lg_recorded lg_last lg_trig lg_num lg_time v_logs v_min v_dropped v_recorded v_last v_trig v_num v_time v_sane]; try assumption. congruence.
Qed.

Definition g_countf (a : Z) (e : slog) : bool * slog * Z := (true, e, if g_sent e then a else u32 (a + 1)).
Lemma count_giter l : forall a, 0 <= a -> a + zlen l < 4294967296 -> snd (fst (giter g_countf a l)) = a + unsent l.
Proof.
  induction l as [|e l IH]; intros a Ha Hl; cbn [giter g_countf]; [change (unsent []) with 0; cbn [fst snd]; lia|]. rewrite zlen_cons in Hl. pose proof (zlen_nonneg l).
  unfold unsent in *. cbn [filter]. destruct (g_sent e); cbn [negb].
  - specialize (IH a Ha ltac:(lia)). destruct (giter g_countf a l) as [[r' a'] n]. exact IH.
  - rewrite u32_in by lia. specialize (IH (a + 1) ltac:(lia) ltac:(lia)). destruct (giter g_countf (a + 1) l) as [[r' a'] n]. cbn [fst snd] in *. rewrite zlen_cons. lia.
Qed.
Lemma count_ok M tse cap s v : lcap cap -> lsim M tse cap s v -> log_count_unsent s = Some (unsent (v_logs v)).
Proof.
  intros Hcap K. unfold lcap in Hcap. unfold log_count_unsent.
  destruct (iterate_ok log_count_cb g_countf M tse cap) with (rest := v_logs v) (pre := @nil slog) (c := lg_cb s) (a := 0) (fuel := log_iter_fuel (lg_cb s)) as (c' & EI & _).
  - intros c a pre e post H F. unfold log_count_cb, g_countf. pose proof (fine_hdr _ _ _ F) as HF. hdrs HF. fold (hdr_e e) in *.
    apply eqb_prop in HF6. rewrite HF6. exists c. split; [reflexivity|]. split; [exact H|reflexivity].
  - apply K. - apply K. - eapply iter_fuel_ok. apply K.
  - cbn [rooms] in EI. rewrite EI. pose proof (count_giter (v_logs v) 0 ltac:(lia)) as CG.
    destruct (cb_is_sz _ _ _ (k_cb _ _ _ _ _ K)) as (_ & _ & Hr). pose proof (rooms_zlen (v_logs v)). specialize (CG ltac:(lia)).
    destruct (giter g_countf 0 (v_logs v)) as [[r' a'] n]. cbn [fst snd bind] in *. now rewrite CG.
Qed.

Definition g_markf (num : Z) (a : Z) (e : slog) : bool * slog * Z :=
  if g_sent e then (true, e, a) else (negb (u32 (a + 1) =? num), set_sent e, u32 (a + 1)).
Lemma mark_giter num l : forall a, 0 <= a < num -> num < 4294967296 -> fst (fst (giter (g_markf num) a l)) = mark_sent (num - a) l.
Proof.
  induction l as [|e l IH]; intros a Ha Hn; cbn [giter mark_sent]; [reflexivity|]. unfold g_markf at 1.
  destruct (g_sent e).
  - specialize (IH a Ha Hn). destruct (giter (g_markf num) a l) as [[r' a'] n]. cbn [fst] in *. now rewrite IH.
  - rewrite u32_in by lia. replace (num - a <=? 0) with false by lia. destruct (a + 1 =? num) eqn:E; cbn [negb].
    + cbn [fst]. f_equal. replace (num - a - 1) with 0 by lia. clear. induction l as [|e l IH]; cbn [mark_sent]; [reflexivity|].
      destruct (g_sent e); [f_equal; exact IH|reflexivity].
    + specialize (IH (a + 1) ltac:(lia) Hn). destruct (giter (g_markf num) (a + 1) l) as [[r' a'] n]. cbn [fst] in *. rewrite IH. do 2 f_equal. lia.
Qed.
Lemma mark_sent_fine M tse l : forall n, Forall (fine M tse) l -> Forall (fine M tse) (mark_sent n l).
Proof.
  induction l as [|e l IH]; intros n F; cbn [mark_sent]; [constructor|]. pose proof (Forall_inv F). pose proof (Forall_inv_tail F).
  destruct (g_sent e); [constructor; auto|]. destruct (n <=? 0); constructor; auto.
Qed.
Lemma mark_sent_app n a b : exists n', mark_sent n (a ++ b) = mark_sent n a ++ mark_sent n' b.
Proof.
  revert n. induction a as [|e a IH]; intros n; cbn [mark_sent app]; [now exists n|].
  destruct (g_sent e).
  - destruct (IH n) as (n' & E). exists n'. now rewrite E.
  - destruct (n <=? 0) eqn:EN.
    + exists 0. cbn [app]. do 2 f_equal. clear. induction b as [|e b IH]; cbn [mark_sent]; [reflexivity|]. destruct (g_sent e); [f_equal; exact IH|reflexivity].
    + destruct (IH (n - 1)) as (n' & E). exists n'. now rewrite E.
Qed.
Lemma mark_sent_same l : forall n (p : slog -> bool), (forall e, p (set_sent e) = p e) -> forallb p (mark_sent n l) = forallb p l.
Proof.
  induction l as [|e l IH]; intros n p Hp; cbn [mark_sent forallb]; [reflexivity|].
  destruct (g_sent e); [cbn [forallb]; now rewrite IH|]. destruct (n <=? 0); cbn [forallb]; [reflexivity|]. now rewrite IH, Hp.
Qed.
Lemma mark_sent_rooms l : forall n, rooms (mark_sent n l) = rooms l.
Proof.
  induction l as [|e l IH]; intros n; cbn [mark_sent rooms]; [reflexivity|].
  destruct (g_sent e); [cbn [rooms]; now rewrite IH|]. destruct (n <=? 0); cbn [rooms]; [reflexivity|]. rewrite IH. reflexivity.
Qed.

Lemma log_step_ok M tse cap s v o r v' : lcap cap -> 4 <= M <= 255 -> lsim M tse cap s v -> log_op_ok tse o ->
  slg_step M cap v o = Some (r, v') -> exists s', log_step M tse s o = Some (r, s') /\ lsim M tse cap s' v'.
Proof.
  intros Hcap HM K HO HS. destruct o as [level type ts text| |time| | |l| |].
  - cbn [slg_step log_step] in *. destruct (log_save_ok M tse cap s v level type ts text Hcap HM K HO) as (s' & E & K').
    rewrite E. destruct (slg_save _ _ _) as [b v1]. injection HS as <- <-. cbn [bind fst snd] in *. exists s'. split; [reflexivity|exact K'].
  - eapply log_read_ok; eassumption.
  - cbn [slg_step log_step] in *. unfold log_trigger. rewrite (k_trig _ _ _ _ _ K). destruct (v_trig v) eqn:ET; cbn [orb] in HS.
    + injection HS as <- <-. exists s. split; [reflexivity|exact K].
    + rewrite (count_ok _ _ _ _ _ Hcap K). cbn [bind]. destruct (unsent (v_logs v) =? 0) eqn:EU; injection HS as <- <-.
      * exists s. split; [reflexivity|exact K].
      * eexists. split; [reflexivity|]. pose proof K as [K1 K2 K3 K4 K5 K6 K7 K8 K9 K10 K11 K12].
        constructor; cbn [lset_trig lg_cb lg_min lg_roff lg_dropped lg_recorded lg_last lg_trig lg_num lg_time v_logs v_min v_dropped v_recorded v_last v_trig v_num v_time v_sane]; try assumption; try reflexivity.
        intros _. unfold lcap in Hcap. destruct (cb_is_sz _ _ _ K1) as (_ & _ & Hr). pose proof (rooms_zlen (v_logs v)).
        assert (0 <= unsent (v_logs v) <= zlen (v_logs v)).
        { unfold unsent. split; [apply zlen_nonneg|]. clear. induction (v_logs v); cbn [filter]; [lia|]. destruct (negb _); rewrite ?zlen_cons; lia. }
        lia.
  - cbn [slg_step log_step] in *. destruct (v_trig v) eqn:ET; [|discriminate]. injection HS as <- <-. unfold log_mark_sent.
    pose proof K as [K1 K2 K3 K4 K5 K6 K7 K8 K9 K10 K11 K12]. specialize (K11 ET). rewrite K9.
    destruct (iterate_ok (log_mark_cb (v_num v)) (g_markf (v_num v)) M tse cap) with (rest := v_logs v) (pre := @nil slog) (c := lg_cb s) (a := 0) (fuel := log_iter_fuel (lg_cb s)) as (c' & EI & HI).
    + intros c a pre e post H F. unfold log_mark_cb, g_markf. pose proof (fine_hdr _ _ _ F) as HF. hdrs HF. fold (hdr_e e) in *.
      apply eqb_prop in HF6. rewrite HF6. destruct (g_sent e) eqn:EG; [exists c; split; [reflexivity|split; [exact H|reflexivity]]|].
      assert (F' : fine M tse (set_sent e)) by exact F. pose proof (fine_hdr _ _ _ F') as HG. hdrs HG. fold (hdr_e (set_sent e)) in *.
      apply Z.eqb_eq in HF3. change (hdr_byte (g_level e) (g_type e) (has_ts e) true (g_read e)) with (hdr_e (set_sent e)) in HF3. rewrite HF3.
      pose proof F as (_ & _ & _ & FM & FM2 & _). assert (U8 : is_u8 (hdr_e (set_sent e))) by (exact (fine_u8 _ _ _ F')).
      assert (P8 : zlen (payload e) <= 255) by (clear -FM FM2; lia).
      destruct (update_ok c cap pre e (set_sent e) post H eq_refl U8 P8) as (c' & EU & HU). rewrite EU. cbn [bind snd].
      exists c'. split; [reflexivity|]. split; [exact HU|reflexivity].
    + exact K1. + exact K2. + eapply iter_fuel_ok. exact K1.
    + cbn [rooms app] in *. rewrite EI. rewrite mark_giter in HI by lia. rewrite Z.sub_0_r in HI.
      destruct (giter (g_markf (v_num v)) 0 (v_logs v)) as [[r' a'] n]. cbn [bind]. eexists. split; [reflexivity|].
      constructor; cbn [lset_trig lset_cb lg_cb lg_min lg_roff lg_dropped lg_recorded lg_last lg_trig lg_num lg_time v_logs v_min v_dropped v_recorded v_last v_trig v_num v_time v_sane]; try assumption; try reflexivity.
      * now apply mark_sent_fine.
      * discriminate.
      * intros HSn. destruct (K12 HSn) as (a & b & EL & FA & FB & RO). rewrite EL. destruct (mark_sent_app (v_num v) a b) as (n' & EA).
        exists (mark_sent (v_num v) a), (mark_sent n' b). split; [exact EA|]. rewrite !mark_sent_same by reflexivity. rewrite mark_sent_rooms. auto.
  - cbn [slg_step log_step] in *. injection HS as <- <-. rewrite (count_ok _ _ _ _ _ Hcap K). exists s. split; [reflexivity|exact K].
  - cbn [slg_step log_step] in *. injection HS as <- <-. eexists. split; [reflexivity|]. pose proof K as [K1 K2 K3 K4 K5 K6 K7 K8 K9 K10 K11 K12].
    constructor; cbn [lset_min lg_cb lg_min lg_roff lg_dropped lg_recorded lg_last lg_trig lg_num lg_time v_logs v_min v_dropped v_recorded v_last v_trig v_num v_time v_sane]; try assumption; reflexivity.
  - cbn [slg_step log_step] in *. injection HS as <- <-. exists s. split; [now rewrite (k_dropped _ _ _ _ _ K)|exact K].
  - cbn [slg_step log_step] in *. injection HS as <- <-. exists s. split; [now rewrite (k_recorded _ _ _ _ _ K)|exact K].
Qed.

Lemma log_run_ok M tse cap ops : lcap cap -> 4 <= M <= 255 -> forall s v rs v', lsim M tse cap s v -> Forall (log_op_ok tse) ops ->
  slg_run M cap v ops = Some (rs, v') -> exists s', log_run M tse s ops = Some (rs, s') /\ lsim M tse cap s' v'.
Proof.
  intros Hcap HM. induction ops as [|o ops IH]; intros s v rs v' K F H; cbn [slg_run log_run] in *.
  - injection H as <- <-. exists s. auto.
  - apply bind_inv in H. destruct H as ((r & v1) & E & H). apply bind_inv in H. destruct H as ((rs1 & v2) & E2 & H). injection H as <- <-.
    destruct (log_step_ok _ _ _ _ _ _ _ _ Hcap HM K (Forall_inv F) E) as (s1 & E1 & K1). rewrite E1. cbn [bind].
    destruct (IH _ _ _ _ K1 (Forall_inv_tail F) E2) as (s2 & E3 & K2). rewrite E3. cbn [bind]. eauto.
Qed.
Lemma log_boot_ok M tse storage min : lcap (zlen storage) ->
  exists s, log_boot storage (zlen storage) min = Some (Some s) /\ lsim M tse (zlen storage) s (slg_init min).
Proof.
  intros H. unfold lcap in H. destruct (cb_init_ok storage (zlen storage)) as (c & E & W & T & C); [unfold is_u8; lia|lia|reflexivity|].
  unfold log_boot. rewrite E. cbn [bind]. eexists. split; [reflexivity|].
  constructor; cbn [slg_init lg_cb lg_min lg_roff lg_dropped lg_recorded lg_last lg_trig lg_num lg_time v_logs v_min v_dropped v_recorded v_last v_trig v_num v_time v_sane]; try reflexivity.
  - repeat split; try assumption; apply W.
  - constructor.
  - unfold is_u32; lia.
  - discriminate.
  - intros _. exists [], []. repeat split.
Qed.
