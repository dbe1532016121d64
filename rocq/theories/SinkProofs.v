(** What a port that fetches whole chunks from the packetizer gets: lemmas about one call of
    memfault_packetizer_get_chunk and one of memfault_packetizer_data_available. *)
From Verif Require Import Base Crc16Spec ChunkSpec Packetizer PacketizerSpec PacketizerProofs Uplink UplinkSpec UplinkProofs.

Section Sink.
Context {W A O Re : Type}.
Variables (so : sources W) (cfg : up_cfg) (app : W -> O -> option (Re * W)) (dev : device A O Re) (rel : option (src * Z) -> W -> A -> Prop).
Hypothesis K : keeps_contract so cfg app dev rel.
Notation uinv := (uinv cfg dev rel).

Definition pending (a : A) (mask : Z) (fl : option flight) : Prop := fl <> None \/ exists s, enabled mask s = true /\ offer dev s a <> None.

Lemma nothing_none a mask : nothing_to_send (view dev a) mask -> forall s, enabled mask s = true -> offer dev s a = None.
Proof. intros N s E. destruct (N s) as [X|X]; [congruence|]. rewrite view_q in X. destruct (offer dev s a); [discriminate|reflexivity]. Qed.

Lemma sink_chunk w a st fl c buf : uinv w a st fl -> fl_single fl -> at_cloud c fl -> zlen buf < 4294967296 ->
  exists b out cs st' w' fl' t got c', up_get_chunk so cfg w st buf = Some (b, out, st', w', cs) /\
    uinv w' (effects dev a cs) st' fl' /\ deeds dev a t (effects dev a cs) /\ app_deeds t = [] /\ pk_mask st' = pk_mask st /\
    cloud c (if b then [out] else []) = (c', got) /\ received cfg got (sent t) /\ fl_single fl' /\ at_cloud c' fl' /\
    if b then 0 < zlen out <= zlen buf else out = [] /\ (9 <= zlen buf -> ~ pending a (pk_mask st) fl /\ fl' = None /\ forall s, enabled (pk_mask st) s = true -> offer dev s (effects dev a cs) = None).
Proof.
  intros U Fs Ac Hb.
  destruct (call_up so cfg app dev rel K w a st fl (PChunk buf) U Hb) as (res & st' & w' & cs & q & fl' & E & S & U').
  destruct (call_sent so cfg app dev rel K _ _ _ _ _ _ _ _ _ _ c _ (Hb : by_chunk (fine dev) (UCall (PChunk buf))) Fs Ac S U') as (t & got & c' & D & Y & C & R & F' & A').
  cbn [up_call] in E. apply bind_inv in E as ([[[[b out] st1] w1] cs1] & E & X). injection X as X1 X2 X3 X4. subst st1 w1 cs1.
  exists b, out, cs, st', w', fl', t, got, c'. split; [exact E|]. split; [exact U'|]. split; [exact D|]. split; [exact Y|].
  assert (M : pk_mask st' = pk_mask st /\ (if b then 0 < zlen out <= zlen buf else out = [] /\ (9 <= zlen buf -> ~ pending a (pk_mask st) fl /\ fl' = None /\ forall s, enabled (pk_mask st) s = true -> offer dev s (effects dev a cs) = None))).
  { remember (pk_mask st) as mask. remember (pk_mask st') as mask'. clear E D C R A' U U' Ac. subst res. inv S.
    - match goal with X : s_begin _ _ _ _ _ _ _ _ |- _ => inv X end. split; [reflexivity|]. split; [reflexivity|]. intros _.
      match goal with X : nothing_to_send _ _ |- _ => pose proof (nothing_none _ _ X) as N end. split; [|split; [reflexivity|]].
      + intros [P|(s & P & Q)]; [congruence|]. apply Q, N, P.
      + intros s Hs. erewrite (queries_offer so cfg app dev rel K) by eassumption. now apply N.
    - match goal with X : s_begin _ _ _ _ _ _ _ ?x, Y : s_next _ _ ?x _ _ _ _ |- _ => destruct x as [q1 m1 f1]; rename X into Xb; rename Y into Xn end.
      assert (F1 : m1 = pk_mask st /\ match f1 with Some f => f_multi f = false | None => False end).
      { inv Xb; [split; reflexivity|split; [reflexivity|exact Fs]]. }
      destruct F1 as [-> F1]. destruct f1 as [f1|]; [|contradiction].
      inv Xn; [split; [reflexivity|]; split; [reflexivity|lia]| |].
      + cbn [f_multi] in F1. rewrite F1. split; [reflexivity|assumption].
      + split; [reflexivity|assumption]. }
  destruct M as [M1 M2]. split; [exact M1|]. split.
  { rewrite <- C, <- X1. destruct b; cbn [piece_of]; [|destruct M2 as [-> _]; reflexivity]. destruct out; [change (zlen (@nil Z)) with 0 in M2; lia|reflexivity]. }
  split; [exact R|]. split; [exact F'|]. split; [exact A'|exact M2].
Qed.

Lemma sink_avail w a st fl : uinv w a st fl ->
  exists b w' cs t, up_avail so cfg w st = Some (b, w', cs) /\ uinv w' (effects dev a cs) st fl /\
    deeds dev a t (effects dev a cs) /\ app_deeds t = [] /\ sent t = [] /\
    if b then pending (effects dev a cs) (pk_mask st) fl else fl = None /\ forall s, enabled (pk_mask st) s = true -> offer dev s (effects dev a cs) = None.
Proof.
  intros U. destruct (call_up so cfg app dev rel K w a st fl PAvail U I) as (res & st' & w' & cs & q & fl' & E & S & U').
  cbn [up_call] in E. apply bind_inv in E as ([[b w1] cs1] & E & X). injection X as X1 X2 X3 X4. subst st' w1 cs1 res.
  remember (pk_mask st) as mask. inv S.
  - match goal with X : queries_only _ _ |- _ => rename X into Q end. destruct (queries_deeds dev _ _ a Q) as (t & D & T1 & T2).
    exists true, w', cs, t. split; [exact E|]. split; [exact U'|]. split; [exact D|]. split; [exact T2|]. split; [exact T1|].
    match goal with X : _ \/ exists s, next_source _ _ s |- _ => destruct X as [Y|(s & Xe & Xq & _)] end; [left; exact Y|]. right. exists s.
    split; [exact Xe|]. erewrite (queries_offer so cfg app dev rel K) by eassumption. rewrite view_q in Xq. destruct (offer dev s a); [discriminate|contradiction].
  - match goal with X : queries_only _ _ |- _ => rename X into Q end. destruct (queries_deeds dev _ _ a Q) as (t & D & T1 & T2).
    exists false, w', cs, t. split; [exact E|]. split; [exact U'|]. split; [exact D|]. split; [exact T2|]. split; [exact T1|]. split; [reflexivity|].
    intros s Hs. erewrite (queries_offer so cfg app dev rel K) by eassumption.
    match goal with X : nothing_to_send _ _ |- _ => exact (nothing_none _ _ X s Hs) end.
Qed.

Lemma received_app g1 m1 g2 m2 : received cfg g1 m1 -> received cfg g2 m2 -> received cfg (g1 ++ g2) (m1 ++ m2).
Proof. apply Forall2_app. Qed.
Lemma cloud_app a : forall c b c1 g1 c2 g2, cloud c a = (c1, g1) -> cloud c1 b = (c2, g2) -> cloud c (a ++ b) = (c2, g1 ++ g2).
Proof.
  induction a as [|x a IH]; intros c b c1 g1 c2 g2 H1 H2; cbn [cloud Datatypes.app] in *.
  - injection H1 as <- <-. exact H2.
  - destruct (cloud_step c x) as [c0 g0]. destruct (cloud c0 a) as [c3 g3] eqn:E. injection H1 as <- <-. rewrite (IH _ _ _ _ _ _ E H2). now rewrite app_assoc.
Qed.
Lemma sent_app (a b : list (@deed O Re)) : sent (a ++ b) = sent a ++ sent b. Proof. apply flat_map_app. Qed.
Lemma app_deeds_app (a b : list (@deed O Re)) : app_deeds (a ++ b) = app_deeds a ++ app_deeds b. Proof. apply flat_map_app. Qed.
End Sink.
