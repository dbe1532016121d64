From Verif Require Import Base PortUpload PortUploadSpec.

Lemma first_range interval rand : 1 <= interval < 2 ^ 31 -> 0 <= rand ->
  exists f, first_secs interval rand = Some f /\ (if 60 <=? interval then 60 else 5) <= f < (if 60 <=? interval then 60 else 5) + interval.
Proof.
  intros H R. change (2 ^ 31) with 2147483648 in H. unfold first_secs. destruct (Z.eqb_spec interval 0); [lia|]. eexists. split; [reflexivity|]. pose proof (Z.mod_pos_bound rand interval ltac:(lia)).
  unfold u32. rewrite Z.mod_small; destruct (60 <=? interval); lia.
Qed.

Section Zephyr.
Variable dur : nat -> Z.
Hypothesis D : forall n, 0 <= dur n.

Fixpoint rising (from : Z) (ts : list Z) : Prop :=
  match ts with [] => True | t :: r => from <= t /\ rising t r end.

Lemma run_order ts : forall n fin pend, one_by_one fin (z_run dur n fin pend ts).
Proof.
  induction ts as [|t r IH]; intros n fin pend; cbn [z_run].
  - destruct pend; cbn [one_by_one]; [pose proof (D n); lia|exact Logic.I].
  - pose proof (D n). pose proof (D (S n)). destruct pend.
    + destruct (Z.leb_spec fin t); [|apply IH]. cbn [one_by_one]. split; [lia|].
      destruct (Z.leb_spec (fin + dur n) t); [|apply IH]. cbn [one_by_one]. split; [lia|apply IH].
    + destruct (Z.leb_spec fin t); [|apply IH]. cbn [one_by_one]. split; [lia|apply IH].
Qed.
Lemma run_count ts : forall n fin pend, (length (z_run dur n fin pend ts) <= length ts + if pend then 1 else 0)%nat.
Proof.
  induction ts as [|t r IH]; intros n fin pend; cbn [z_run]; [destruct pend; cbn; lia|].
  pose proof (fun n fin => IH n fin true : (length (z_run dur n fin true r) <= length r + 1)%nat) as IT.
  pose proof (fun n fin => IH n fin false : (length (z_run dur n fin false r) <= length r + 0)%nat) as IF.
  destruct pend.
  - destruct (fin <=? t); [|specialize (IT n fin); cbn [length]; lia]. cbn [length].
    destruct (fin + dur n <=? t); [specialize (IF (S (S n)) (t + dur (S n))); cbn [length]; lia|].
    specialize (IT (S n) (fin + dur n)); lia.
  - destruct (fin <=? t); [|specialize (IT n fin); cbn [length]; lia]. specialize (IF (S n) (t + dur n)). cbn [length]. lia.
Qed.

(** A queued item begins as the running one ends. *)
Lemma run_pending ts : forall n fin, exists r, z_run dur n fin true ts = (fin, fin + dur n) :: r.
Proof.
  induction ts as [|t r IH]; intros n fin; cbn [z_run]; [eexists; reflexivity|].
  destruct (fin <=? t); [eexists; reflexivity|apply IH].
Qed.

(** [b]: when the check that ends at [fin] began. *)
Definition served (b fin : Z) (l : list (Z * Z)) (t s : Z) : Prop := s = t \/ exists b', In (b', s) ((b, fin) :: l) /\ b' <= t < s.
Lemma served_more b fin p l t s : served (fst p) (snd p) l t s -> served b fin (p :: l) t s.
Proof. intros [H|(b' & H & X)]; [now left|]. right. exists b'. split; [|exact X]. right. destruct p. exact H. Qed.

Lemma run_serves ts : forall n b fin pend now, rising now ts -> b <= now ->
  forall t, In t ts -> exists s e, In (s, e) (z_run dur n fin pend ts) /\ served b fin (z_run dur n fin pend ts) t s.
Proof.
  induction ts as [|t0 r IH]; intros n b fin pend now Hr Hb t Ht; [destruct Ht|]. cbn [rising] in Hr. destruct Hr as [R1 R2].
  assert (Late : fin > t0 -> In t (t0 :: r) -> exists s e, In (s, e) (z_run dur n fin true r) /\ served b fin (z_run dur n fin true r) t s).
  { intros L [<-|T].
    - destruct (run_pending r n fin) as (x & E). exists fin, (fin + dur n). rewrite E. split; [now left|]. right. exists b. split; [now left|lia].
    - apply (IH n b fin true t0 R2 ltac:(lia) t T). }
  cbn [z_run]. destruct pend.
  - destruct (Z.leb_spec fin t0) as [L|L]; [|apply Late; [lia|exact Ht]].
    destruct (Z.leb_spec (fin + dur n) t0) as [L2|L2].
    + destruct Ht as [<-|T].
      * exists t0, (t0 + dur (S n)). split; [right; now left|]. now left.
      * destruct (IH (S (S n)) t0 (t0 + dur (S n)) false t0 R2 ltac:(lia) t T) as (s & e & H1 & H2). exists s, e. split; [right; now right|].
        apply served_more. cbn [fst snd]. apply (served_more fin (fin + dur n) (t0, t0 + dur (S n))). exact H2.
    + assert (In t (t0 :: r) -> exists s e, In (s, e) (z_run dur (S n) (fin + dur n) true r) /\ served fin (fin + dur n) (z_run dur (S n) (fin + dur n) true r) t s) as X.
      { intros [<-|T].
        - destruct (run_pending r (S n) (fin + dur n)) as (x & E). exists (fin + dur n), (fin + dur n + dur (S n)). rewrite E. split; [now left|]. right. exists fin. split; [now left|lia].
        - apply (IH (S n) fin (fin + dur n) true t0 R2 ltac:(lia) t T). }
      destruct (X Ht) as (s & e & H1 & H2). exists s, e. split; [now right|]. now apply (served_more b fin (fin, fin + dur n)).
  - destruct (Z.leb_spec fin t0) as [L|L]; [|apply Late; [lia|exact Ht]].
    destruct Ht as [<-|T].
    + exists t0, (t0 + dur n). split; [now left|]. now left.
    + destruct (IH (S n) t0 (t0 + dur n) false t0 R2 ltac:(lia) t T) as (s & e & H1 & H2). exists s, e. split; [now right|].
      now apply (served_more b fin (t0, t0 + dur n)).
Qed.

(** Every check is for an expiry: [pd] is the one of the queued item. *)
Lemma run_called ts : forall n b fin pend now, rising now ts -> b <= now -> (pend = true -> now < fin) ->
  forall s e, In (s, e) (z_run dur n fin pend ts) -> (pend = true /\ s = fin) \/ exists t, In t ts /\ served b fin (z_run dur n fin pend ts) t s.
Proof.
  induction ts as [|t0 r IH]; intros n b fin pend now Hr Hb Hp s e Hs.
  - cbn [z_run] in Hs. destruct pend; [destruct Hs as [[= <- <-]|[]]; now left|destruct Hs].
  - cbn [rising] in Hr. destruct Hr as [R1 R2]. cbn [z_run] in *. destruct pend.
    + destruct (Z.leb_spec fin t0) as [L|L].
      * destruct Hs as [[= <- <-]|Hs]; [now left|]. right. destruct (Z.leb_spec (fin + dur n) t0) as [L2|L2].
        -- destruct Hs as [[= <- <-]|Hs]; [exists t0; split; [now left|now left]|].
           destruct (IH (S (S n)) t0 (t0 + dur (S n)) false t0 R2 ltac:(lia) ltac:(discriminate) s e Hs) as [[X _]|(t & T & H)]; [discriminate|].
           exists t. split; [now right|]. apply served_more. cbn [fst snd]. now apply (served_more fin (fin + dur n) (t0, t0 + dur (S n))).
        -- destruct (IH (S n) fin (fin + dur n) true t0 R2 ltac:(lia) ltac:(lia) s e Hs) as [[_ ->]|(t & T & H)].
           ++ exists t0. split; [now left|]. right. exists fin. split; [right; now left|lia].
           ++ exists t. split; [now right|]. now apply (served_more b fin (fin, fin + dur n)).
      * destruct (IH n b fin true t0 R2 ltac:(lia) ltac:(lia) s e Hs) as [[_ ->]|(t & T & H)]; [now left|]. right. exists t. split; [now right|exact H].
    + right. destruct (Z.leb_spec fin t0) as [L|L].
      * destruct Hs as [[= <- <-]|Hs]; [exists t0; split; [now left|now left]|].
        destruct (IH (S n) t0 (t0 + dur n) false t0 R2 ltac:(lia) ltac:(discriminate) s e Hs) as [[X _]|(t & T & H)]; [discriminate|].
        exists t. split; [now right|]. now apply (served_more b fin (t0, t0 + dur n)).
      * destruct (IH n b fin true t0 R2 ltac:(lia) ltac:(lia) s e Hs) as [[_ ->]|(t & T & H)].
        -- exists t0. split; [now left|]. right. exists b. split; [now left|lia].
        -- exists t. split; [now right|exact H].
Qed.

Lemma expiries_rising interval : 0 <= interval -> forall k first, rising first (expiries first interval k).
Proof.
  intros Hi k. induction k as [|k IH]; intros first; cbn [expiries rising]; [exact Logic.I|]. split; [lia|].
  specialize (IH (first + interval)). destruct k; cbn [expiries rising] in *; [exact Logic.I|]. split; [lia|apply IH].
Qed.
Lemma expiries_from interval : 0 <= interval -> forall k first t, In t (expiries first interval k) -> first <= t.
Proof.
  intros Hi k. induction k as [|k IH]; intros first t; cbn [expiries In]; [tauto|]. intros [<-|H]; [lia|]. specialize (IH _ _ H). lia.
Qed.

Lemma served_first fin l t s : fin <= t -> served fin fin l t s -> serves l t s.
Proof. intros H [->|(b & [[= <- <-]|Hin] & X)]; [now left|lia|right; now exists b]. Qed.

Theorem z_all first interval k : 0 <= interval ->
  one_by_one first (z_checks dur first interval k) /\ (length (z_checks dur first interval k) <= k)%nat /\
  (forall t, In t (expiries first interval k) -> exists s e, In (s, e) (z_checks dur first interval k) /\ serves (z_checks dur first interval k) t s) /\
  (forall s e, In (s, e) (z_checks dur first interval k) -> exists t, In t (expiries first interval k) /\ serves (z_checks dur first interval k) t s).
Proof.
  intros Hi. unfold z_checks. pose proof (expiries_rising interval Hi k first) as Hr. split; [apply run_order|]. split.
  { pose proof (run_count (expiries first interval k) 0 first false) as H. replace (length (expiries first interval k)) with k in H; [lia|].
    clear. revert first. induction k as [|k IH]; intros first; cbn [expiries length]; [reflexivity|]. now rewrite <- IH. }
  split.
  - intros t Ht. destruct (run_serves (expiries first interval k) 0 first first false first Hr ltac:(lia) t Ht) as (s & e & H1 & H2).
    exists s, e. split; [exact H1|]. exact (served_first _ _ _ _ (expiries_from _ Hi _ _ _ Ht) H2).
  - intros s e Hs. destruct (run_called (expiries first interval k) 0 first first false first Hr ltac:(lia) ltac:(discriminate) s e Hs) as [[X _]|(t & T & H)]; [discriminate|].
    exists t. split; [exact T|]. exact (served_first _ _ _ _ (expiries_from _ Hi _ _ _ T) H).
Qed.

(** Work no longer than the interval: checks at every expiry. *)
Lemma run_regular interval : (forall n, dur n <= interval) -> forall k n fin first, fin <= first ->
  map fst (z_run dur n fin false (expiries first interval k)) = expiries first interval k.
Proof.
  intros Hd k. induction k as [|k IH]; intros n fin first Hf; cbn [expiries z_run]; [reflexivity|].
  destruct (Z.leb_spec fin first); [|lia]. cbn [map fst]. f_equal. apply IH. pose proof (Hd n). lia.
Qed.
Theorem z_regular first interval k : (forall n, dur n <= interval) -> map fst (z_checks dur first interval k) = expiries first interval k.
Proof. intros H. apply run_regular; [exact H|lia]. Qed.
End Zephyr.

Lemma expiries_spaced interval : forall k first, at_intervals interval (expiries first interval k).
Proof.
  induction k as [|k IH]; intros first; cbn [expiries]; [exact Logic.I|]. specialize (IH (first + interval)). destruct k; cbn [expiries at_intervals] in *; [exact Logic.I|]. split; [reflexivity|exact IH].
Qed.

(* ------------------------------------------------------------ ESP-IDF *)
Lemma e_ticks_exact period secs : 1 <= period -> 1000 mod period = 0 -> 0 <= secs <= 4294967 -> e_ticks period secs * period = 1000 * secs.
Proof.
  intros P Dv S. unfold e_ticks, u32. rewrite Z.mod_small by lia. apply Z.mod_divide in Dv as (q & Q); [|lia].
  replace (1000 * secs) with (q * secs * period) by (rewrite Q; ring). rewrite Z.div_mul by lia. reflexivity.
Qed.
Lemma e_loop_ok ota delay : forall l now, spaced delay l (map fst (e_loop ota delay now l)) /\ Forall2 (does ota) l (map snd (e_loop ota delay now l)).
Proof.
  induction l as [|x l IH]; intros now; cbn [e_loop map fst snd spaced]; [split; constructor|]. destruct (IH (now + tn_work x + delay)) as [I1 I2]. split.
  - split; [|exact I1]. destruct l; reflexivity.
  - constructor; [|exact I2]. unfold does, e_turn. destruct (tn_conn x); [|reflexivity]. eexists _, _. split; [reflexivity|]. split; reflexivity.
Qed.
Theorem e_all ota period interval rand l : 1 <= period -> 1000 mod period = 0 -> 1 <= interval <= 2147453 -> 0 <= rand ->
  exists f r, first_secs interval rand = Some f /\ (if 60 <=? interval then 60 else 5) <= f < (if 60 <=? interval then 60 else 5) + interval /\
    e_task ota period interval rand l = Some r /\ (l = [] \/ exists t a r', r = (t, a) :: r' /\ t * period = 1000 * f) /\
    exists d, d * period = 1000 * interval /\ spaced d l (map fst r) /\ Forall2 (does ota) l (map snd r).
Proof.
  intros P Dv Hi Hr. destruct (first_range interval rand ltac:(lia) Hr) as (f & E & B). exists f, (e_loop ota (e_ticks period interval) (e_ticks period f) l).
  split; [exact E|]. split; [exact B|]. split; [unfold e_task; rewrite E; reflexivity|]. split.
  - destruct l as [|x l]; [now left|]. right. cbn [e_loop]. eexists _, _, _. split; [reflexivity|]. apply e_ticks_exact; [exact P|exact Dv|]. destruct (60 <=? interval); lia.
  - exists (e_ticks period interval). split; [apply e_ticks_exact; [exact P|exact Dv|lia]|]. apply e_loop_ok.
Qed.
