(** The regions of memory in coredumps. *)
From Verif Require Import Base TaskRegions TaskRegionsSpec TaskRegionsProofs PortCapture PortCaptureSpec.

Lemma take_short {A} (n : Z) (l : list A) : zlen l <= n -> take n l = l.
Proof. intros H. apply take_all. lia. Qed.
Lemma take_past {A} (n : Z) (l m : list A) : n <= zlen l -> take n (l ++ m) = take n l.
Proof. intros H. apply take_app_le. lia. Qed.

Section Particle.
Context (sane : Z -> Z -> Z) (mem : Z -> option Z) (top : Z -> Z) (want : Z).
Definition one (tcb : bool) (t : Z) : list region := if tcb then part sane t 200 else part sane (top t) want.

Lemma dump_ok tcb threads : (tcb = false -> forall t, In (Some t) threads -> tr_word mem t = Some (top t)) ->
  forall out rest, zlen (out ++ rest) = 16 ->
  exists rest', pa_dump sane mem want tcb threads (zlen out) (out ++ rest) =
    Some (zlen (take 16 (out ++ flat_map (one tcb) (handles threads))), take 16 (out ++ flat_map (one tcb) (handles threads)) ++ rest') /\
    zlen (take 16 (out ++ flat_map (one tcb) (handles threads)) ++ rest') = 16.
Proof.
  induction threads as [|t r IH]; intros W out rest L; cbn [pa_dump handles flat_map].
  { exists rest. rewrite app_nil_r. assert (zlen out <= 16) by (rewrite zlen_app in L; pose proof (zlen_nonneg rest); lia).
    rewrite take_short by lia. auto. }
  assert (W' : tcb = false -> forall t, In (Some t) r -> tr_word mem t = Some (top t)) by (intros B x IN; apply (W B); right; exact IN).
  assert (LO : 0 <= zlen out <= 16) by (rewrite zlen_app in L; pose proof (zlen_nonneg rest); pose proof (zlen_nonneg out); lia).
  destruct t as [t|]; cbn [pa_task bind]; [|exact (IH W' out rest L)].
  fold (handles r). cbn [app flat_map].
  rewrite (u32_id (16 - zlen out)) by (unfold is_u32; lia).
  destruct (16 - zlen out =? 0) eqn:F; cbn [bind].
  - assert (E : zlen out = 16) by lia. destruct (IH W' out rest L) as (r' & D & L'). exists r'.
    rewrite (take_past 16 out) in D, L' by lia. rewrite (take_past 16 out) by lia. auto.
  - assert (E : (if tcb then Some t else tr_word mem t) = Some (if tcb then t else top t)) by (destruct tcb; [reflexivity|apply (W eq_refl); left; reflexivity]).
    rewrite E. cbn [bind]. set (a := if tcb then t else top t). set (n := sane a (if tcb then 200 else want)).
    assert (O : one tcb t = if n =? 0 then [] else [(a, n)]) by (unfold one, part, n, a; destruct tcb; reflexivity).
    rewrite O. destruct (n =? 0); cbn [bind app]; [exact (IH W' out rest L)|].
    destruct rest as [|p rest]; [rewrite app_nil_r in L; lia|].
    rewrite set_at_app by reflexivity. cbn [bind].
    replace (out ++ (a, n) :: rest) with ((out ++ [(a, n)]) ++ rest) by (rewrite <- app_assoc; reflexivity).
    replace (zlen out + 1) with (zlen (out ++ [(a, n)])) by (rewrite zlen_app; reflexivity).
    assert (L2 : zlen ((out ++ [(a, n)]) ++ rest) = 16) by (rewrite <- L, !zlen_app, !zlen_cons; change (zlen (@nil region)) with 0; lia).
    destruct (IH W' _ _ L2) as (r' & D & L'). exists r'. rewrite <- (app_assoc out [(a, n)] (flat_map _ _)) in D, L'. cbn [app] in D, L'. split; [exact D|exact L'].
Qed.

Lemma take_twice {A} (l m : list A) : take 16 (take 16 l ++ m) = take 16 (l ++ m).
Proof.
  destruct (Z_le_gt_dec (zlen l) 16) as [H|H]; [now rewrite (take_short 16 l) by lia|].
  assert (E : zlen (take 16 l) = 16) by (rewrite zlen_take; lia).
  rewrite (take_past 16 (take 16 l)) by lia. rewrite (take_short 16 (take 16 l)) by lia. now rewrite take_past by lia.
Qed.

Lemma particle_ok crash threads : (forall t, In (Some t) threads -> tr_word mem t = Some (top t)) ->
  answers 16 (pa_regions sane mem true want crash threads) (take 16 (particle_wants sane top want crash threads)).
Proof.
  intros W. unfold answers, pa_regions, particle_wants.
  change (fr_zero 16) with (([] : list region) ++ (0, 0) :: fr_zero 15). rewrite set_at_app by reflexivity. cbn [bind app].
  destruct (dump_ok true threads ltac:(discriminate) [(crash, sane crash 512)] (fr_zero 15) eq_refl) as (r1 & D1 & L1).
  change (zlen [(crash, sane crash 512)]) with 1 in D1. cbn [app] in D1, L1. rewrite D1. cbn [bind].
  destruct (dump_ok false threads (fun _ => W) _ r1 L1) as (r2 & D2 & L2). rewrite D2.
  rewrite take_twice in L2 |- *. cbn [app] in L2 |- *. exists r2. auto.
Qed.
End Particle.

Lemma to_top_ok top crash : is_u32 top -> 0 <= crash <= top -> forall x, inside (to_the_top top crash) x <-> crash <= x < top.
Proof. intros T C x. unfold inside, to_the_top. cbn [fst snd]. unfold is_u32 in T. rewrite u32_id by (unfold is_u32; lia). lia. Qed.

Lemma checked_ok banks mem want crash : Forall (fun b => is_u32 (fst b) /\ is_u32 (snd b)) banks ->
  (forall x, in_ram banks x -> exists b, mem x = Some b /\ is_u8 b) -> 0 <= crash -> 0 <= want ->
  readable mem (checked_stack (tr_sanitize banks) want crash).
Proof.
  intros B M C W x X. unfold checked_stack in X. cbn [fst snd] in X.
  destruct (sanitize_ok banks mem B M want crash want C ltac:(lia)) as [_ R]. exact (proj2 (R x X)).
Qed.

Lemma my_ok cap areas : 0 <= cap -> answers cap (my_regions cap areas) (take cap areas).
Proof.
  intros C. unfold my_regions, answers. pose proof (zlen_nonneg areas).
  assert (E : take (Z.min cap (zlen areas)) areas = take cap areas).
  { destruct (Z_le_gt_dec cap (zlen areas)); [now rewrite Z.min_l by lia|]. rewrite Z.min_r by lia. now rewrite !take_short by lia. }
  rewrite E. assert (L : zlen (take cap areas) <= cap) by (destruct (Z_le_gt_dec cap (zlen areas)); [rewrite zlen_take; lia|rewrite take_short by lia; lia]).
  rewrite push_start by (rewrite zlen_zero by lia; exact L). eexists. split; [reflexivity|].
  pose proof (zlen_nonneg (take cap areas)). rewrite zlen_app, zlen_drop by (rewrite zlen_zero by lia; lia). rewrite zlen_zero by lia. lia.
Qed.

Lemma esp8266_ok_all sane n iram heap crash l : 1 <= n -> 0 <= iram <= 0x100000 -> linked iram l ->
  exists gs, answers (n + 5) (esp8266_all sane n iram heap crash l) ((crash, sane crash 512) :: gs) /\
    Forall (fun g => forall x, inside g x -> in_ram (esp8266_ram iram) x) gs /\
    (forall x, ld_data l <= x < ld_data_end l \/ ld_bss l <= x < 0x40000000 \/ ld_ibss l <= x < ld_ibss_end l \/
               (heap = true /\ ld_iram_end l <= x < 0x40100000 + iram) -> exists g, In g gs /\ inside g x).
Proof.
  intros N I (K1 & K2 & K3 & K4 & K5). unfold esp8266_all.
  rewrite !u32_id by (unfold is_u32; lia).
  eexists. split; [|split].
  - unfold answers. rewrite push_start.
    + eexists. split; [reflexivity|]. rewrite zlen_app, zlen_drop, zlen_zero by lia.
      destruct heap; cbn [app]; rewrite !zlen_cons, zlen_nil; lia.
    + rewrite zlen_zero by lia. destruct heap; cbn [app]; rewrite !zlen_cons, zlen_nil; lia.
  - cbn [app]. assert (A : forall lo hi, 0x3FFE8000 <= lo -> hi <= 0x40000000 -> forall x, inside (lo, hi - lo) x -> in_ram (esp8266_ram iram) x).
    { intros lo hi H1 H2 x X. unfold inside in X. cbn [fst snd] in X. exists 0x3FFE8000, 0x18000. split; [left; reflexivity|lia]. }
    assert (B : forall lo hi, 0x40100000 <= lo -> hi <= 0x40100000 + iram -> forall x, inside (lo, hi - lo) x -> in_ram (esp8266_ram iram) x).
    { intros lo hi H1 H2 x X. unfold inside in X. cbn [fst snd] in X. exists 0x40100000, iram. split; [right; left; reflexivity|lia]. }
    repeat (apply Forall_cons; [first [apply A; lia | apply B; lia]|]).
    destruct heap; [apply Forall_cons; [apply B; lia|]|]; apply Forall_nil.
  - cbn [app]. intros x [X|[X|[X|[-> X]]]].
    + exists (ld_data l, ld_data_end l - ld_data l). split; [cbn; auto|unfold inside; cbn [fst snd]; lia].
    + destruct (Z_lt_le_dec x (ld_bss_end l)).
      * exists (ld_bss l, ld_bss_end l - ld_bss l). split; [cbn; auto|unfold inside; cbn [fst snd]; lia].
      * exists (ld_bss_end l, 0x40000000 - ld_bss_end l). split; [cbn; auto|unfold inside; cbn [fst snd]; lia].
    + exists (ld_ibss l, ld_ibss_end l - ld_ibss l). split; [cbn; auto|unfold inside; cbn [fst snd]; lia].
    + exists (ld_iram_end l, 0x40100000 + iram - ld_iram_end l). split; [cbn; auto 10|unfold inside; cbn [fst snd]; lia].
Qed.
