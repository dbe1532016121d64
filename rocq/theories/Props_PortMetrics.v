(** C78-C81: the metrics the ports collect, and their clocks and heartbeat timers. *)
From Verif Require Import Base PortMetrics PortMetricsSpec PortMetricsProofs PortNet PortNetSpec PortNetProofs PortClock PortClockSpec PortClockProofs.
Local Open Scope Z_scope.

(** FreeRTOS: for counters of any width that wrap at most once between two heartbeats (and count less than
    2^64 / 10000), what is recorded at each heartbeat is the usage since the one before. *)
Theorem C78_freertos_usage : forall w split l, 0 <= w <= 64 -> slow3 (Z.min (2^w) (2^64 / 10000)) (0, 0, 0) l ->
  cpu_run w split cpu_init (map (seen w) l) = Some (usages_expected split (0, 0, 0) l).
Proof. exact cpu_usage_ok. Qed.
Print Assumptions C78_freertos_usage.
(** It is between 0 and 100.00 %. *)
Theorem C78_usage_bounded : forall idle total v, 0 <= idle -> 0 <= total -> usage_expected idle total = Some v -> 0 <= v <= 10000.
Proof. exact usage_expected_bounds. Qed.
Print Assumptions C78_usage_bounded.
Example C78_case :
  let l := [(4000000000, 3000000000, 4294967000); (4294967290, 5000000000, 4294967300); (4294967290, 5000000000, 4294967300); (4294967299, 6000000000, 5000000000)] in
  slow3 (Z.min (2^32) (2^64 / 10000)) (0, 0, 0) l /\
  cpu_run 32 true cpu_init (map (seen 32) l) = Some [(Some 687, Some 3016); (Some 0, Some 0); (None, None); (Some 10000, Some 0)].
Proof. vm_compute. repeat split; congruence. Qed.
(** With 64 bit counters the guard against overflow is far too high: an interval in which the processor was
    idle throughout is reported as 100 % usage; and an interval can end in a division by zero. *)
Theorem C78_wide_counters_refuted :
  ~ (forall l, slow3 (2^64) (0, 0, 0) l -> cpu_run 64 false cpu_init (map (seen 64) l) = Some (usages_expected false (0, 0, 0) l)) /\
  ~ (forall l, slow3 (2^64) (0, 0, 0) l -> exists r, cpu_run 64 false cpu_init (map (seen 64) l) = Some r).
Proof.
  split.
  - intros H. specialize (H [(2^63, 0, 2^63)]).
    assert (S : slow3 (2^64) (0, 0, 0) [(2^63, 0, 2^63)]) by (cbn; lia).
    specialize (H S). vm_compute in H. discriminate H.
  - intros H. destruct (H [(2^64 - 1, 0, 9999)]) as (r & E); [cbn; lia|]. vm_compute in E. discriminate E.
Qed.
Print Assumptions C78_wide_counters_refuted.

(** Zephyr: the usage recorded is the part of the cycles since the heartbeat before that was not idle. *)
Theorem C78_zephyr_usage : forall l, zsamples_ok (2^64 / 10000) (0, 0, 0) l ->
  exists rs, zcpu_run zcpu_init (map (seen 64) l) = Some rs /\
    Forall2 (fun x r => zr_pct r = snd x) (zreports_expected (0, 0, 0) l) rs /\ Forall (fun r => 0 <= zr_pct r <= 10000) rs.
Proof. exact zcpu_usage_ok. Qed.
Print Assumptions C78_zephyr_usage.
(** The cycles recorded are right while less than 2^32 pass between heartbeats. *)
Theorem C78_zephyr_cycles : forall l, zsamples_ok (2^32) (0, 0, 0) l ->
  exists rs, zcpu_run zcpu_init (map (seen 64) l) = Some rs /\
    map (fun r => (zr_timer r, zr_all r, zr_pct r)) rs = zreports_expected (0, 0, 0) l.
Proof. exact zcycles_ok. Qed.
Print Assumptions C78_zephyr_cycles.
Example C78_case_zephyr :
  let l := [(1000, 640000, 320000); (5000, 1280000, 400000)] in
  zsamples_ok (2^32) (0, 0, 0) l /\
  match zcpu_run zcpu_init (map (seen 64) l) with
  | Some rs => map (fun r => (zr_timer r, zr_all r, zr_pct r)) rs = [(1000, 640000, 5000); (4000, 640000, 1250)]
  | None => False end.
Proof. vm_compute. repeat split; congruence. Qed.
(** At 64 MHz an hour is 230400000000 cycles: AllTasksCpuUsage is then what is left of it modulo 2^32. *)
Theorem C78_zephyr_cycles_refuted :
  ~ (forall l, zsamples_ok (2^64 / 10000) (0, 0, 0) l ->
     exists rs, zcpu_run zcpu_init (map (seen 64) l) = Some rs /\ map zr_all rs = map (fun x => snd (fst x)) (zreports_expected (0, 0, 0) l)).
Proof.
  intros H. destruct (H [(1000, 64000000 * 3600, 2000)]) as (rs & E & M).
  - change (2^64 / 10000) with 1844674407370955. cbn. lia.
  - vm_compute in E. injection E as <-. vm_compute in M. discriminate M.
Qed.
Print Assumptions C78_zephyr_cycles_refuted.

(** Zephyr: after a heartbeat the metric of each thread in the index has the part of the stack used, and
    the metric of a thread which does not exist is not set. *)
Theorem C79_zephyr_threads : forall scale idx ths, 0 <= scale -> NoDup (map fst idx) -> NoDup (map snd idx) -> NoDup (map zt_name ths) ->
  Forall (z_sane scale) ths ->
  exists l, z_thread_metrics scale idx ths = Some l /\
    (forall t k, In t ths -> In (zt_name t, k) idx ->
       exists v, left_with k l = Some v /\ is_part (100 * scale) (zt_size t - zt_free t) (zt_size t) v) /\
    (forall n k, In (n, k) idx -> (forall t, In t ths -> zt_name t <> n) -> left_with k l = None).
Proof. exact z_threads_ok. Qed.
Print Assumptions C79_zephyr_threads.
Example C79_case_zephyr :
  let idx := [([105; 100], 7); ([119], 8); ([120], 9)] in
  let ths := [mk_zt [109] 1024 24; mk_zt [119] 2048 512; mk_zt [105; 100] 300 201] in
  NoDup (map fst idx) /\ NoDup (map snd idx) /\ NoDup (map zt_name ths) /\ Forall (z_sane 100) ths /\
  match z_thread_metrics 100 idx ths with
  | Some l => left_with 7 l = Some 3300 /\ left_with 8 l = Some 7500 /\ left_with 9 l = None
  | None => False end.
Proof.
  split; [repeat constructor; cbn; intuition congruence|]. split; [repeat constructor; cbn; intuition congruence|].
  split; [repeat constructor; cbn; intuition congruence|].
  split; [repeat (apply Forall_cons; [unfold z_sane; cbn; lia|]); apply Forall_nil|]. vm_compute. repeat split.
Qed.
(** A stack of 512 KiB of which all is used: the product wraps. *)
Theorem C79_zephyr_large_stack_refuted :
  ~ (forall scale size free, 0 <= scale -> 0 <= free <= size -> 0 < size < 2^32 ->
     exists v, z_stack_pct scale size free = Some v /\ is_part (100 * scale) (size - free) size v).
Proof.
  intros H. destruct (H 100 524288 0 ltac:(lia) ltac:(lia) ltac:(lia)) as (v & E & P).
  vm_compute in E. injection E as <-. destruct P as (_ & _ & P). lia.
Qed.
Print Assumptions C79_zephyr_large_stack_refuted.

(** FreeRTOS: the metric of an entry of the index is set from the task the entry's function gives or, when
    it gives none, the task of the name; and not set when there is no such task. *)
Theorem C79_freertos_threads : forall st scale bn idx l, NoDup (map fe_key idx) -> fr_thread_metrics st scale bn idx = Some l ->
  forall e t, In e idx -> fr_about bn e t ->
    left_with (fe_key e) l = match t with Some t => fr_stack_pct st scale (ft_mark t) (ft_end t) (ft_base t) | None => None end.
Proof. exact fr_threads_ok. Qed.
Print Assumptions C79_freertos_threads.
Example C79_case_freertos :
  fr_thread_metrics 4 100 (fun n => if beqs n [73] then Some (mk_ft 64 0x200003fc 0x20000000) else None)
    [mk_fe [73] None 1; mk_fe [84] None 2; mk_fe [65] (Some (mk_ft 100 0x2000187c 0x20001000)) 3] = Some [(1, 625); (3, 459)].
Proof. reflexivity. Qed.
(** But what it is set to is not the usage of the stack: it is the number of words that were never used, in
    parts of the stack's bytes.  With 4 byte words it never exceeds 25 %, and it goes down as the usage goes
    up. *)
Theorem C79_freertos_usage_refuted :
  ~ (forall st scale size words base v, st = 4 -> scale = 100 -> 0 <= words -> words * st <= size -> 0 < size < 2^20 ->
     fr_stack_pct st scale words (base + size - st) base = Some v -> is_part (100 * scale) (size - words * st) size v).
Proof.
  intros H. specialize (H 4 100 1024 0 0x20000000 0 eq_refl eq_refl ltac:(lia) ltac:(lia) ltac:(lia) eq_refl).
  destruct H as (_ & _ & H). lia.
Qed.
Print Assumptions C79_freertos_usage_refuted.
Theorem C79_freertos_what_is_recorded : forall st scale size words base v,
  0 < st -> 0 <= scale -> 0 <= words -> words * st <= size -> 0 < size < 2^32 -> 100 * scale * words < 2^32 ->
  fr_stack_pct st scale words (base + size - st) base = Some v -> st * v <= 100 * scale /\ is_part (100 * scale) words size v.
Proof. exact fr_stack_quarter. Qed.
Print Assumptions C79_freertos_what_is_recorded.
Example C79_case_recorded :
  fr_stack_pct 4 100 256 (0x20000000 + 1024 - 4) 0x20000000 = Some 2500 /\ fr_stack_pct 4 100 16 (0x20000000 + 1024 - 4) 0x20000000 = Some 156.
Proof. split; reflexivity. Qed.

(** the numbers single precision has, among the whole ones *)
Definition single (y : Z) : Prop := exists m e, y = m * 2 ^ e /\ Z.abs m < 2 ^ 24 /\ 0 <= e.
Lemma f32_gap k q y : 0 < k -> 2^23 <= q < 2^24 -> single y -> y <= q * 2^k \/ (q + 1) * 2^k <= y.
Proof.
  intros K Q (m & e & -> & M & E). assert (P : 0 < 2 ^ k) by (apply Z.pow_pos_nonneg; lia). assert (PE : 0 < 2 ^ e) by (apply Z.pow_pos_nonneg; lia).
  destruct (Z_le_gt_dec k e) as [L|L].
  - replace (2 ^ e) with (2 ^ (e - k) * 2 ^ k) by (rewrite <- Z.pow_add_r by lia; f_equal; lia). set (a := 2 ^ (e - k)). rewrite Z.mul_assoc.
    destruct (Z_le_gt_dec (m * a) q); [left|right]; apply Z.mul_le_mono_nonneg_r; lia.
  - left. assert (D : 2 * 2 ^ e <= 2 ^ k).
    { replace k with (1 + (k - 1)) by lia. rewrite Z.pow_add_r by lia. change (2 ^ 1) with 2. apply Z.mul_le_mono_nonneg_l; [lia|]. apply Z.pow_le_mono_r; lia. }
    apply Z.le_trans with (2 ^ 24 * 2 ^ e); [apply Z.mul_le_mono_nonneg_r; lia|].
    apply Z.le_trans with (2 ^ 23 * 2 ^ k); [|apply Z.mul_le_mono_nonneg_r; lia]. change (2 ^ 24) with (2 ^ 23 * 2). rewrite <- Z.mul_assoc. apply Z.mul_le_mono_nonneg_l; lia.
Qed.
(** single precision: the number nearest, and of two the one that is even *)
Theorem C79_single : forall z, 0 <= z -> single (f32 z) /\
  (forall y, single y -> Z.abs (f32 z - z) <= Z.abs (y - z)) /\
  (forall y, single y -> y <> f32 z -> Z.abs (f32 z - z) = Z.abs (y - z) -> exists m e, f32 z = m * 2 ^ e /\ 2 ^ 23 <= m < 2 ^ 24 /\ 0 <= e /\ Z.even m = true).
Proof.
  intros z H. unfold f32. destruct (Z.ltb_spec z (2 ^ 24)) as [L|L].
  - split; [exists z, 0; rewrite Z.pow_0_r; lia|]. split; [intros; lia|]. intros; lia.
  - assert (LG : 24 <= Z.log2 z) by (apply Z.log2_le_pow2; lia). destruct (Z.log2_spec z ltac:(lia)) as (A & B).
    set (k := Z.log2 z - 23) in *. assert (K : 0 < k) by lia. cbv zeta. pose proof (Z.pow_pos_nonneg 2 k ltac:(lia) ltac:(lia)) as P.
    replace (Z.log2 z) with (23 + k) in A by lia. replace (Z.succ (Z.log2 z)) with (24 + k) in B by lia. rewrite Z.pow_add_r in A, B by lia.
    assert (Q1 : 2 ^ 23 <= z / 2 ^ k) by (apply Z.div_le_lower_bound; lia). assert (Q2 : z / 2 ^ k < 2 ^ 24) by (apply Z.div_lt_upper_bound; lia).
    pose proof (Z.div_mod z (2 ^ k) ltac:(lia)) as E. pose proof (Z.mod_pos_bound z (2 ^ k) P) as R.
    set (q := z / 2 ^ k) in *. set (r := z mod 2 ^ k) in *. clearbody q r.
    assert (G := fun y => f32_gap k q y K (conj Q1 Q2)).
    assert (S0 : single (q * 2 ^ k)) by (exists q, k; lia).
    assert (S00 : exists m e, q * 2 ^ k = m * 2 ^ e /\ 2 ^ 23 <= m < 2 ^ 24 /\ 0 <= e /\ (Z.even q = true -> Z.even m = true)) by (exists q, k; auto with zarith).
    assert (S1 : exists m e, (q + 1) * 2 ^ k = m * 2 ^ e /\ 2 ^ 23 <= m < 2 ^ 24 /\ 0 <= e /\ (Z.even q = false -> Z.even m = true)).
    { destruct (Z.eq_dec (q + 1) (2 ^ 24)) as [X|X].
      - exists (2 ^ 23), (k + 1). rewrite X, Z.pow_add_r by lia. split; [change (2 ^ 24) with (2 ^ 23 * 2); change (2 ^ 1) with 2; ring|]. split; [lia|]. split; [lia|reflexivity].
      - exists (q + 1), k. split; [reflexivity|]. split; [lia|]. split; [lia|]. intro V. rewrite Z.even_add, V. reflexivity. }
    assert (S1' : single ((q + 1) * 2 ^ k)) by (destruct S1 as (m & e & X & M & E0 & _); exists m, e; rewrite X; lia).
    set (p := 2 ^ k) in *. clearbody p. replace ((q + 1) * p) with (q * p + p) in * by ring. rewrite (Z.mul_comm p q) in E. set (w := q * p) in *.
    destruct (Z.ltb_spec (2 * r) p) as [C1|C1]; [|destruct (Z.ltb_spec p (2 * r)) as [C2|C2]].
    + split; [exact S0|]. split; intros y Y; destruct (G y Y); intros; lia.
    + split; [exact S1'|]. split; intros y Y; destruct (G y Y); intros; lia.
    + destruct (Z.even q) eqn:V.
      * split; [exact S0|]. split; [intros y Y; destruct (G y Y); lia|]. intros y Y N D. destruct S00 as (m & e & X & M & E0 & V'). exists m, e. auto.
      * split; [exact S1'|]. split; [intros y Y; destruct (G y Y); lia|]. intros y Y N D. destruct S1 as (m & e & X & M & E0 & V'). exists m, e. auto.
Qed.
Print Assumptions C79_single.
Example C79_case_single : f32 (2 ^ 24 + 1) = 2 ^ 24 /\ f32 (2 ^ 24 + 3) = 2 ^ 24 + 4.
Proof. split; reflexivity. Qed.

(** Heap usage, computed in single precision: within 0.01 % of the most that was in use, while that is
    less than 429497 bytes. *)
Theorem C79_zephyr_heap : forall max_alloc free alloc, 0 <= free -> 0 <= alloc -> 0 < free + alloc < 2^32 ->
  0 <= max_alloc <= free + alloc -> max_alloc <= 429496 ->
  exists r v, z_heap_pct max_alloc free alloc = Some r /\ is_part 10000 max_alloc (free + alloc) v /\ Z.abs (r - v) <= 1 /\ 0 <= r <= 10000.
Proof. exact z_heap_ok. Qed.
Print Assumptions C79_zephyr_heap.
Theorem C79_esp_heap : forall min_free free alloc, 0 <= min_free <= free -> 0 <= alloc -> 0 < free + alloc < 2^32 ->
  free + alloc - min_free <= 429496 ->
  exists r v, e_heap_pct min_free free alloc = Some r /\ is_part 10000 (free + alloc - min_free) (free + alloc) v /\
    Z.abs (r - v) <= 1 /\ 0 <= r <= 10000.
Proof. exact e_heap_ok. Qed.
Print Assumptions C79_esp_heap.
Example C79_case_heap : z_heap_pct 100001 50000 100000 = Some 6666 /\ e_heap_pct 120000 150000 200000 = Some 6571.
Proof. split; reflexivity. Qed.
(** From then on the conversion to [uint32_t] is of a number that does not fit, which is undefined. *)
Theorem C79_heap_from_429497_undefined : forall max_alloc free alloc, 429497 <= max_alloc < 2^32 -> z_heap_pct max_alloc free alloc = None.
Proof. intros m f a H. unfold z_heap_pct. now rewrite (times_overflow m H). Qed.
Print Assumptions C79_heap_from_429497_undefined.
Theorem C79_heap_undefined_refuted :
  ~ (forall max_alloc free alloc, 0 <= free -> 0 <= alloc -> 0 < free + alloc < 2^32 -> 0 <= max_alloc <= free + alloc ->
     exists r, z_heap_pct max_alloc free alloc = Some r) /\
  ~ (forall min_free free alloc, 0 <= min_free <= free -> 0 <= alloc -> 0 < free + alloc < 2^32 -> exists r, e_heap_pct min_free free alloc = Some r).
Proof.
  split; intros H.
  - destruct (H 1048576 1048576 1048576 ltac:(lia) ltac:(lia) ltac:(lia) ltac:(lia)) as (r & E). vm_compute in E. discriminate E.
  - destruct (H 1048576 1048576 1048576 ltac:(lia) ltac:(lia) ltac:(lia)) as (r & E). vm_compute in E. discriminate E.
Qed.
Print Assumptions C79_heap_undefined_refuted.
(** The temperature is rounded towards zero to tenths of a degree. *)
Theorem C79_zephyr_temperature : forall val1 val2, -214748363 <= val1 <= 214748363 -> -1000000 < val2 < 1000000 -> 0 <= val1 * val2 ->
  exists rest, val1 * 1000000 + val2 = 100000 * z_temp val1 val2 + rest /\ Z.abs rest < 100000 /\ 0 <= rest * (val1 * 1000000 + val2).
Proof. exact z_temp_ok. Qed.
Print Assumptions C79_zephyr_temperature.
Example C79_case_temperature : z_temp 25 987654 = 259 /\ z_temp (-3) (-450000) = -34 /\ z_temp 0 (-50000) = 0.
Proof. repeat split. Qed.
(** Free stack of the timer task, and free space of the file system: right while they fit into 32 bits. *)
Theorem C79_free_bytes : forall st words frsize bfree, 0 <= words * st < 2^32 -> 0 <= frsize * bfree < 2^32 ->
  timer_stack_free st words = words * st /\ z_fs_free frsize bfree = frsize * bfree.
Proof. intros. split; apply u32_small; assumption. Qed.
Print Assumptions C79_free_bytes.
(** An 8 GB card with 4 GiB free: 0 bytes are reported. *)
Theorem C79_fs_free_refuted : ~ (forall frsize bfree, is_u32 frsize -> is_u32 bfree -> frsize * bfree <> 0 -> z_fs_free frsize bfree <> 0).
Proof. intros H. apply (H 4096 1048576); [unfold is_u32; lia|unfold is_u32; lia|lia|reflexivity]. Qed.
Print Assumptions C79_fs_free_refuted.

(** lwIP: with counters of 32 bits that wrap at most once between heartbeats, what is recorded for each
    counter is what was counted since the heartbeat before... *)
Theorem C80_lwip_counts : forall k l, counting (2^32) (repeat 0 k) l -> lw_run (repeat 0 k) (map (map u32) l) = counts_expected (repeat 0 k) l.
Proof. exact lw_ok. Qed.
Print Assumptions C80_lwip_counts.
(** ... and adds up to all that was counted. *)
Theorem C80_lwip_total : forall k l i, counting (2^32) (repeat 0 k) l ->
  fold_right (fun r n => nth i r 0 + n) 0 (lw_run (repeat 0 k) (map (map u32) l)) = nth i (fold_left (fun _ c => c) l (repeat 0 k)) 0.
Proof.
  intros k l i H. rewrite (lw_ok k l H), (counts_sum i l _ H _ eq_refl).
  replace (nth i (repeat 0 k) 0) with 0; [lia|]. clear. revert i. induction k; intros [|i]; [reflexivity|reflexivity|reflexivity|exact (IHk i)].
Qed.
Print Assumptions C80_lwip_total.
Example C80_case_lwip :
  let l := [[5; 4294967290; 0]; [7; 4294967300; 1]; [7; 4294967301; 1]] in
  counting (2^32) (repeat 0 3) l /\ lw_run (repeat 0 3) (map (map u32) l) = [[5; 4294967290; 0]; [2; 10; 1]; [0; 1; 0]].
Proof. split; [cbn; repeat split; try (repeat constructor; lia); repeat (apply Forall2_cons; [lia|]); apply Forall2_nil|reflexivity]. Qed.
(** lwIP's counters have 16 bits by default (LWIP_STATS_LARGE 0); when one wraps, a count of almost 2^32 is
    recorded. *)
Theorem C80_lwip_small_counters_refuted :
  ~ (forall k l, counting (2^16) (repeat 0 k) l -> lw_run (repeat 0 k) (map (map u16) l) = counts_expected (repeat 0 k) l).
Proof.
  intros H. specialize (H 1%nat [[65530]; [65540]]).
  assert (S : counting (2^16) (repeat 0 1) [[65530]; [65540]]).
  { cbn. split; [apply Forall2_cons; [lia|apply Forall2_nil]|]. split; [apply Forall2_cons; [lia|apply Forall2_nil]|exact I]. }
  specialize (H S). vm_compute in H. discriminate H.
Qed.
Print Assumptions C80_lwip_small_counters_refuted.

(** Mbed TLS: for all sequences of calls, with any answers of the real heap, the real heap is asked for the
    requested bytes and the metadata, the application gets the memory behind the metadata, what is freed is
    what the real heap gave; used is the sum of what is held, max the most that ever was. *)
Theorem C80_mbedtls : forall ov l, 0 < ov -> mb_legal ov (2^31) [] l ->
  exists s, mb_run ov mb_init l = Some (map (outs_expected ov) l, s) /\
    mb_used s = held_bytes (held_after ov l) /\ mb_max s = most (histories ov [] l).
Proof. exact mb_ok. Qed.
Print Assumptions C80_mbedtls.
Example C80_case_mbedtls :
  let l := [MCalloc 2 100 1000; MCalloc 1 50 2000; MFree 1008; MCalloc 7 7 0; MFree 0; MCalloc 1 30 1000; MFree 2008] in
  mb_legal 8 (2^31) [] l /\
  mb_run 8 mb_init l =
    Some ([[ORealCalloc 1 208; OReturn 1008]; [ORealCalloc 1 58; OReturn 2008]; [ORealFree 1000]; [ORealCalloc 1 57; OReturn 0]; [];
           [ORealCalloc 1 38; OReturn 1008]; [ORealFree 2000]], mk_mb 30 250 [(1000, 30)]).
Proof.
  split; [|reflexivity]. cbv beta iota delta [mb_legal].
  assert (E : forall P Q R : Prop, P -> Q -> R -> P /\ Q /\ R) by tauto.
  apply E; [split; [lia|]; split; [lia|]; split; [lia|]; right; split; [lia|]; split; [lia|]; split; [lia|]; constructor|reflexivity|].
  apply E; [split; [lia|]; split; [lia|]; split; [lia|]; right; split; [lia|]; split; [lia|]; split; [lia|]; constructor; [discriminate|constructor]|reflexivity|].
  apply E; [right; right; left; reflexivity|reflexivity|].
  apply E; [split; [lia|]; split; [lia|]; split; [lia|]; left; reflexivity|reflexivity|].
  apply E; [left; reflexivity|reflexivity|].
  apply E; [split; [lia|]; split; [lia|]; split; [lia|]; right; split; [lia|]; split; [lia|]; split; [lia|]; constructor; [discriminate|constructor]|reflexivity|].
  apply E; [right; right; left; reflexivity|reflexivity|exact I].
Qed.
(** The product of the two arguments can wrap, which calloc would have refused: for 65536 elements of 65536
    bytes the application gets a block without a single byte. *)
Theorem C80_mbedtls_overflow_refuted :
  ~ (forall ov s n size real outs s' total, 0 < ov <= 16 -> is_u32 n -> is_u32 size -> 0 < real -> real + ov < 2^32 ->
     mb_step ov s (MCalloc n size real) = Some (outs, s') -> In (ORealCalloc 1 total) outs -> In (OReturn (real + ov)) outs ->
     n * size <= total - ov).
Proof.
  intros H. specialize (H 8 mb_init 65536 65536 0x20000000 _ _ 8 ltac:(lia) ltac:(unfold is_u32; lia) ltac:(unfold is_u32; lia) ltac:(lia) ltac:(lia) eq_refl).
  specialize (H ltac:(now left) ltac:(right; now left)). lia.
Qed.
Print Assumptions C80_mbedtls_overflow_refuted.

(** FreeRTOS: called at least once in 2^32 ticks, the time since boot is never ahead and behind by less than
    a millisecond and a millisecond in 2^16 ticks; for tick rates that divide 65536000 (such as 100, 128,
    250, 1000, 1024) it is right to the millisecond... *)
Theorem C81_freertos_time : forall hz l, 0 < hz -> slow (2^32) 0 l -> Forall (fun t => t * (65536000 / hz) < 2^64) l -> Forall (fun t => t < 2^64) l ->
  Forall2 (ms_close hz) l (fclock_run hz fclock_init (map (fun t => t mod 2^32) l)) /\
  ((hz | 65536000) -> Forall2 (ms_exact hz) l (fclock_run hz fclock_init (map (fun t => t mod 2^32) l))).
Proof. exact fclock_ok. Qed.
Print Assumptions C81_freertos_time.
(** ... and it never goes back. *)
Theorem C81_freertos_time_monotone : forall hz l, 0 < hz -> slow (2^32) 0 l -> Forall (fun t => t * (65536000 / hz) < 2^64) l -> Forall (fun t => t < 2^64) l ->
  slow (2^64) 0 (fclock_run hz fclock_init (map (fun t => t mod 2^32) l)).
Proof. exact fclock_monotone. Qed.
Print Assumptions C81_freertos_time_monotone.
Example C81_case_freertos :
  let l := [1; 4000000000; 5000000000; 9000000001] in
  slow (2^32) 0 l /\ fclock_run 1000 fclock_init (map (fun t => t mod 2^32) l) = l /\
  fclock_run 300 fclock_init (map (fun t => t mod 2^32) l) = [3; 13333312988; 16666641235; 29999954226].
Proof. vm_compute. repeat split; congruence. Qed.
(** With 16 bit ticks (configUSE_16_BIT_TICKS) the difference is not taken in 16 bits: a wrap adds 2^32. *)
Theorem C81_freertos_16_bit_ticks_refuted :
  ~ (forall hz l, 0 < hz -> slow (2^16) 0 l -> Forall (fun t => t < 2^32) l ->
     Forall2 (ms_close hz) l (fclock_run hz fclock_init (map (fun t => t mod 2^16) l))).
Proof.
  intros H. specialize (H 1000 [65000; 66000] ltac:(lia)).
  assert (S : slow (2^16) 0 [65000; 66000]) by (cbn; lia). specialize (H S).
  assert (F : Forall (fun t => t < 2^32) [65000; 66000]) by (repeat constructor; lia). specialize (H F).
  assert (E : fclock_run 1000 fclock_init (map (fun t => t mod 2^16) [65000; 66000]) = [65000; 4294967760]) by (vm_compute; reflexivity).
  rewrite E in H. inversion H as [|? ? ? ? _ B]. inversion B as [|? ? ? ? (A2 & _) _]. lia.
Qed.
Print Assumptions C81_freertos_16_bit_ticks_refuted.
(** The heartbeat period in ticks is right when the tick rate divides 1000. *)
Theorem C81_freertos_period : forall w hz p, 0 < hz -> (hz | 1000) -> 0 <= p < 2^32 -> p * hz < 2^w -> f_period w hz p = Some (p * hz).
Proof. exact f_period_ok. Qed.
Print Assumptions C81_freertos_period.
Example C81_case_period : f_period 32 100 3600 = Some 360000 /\ f_period 32 1000 3600 = Some 3600000.
Proof. split; reflexivity. Qed.
(** With 300 ticks per second a period of an hour is 4000 seconds; with 1024 there is a division by zero;
    with 16 bit ticks an hour at 1000 Hz is 61 seconds. *)
Theorem C81_freertos_period_refuted :
  ~ (forall hz p, 0 < hz <= 1000 -> 0 <= p < 2^32 -> p * hz < 2^32 -> f_period 32 hz p = Some (p * hz)) /\
  ~ (forall hz p, 0 < hz -> 0 <= p < 2^32 -> exists t, f_period 32 hz p = Some t) /\
  ~ (forall p, 0 <= p <= 4294967 -> f_period 16 1000 p = Some (p * 1000)).
Proof.
  split; [|split]; intros H.
  - specialize (H 300 3600 ltac:(lia) ltac:(lia) ltac:(lia)). discriminate H.
  - destruct (H 1024 3600 ltac:(lia) ltac:(lia)) as (t & E). discriminate E.
  - specialize (H 3600 ltac:(lia)). discriminate H.
Qed.
Print Assumptions C81_freertos_period_refuted.

(** nRF5: however often the timer fired (each time within 2^24 ticks), the time asked for within 2^24 ticks
    of that is right to the millisecond. *)
Theorem C81_nrf5_time : forall presc cnts now s, 0 <= presc < 32768 -> nt_clock s = nclock_init -> slow (2^24) 0 cnts ->
  0 <= now - last cnts 0 < 2^24 -> 1000 * now < 2^64 -> Forall (fun t => t < 2^64) cnts ->
  exists ms, nclock_ms presc (nt_clock (snd (ntimer_run s (map (fun c => c mod 2^24) cnts)))) (now mod 2^24) = Some ms /\
    ms_exact (32768 / (presc + 1)) now ms.
Proof. exact nclock_ok. Qed.
Print Assumptions C81_nrf5_time.
(** nRF5: the heartbeat comes each time the timer fires, or, when the period has too many ticks for the
    timer, with every so many minutes, the period rounded to minutes. *)
Theorem C81_nrf5_period : forall to_ticks max c p s start, 30 <= p -> p * 1000 < 2^32 -> ntimer_boot to_ticks max c p = (s, start) ->
  (to_ticks (p * 1000) <= max /\ start = to_ticks (p * 1000) /\
     forall cnts, fst (ntimer_run s cnts) = repeat true (length cnts)) \/
  (max < to_ticks (p * 1000) /\ start = to_ticks 60000 /\
     exists minutes, 0 < minutes /\ Z.abs (60 * minutes - p) <= 30 /\
       forall cnts, zlen cnts < 2^32 -> fst (ntimer_run s cnts) = every minutes 1 (length cnts)).
Proof. exact ntimer_ok. Qed.
Print Assumptions C81_nrf5_period.
Example C81_case_nrf5 :
  let ticks ms := rounded_div (ms * 32768) 1000 in
  let '(s, start) := ntimer_boot ticks 0xffffff nclock_init 560 in
  let cnts := map (fun i => i * start) [1; 2; 3; 4; 5; 6; 7; 8; 9; 10] in
  start = 1966080 /\ ntimer_run s (map (fun c => c mod 2^24) cnts) = 
    ([false; false; false; false; false; false; false; false; true; false], mk_nt (mk_nc (19660800 mod 2^24) 19660800) 10 9) /\
  nclock_ms 0 (mk_nc (19660800 mod 2^24) 19660800) ((19660800 + 32768) mod 2^24) = Some 601000.
Proof. vm_compute. repeat split. Qed.
(** Only the timer moves the base of the time: asked again and again for longer than 512 seconds without
    the timer (metrics not booted), the time starts over. *)
Theorem C81_nrf5_without_timer_refuted :
  ~ (forall now, 0 <= now -> 1000 * now < 2^64 -> exists ms, nclock_ms 0 nclock_init (now mod 2^24) = Some ms /\ ms_exact 32768 now ms).
Proof.
  intros H. destruct (H (2^24) ltac:(lia) ltac:(lia)) as (ms & E & P). vm_compute in E. injection E as <-. destruct P as (_ & P). lia.
Qed.
Print Assumptions C81_nrf5_without_timer_refuted.

(** The other clocks and periods: DA145xx, ESP-IDF, Mynewt. *)
Theorem C81_da145xx_time : forall time, 0 <= time < 2^32 -> ms_exact 1600 time (d_ms true time) /\ d_ms false time = 0.
Proof. intros time H. split; [exact (d_ms_ok time H)|reflexivity]. Qed.
Print Assumptions C81_da145xx_time.
Theorem C81_other_periods : forall hz p, 0 <= p < 2^32 -> 0 <= hz -> e_period p = p * 1000000 /\ (p * hz < 2^32 -> m_period hz p = p * hz).
Proof. exact periods_ok. Qed.
Print Assumptions C81_other_periods.
Example C81_case_others : d_ms true 1601 = 1000 /\ d_ms false 1601 = 0 /\ e_period 3600 = 3600000000 /\ m_period 128 3600 = 460800.
Proof. repeat split. Qed.
