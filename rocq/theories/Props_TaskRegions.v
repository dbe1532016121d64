(** C67, C68, C69: the state of tasks collected for a coredump. *)
From Coq Require Import Permutation.
From Verif Require Import Base TaskRegions TaskRegionsSpec TaskRegionsProofs.

Definition event_of (o : tr_op) : event := match o with TCreate t => Created t | TDelete t => Deleted t end.
Definition in_table (slots : list Z) : list Z := filter (fun t => negb (t =? 0)) slots.

(** ** C67: the table of tasks *)

(** After any history the table holds the tasks that were created when there was room and not deleted since. *)
Theorem C67_table_is_the_tracked_tasks : forall n ops, Forall (fun o => task_of (event_of o) <> 0) ops ->
  exists slots, tr_run (repeat 0 n) ops = Some slots /\ length slots = n /\
    Permutation (in_table slots) (tracked (Z.of_nat n) [] (map event_of ops)).
Proof.
  intros n ops N. destruct (run_tracks ops N (repeat 0 n) []) as (slots & E & L & P); [rewrite used_empty; constructor|].
  exists slots. split; [exact E|]. unfold zlen in *. rewrite repeat_length in *. split; [lia|exact P].
Qed.
Print Assumptions C67_table_is_the_tracked_tasks.

(** With never more tasks than entries it holds exactly the tasks there are. *)
Theorem C67_every_task_is_tracked : forall n ops, Forall (fun o => task_of (event_of o) <> 0) ops ->
  never_more (Z.of_nat n) (map event_of ops) ->
  exists slots, tr_run (repeat 0 n) ops = Some slots /\ length slots = n /\ Permutation (in_table slots) (alive [] (map event_of ops)).
Proof.
  intros n ops N M. destruct (C67_table_is_the_tracked_tasks n ops N) as (slots & E & L & P). exists slots. split; [exact E|]. split; [exact L|].
  rewrite (tracked_alive _ _ [] M) in P. exact P.
Qed.
Print Assumptions C67_every_task_is_tracked.

(** A task created while the table is full is not tracked later either, however few there are then. *)
Theorem C67_few_tasks_are_all_tracked_refuted : ~ (forall n ops, Forall (fun o => task_of (event_of o) <> 0) ops ->
  zlen (alive [] (map event_of ops)) <= Z.of_nat n ->
  exists slots, tr_run (repeat 0 n) ops = Some slots /\ Permutation (in_table slots) (alive [] (map event_of ops))).
Proof.
  intros H. destruct (H 1%nat [TCreate 100; TCreate 200; TDelete 100]) as (slots & E & P).
  - repeat constructor; cbn; lia.
  - vm_compute. discriminate.
  - vm_compute in E. injection E as <-. apply Permutation_length in P. vm_compute in P. discriminate.
Qed.
Print Assumptions C67_few_tasks_are_all_tracked_refuted.

Example C67_case : tr_run (repeat 0 3) [TCreate 100; TCreate 200; TDelete 100; TCreate 300; TCreate 400; TCreate 500; TDelete 500; TDelete 200] = Some [300; 0; 400].
Proof. reflexivity. Qed.

(** ** C68: FreeRTOS *)
Definition tasks_regions (sane : Z -> Z -> Z) (c : fr_cfg) (top : Z -> Z) (slots : list Z) : list (Z * Z) :=
  tcb_regions sane (fc_tcb c) slots ++ stack_regions sane (fc_tcb c) (fr_stack sane top (fc_stack c)) slots.
Definition tables (c : fr_cfg) (slots : list Z) : list (Z * Z) := [(fc_tbl c, 4 * zlen slots); (fc_wtbl c, 4 * zlen slots)].

(** First the control blocks of all valid tasks, then their stacks, then the two tables, cut to the array; invalid
    entries are scrubbed and the watermarks of the tasks whose stacks are taken are renewed. *)
Theorem C68_control_blocks_then_stacks : forall sane mem c wm top slots wms regs num,
  (forall t, In t slots -> valid sane (fc_tcb c) t = true -> holds mem t (top t)) -> zlen wms = zlen slots -> 0 <= num <= zlen regs ->
  let all := tasks_regions sane c top slots in
  fc_usage c = false \/ num <= zlen all \/ zlen all + 2 <= num ->
  let gs := take num (if fc_usage c && (zlen all <? num) then all ++ tables c slots else all) in
  exists slots' wms', fr_regions sane mem c wm slots wms regs num = Some (zlen gs, slots', wms', gs ++ drop (zlen gs) regs) /\
    scrubbed sane (fc_tcb c) slots slots' /\
    (zlen (tcb_regions sane (fc_tcb c) slots) < num -> slots' = map (fun t => if valid sane (fc_tcb c) t then t else 0) slots) /\
    renewed sane (fc_tcb c) num (fun t => if fc_usage c && negb (sane (top t) (fc_stack c) =? 0) then Some (wm t) else None)
      (fr_stack sane top (fc_stack c)) slots wms wms'.
Proof.
  intros sane mem c wm top slots wms regs num W LW HN all D gs.
  destruct (fr_regions_ok sane mem c wm top slots wms regs num) as (slots' & wms' & SC & M & RN & E & _); [intros; apply word_holds; auto|exact LW|exact HN|].
  exists slots', wms'. split; [exact (E D)|]. split; [exact SC|]. split; [exact M|exact RN].
Qed.
Print Assumptions C68_control_blocks_then_stacks.

(** With RAM in banks, all that is collected of tasks can be read, whatever the control blocks contain. *)
Theorem C68_only_readable_memory_is_collected : forall banks mem c top slots,
  Forall (fun b => is_u32 (fst b) /\ is_u32 (snd b)) banks -> (forall x, in_ram banks x -> exists b, mem x = Some b /\ is_u8 b) ->
  0 <= fc_tcb c -> 0 <= fc_stack c -> (forall t, In t slots -> 0 <= t /\ 0 <= top t) ->
  Forall (readable mem) (tasks_regions (tr_sanitize banks) c top slots).
Proof.
  intros banks mem c top slots W M T S P. apply (fr_readable (tr_sanitize banks) mem c top (Z.max (fc_tcb c) (fc_stack c))); [now apply sanitize_ok|lia|lia|exact P].
Qed.
Print Assumptions C68_only_readable_memory_is_collected.
(** the check of the ESP32 port as well, for sizes with which it does not wrap *)
Theorem C68_only_readable_memory_is_collected_esp : forall lo hi mem c top slots, is_u32 lo -> is_u32 hi ->
  (forall x, lo <= x < hi -> exists b, mem x = Some b /\ is_u8 b) ->
  0 <= fc_tcb c < 2 ^ 32 - hi -> 0 <= fc_stack c < 2 ^ 32 - hi -> (forall t, In t slots -> 0 <= t /\ 0 <= top t) ->
  Forall (readable mem) (tasks_regions (esp_sanitize lo hi) c top slots).
Proof.
  intros lo hi mem c top slots L H M T S P. apply (fr_readable (esp_sanitize lo hi) mem c top (2 ^ 32 - hi - 1)); [now apply esp_ok|lia|lia|exact P].
Qed.
Print Assumptions C68_only_readable_memory_is_collected_esp.

(** No read faults, whatever is in memory, when control blocks and banks are aligned to 4 bytes. *)
Theorem C68_never_faults : forall banks mem c wm slots wms regs num,
  Forall (fun b => is_u32 (fst b) /\ is_u32 (snd b) /\ fst b mod 4 = 0 /\ snd b mod 4 = 0) banks ->
  (forall x, in_ram banks x -> exists b, mem x = Some b /\ is_u8 b) -> 4 <= fc_tcb c -> Forall (fun t => t mod 4 = 0) slots ->
  fc_usage c = false -> zlen wms = zlen slots -> 0 <= num <= zlen regs ->
  exists n slots' wms' regs', fr_regions (tr_sanitize banks) mem c wm slots wms regs num = Some (n, slots', wms', regs') /\ 0 <= n <= num.
Proof.
  intros banks mem c wm slots wms regs num W M T A U LW HN.
  destruct (fr_regions_ok (tr_sanitize banks) mem c wm (top_of mem) slots wms regs num) as (slots' & wms' & _ & _ & _ & E & _).
  - intros t I V. rewrite Forall_forall in A. destruct (aligned_word banks mem (fc_tcb c) t W M T (A t I)) as (v & EV & _); [unfold valid in V; lia|].
    exact (top_of_ok _ _ _ EV).
  - exact LW.
  - exact HN.
  - cbn zeta in E. rewrite E by now left. do 4 eexists. split; [reflexivity|]. rewrite zlen_take.
    match goal with |- context [zlen ?l] => pose proof (zlen_nonneg l) end. lia.
Qed.
Print Assumptions C68_never_faults.

(** An entry that is not aligned faults at the end of a bank: the check passes for fewer than the 4 bytes read. *)
Theorem C68_never_faults_refuted : ~ (forall banks mem c wm slots wms regs num,
  Forall (fun b => is_u32 (fst b) /\ is_u32 (snd b)) banks -> (forall x, in_ram banks x -> exists b, mem x = Some b /\ is_u8 b) -> 4 <= fc_tcb c ->
  fc_usage c = false -> zlen wms = zlen slots -> 0 <= num <= zlen regs ->
  fr_regions (tr_sanitize banks) mem c wm slots wms regs num <> None).
Proof.
  intros H. apply (H [(4096, 64)] (fun x => if (4096 <=? x) && (x <? 4160) then Some 0 else None) (mk_fr 16 8 false 0 0) (fun _ => 0) [4158] [0] (fr_zero 4) 4).
  - repeat constructor; unfold is_u32; cbn; lia.
  - intros x (lo & len & [I|[]] & R). injection I as <- <-. exists 0. replace ((4096 <=? x) && (x <? 4160)) with true by lia.
    split; [reflexivity|unfold is_u8; lia].
  - cbn. lia.
  - reflexivity.
  - reflexivity.
  - vm_compute. split; discriminate.
  - vm_compute. reflexivity.
Qed.
Print Assumptions C68_never_faults_refuted.

(** With the tables of stack usage and exactly one entry left, two are written: one past the array. *)
Theorem C68_one_entry_left_overflows : forall sane mem c wm top slots wms regs num,
  (forall t, In t slots -> valid sane (fc_tcb c) t = true -> holds mem t (top t)) -> zlen wms = zlen slots -> 0 <= num <= zlen regs ->
  fc_usage c = true -> zlen (tasks_regions sane c top slots) = num - 1 ->
  if zlen regs =? num then fr_regions sane mem c wm slots wms regs num = None
  else exists slots' wms' regs', fr_regions sane mem c wm slots wms regs num = Some (num + 1, slots', wms', regs').
Proof.
  intros sane mem c wm top slots wms regs num W LW HN U A.
  destruct (fr_regions_ok sane mem c wm top slots wms regs num) as (slots' & wms' & _ & _ & _ & _ & E); [intros; apply word_holds; auto|exact LW|exact HN|].
  cbn zeta in E. rewrite (E U A). destruct (zlen regs =? num); eauto.
Qed.
Print Assumptions C68_one_entry_left_overflows.
Theorem C68_count_within_the_array_refuted : ~ (forall sane mem c wm slots wms regs num, zlen wms = zlen slots -> 0 <= num <= zlen regs ->
  (forall x, exists b, mem x = Some b /\ is_u8 b) -> exists n slots' wms' regs', fr_regions sane mem c wm slots wms regs num = Some (n, slots', wms', regs') /\ n <= num).
Proof.
  intros H. destruct (H (fun _ n => n) (fun _ => Some 0) (mk_fr 16 8 true 8192 8200) (fun _ => 5) [4096] [0] (fr_zero 3) 3) as (n & s & w & r & E & _).
  - reflexivity.
  - vm_compute. split; discriminate.
  - intros x. exists 0. split; [reflexivity|unfold is_u8; lia].
  - vm_compute in E. discriminate.
Qed.
Print Assumptions C68_count_within_the_array_refuted.

(** ** The ports using it.  [collected_tasks] is all of it. *)
Definition collected_tasks (sane : Z -> Z -> Z) (c : fr_cfg) (top : Z -> Z) (slots : list Z) : list (Z * Z) :=
  tasks_regions sane c top slots ++ (if fc_usage c then tables c slots else []).

(** The arrays of the ESP32 and ESP8266 ports have room for everything, and everything is collected. *)
Theorem C68_esp_collects_everything : forall sane mem c wm top stk crash four three slots wms,
  (forall t, In t slots -> valid sane (fc_tcb c) t = true -> holds mem t (top t)) -> zlen wms = zlen slots -> zlen four = 4 -> zlen three = 3 ->
  let gs := (crash, sane crash stk) :: collected_tasks sane c top slots ++ four ++ three in
  exists slots' wms' rest, esp_regions sane mem c wm stk crash four three slots wms = Some (zlen gs, slots', wms', gs ++ rest).
Proof.
  intros sane mem c wm top stk crash four three slots wms W LW L4 L3 gs.
  destruct (esp_regions_ok sane mem c wm top stk crash four three slots wms) as (_ & slots' & wms' & E); [intros; apply word_holds; auto|exact LW|exact L4|exact L3|].
  exists slots', wms'. eexists. exact E.
Qed.
Print Assumptions C68_esp_collects_everything.
Theorem C68_esp8266_collects_everything : forall sane mem c wm top crash bss slots wms,
  (forall t, In t slots -> valid sane (fc_tcb c) t = true -> holds mem t (top t)) -> zlen wms = zlen slots ->
  let gs := (crash, sane crash 512) :: bss :: collected_tasks sane c top slots in
  exists slots' wms' rest, esp8266_regions sane mem c wm crash bss slots wms = Some (zlen gs, slots', wms', gs ++ rest).
Proof.
  intros sane mem c wm top crash bss slots wms W LW gs.
  destruct (esp8266_ok sane mem c wm top crash bss slots wms) as (_ & slots' & wms' & E); [intros; apply word_holds; auto|exact LW|].
  exists slots', wms'. eexists. exact E.
Qed.
Print Assumptions C68_esp8266_collects_everything.

(** So has that of the PSoC 6 port, unless stack usage is computed, the crash was in an interrupt and the table of
    tasks is full of tasks with valid stacks: then it is written past its end. *)
Theorem C68_psoc6_collects_everything : forall sane mem c wm top stk crash psp bss slots wms,
  (forall t, In t slots -> valid sane (fc_tcb c) t = true -> holds mem t (top t)) -> zlen wms = zlen slots ->
  fc_usage c = false \/ psp = None \/ zlen (tasks_regions sane c top slots) < 2 * zlen slots ->
  let gs := (crash, sane crash stk) :: match psp with Some p => [(p, sane p 640)] | None => [] end ++ bss :: collected_tasks sane c top slots in
  exists slots' wms' rest, psoc6_regions sane mem c wm stk crash psp bss slots wms = Some (zlen gs, slots', wms', gs ++ rest).
Proof.
  intros sane mem c wm top stk crash psp bss slots wms W LW D gs.
  destruct (psoc6_ok sane mem c wm top stk crash psp bss slots wms) as (slots' & wms' & E); [intros; apply word_holds; auto|exact LW|exact D|].
  exists slots', wms', (drop (zlen gs) (fr_zero (2 * zlen slots + 4))). rewrite E.
  unfold gs, collected_tasks, tasks_regions, tables, fr_whole, fr_all, fr_tables. destruct psp; cbn [app]; rewrite ?app_assoc; reflexivity.
Qed.
Print Assumptions C68_psoc6_collects_everything.
Theorem C68_psoc6_overflows : forall sane mem c wm top stk crash p bss slots wms,
  (forall t, In t slots -> valid sane (fc_tcb c) t = true -> holds mem t (top t)) -> zlen wms = zlen slots ->
  fc_usage c = true -> zlen (tasks_regions sane c top slots) = 2 * zlen slots ->
  psoc6_regions sane mem c wm stk crash (Some p) bss slots wms = None.
Proof.
  intros sane mem c wm top stk crash p bss slots wms W LW U A.
  apply (psoc6_overflow sane mem c wm top); [intros; apply word_holds; auto|exact LW|exact U|exact A].
Qed.
Print Assumptions C68_psoc6_overflows.

(** Two tasks, one scrubbed, one whose stack is cut at the end of RAM. *)
Definition C68_mem (x : Z) : option Z :=
  if (4096 <=? x) && (x <? 8192) then Some (if x =? 4100 then 0xF8 else if x =? 4101 then 0x1F else if x =? 4109 then 0x11 else 0x00) else None.
Example C68_case :
  fr_regions (tr_sanitize [(4096, 4096)]) C68_mem (mk_fr 16 32 true 4200 4300) (fun t => t - 4000) [4100; 9000; 0; 4108] [0; 0; 0; 0] (fr_zero 7) 7 =
  Some (6, [4100; 0; 0; 4108], [100; 0; 0; 108],
        [(4100, 16); (4108, 16); (8184, 8); (4352, 32); (4200, 16); (4300, 16); (0, 0)]).
Proof. vm_compute. reflexivity. Qed.
Example C68_psoc6_case : psoc6_regions (tr_sanitize [(4096, 4096)]) C68_mem (mk_fr 16 32 true 4200 4300) (fun t => 1) 64 5000 (Some 6000) (4096, 4)
  [4100; 4108] [0; 0] = None.
Proof. vm_compute. reflexivity. Qed.

(** ** C69: Zephyr *)
Definition fields_in (mem : Z -> option Z) (c : zp_cfg) (sp t : Z) (th : thread) : Prop :=
  holds mem (t + sp) (th_sp th) /\ holds mem (t + zc_start c) (th_start th) /\ holds mem (t + zc_size c) (th_size th) /\ holds mem (t + zc_delta c) (th_delta th).
Definition z_tasks (sane : Z -> Z -> Z) (c : zp_cfg) (cur : Z) (th : Z -> thread) (slots : list Z) : list (Z * Z) :=
  tcb_regions sane (zc_tcb c) slots ++ stack_regions sane (zc_tcb c) (zp_stack sane (zc_full c) (zc_stack c) cur th) slots.
Definition z_tables (c : zp_cfg) (slots : list Z) : list (Z * Z) :=
  (if zc_usage c then [(zc_wtbl c, 4 * zlen slots)] else []) ++ [(zc_tbl c, 4 * zlen slots)].
Definition z_first (sane : Z -> Z -> Z) (c : zp_cfg) (o : zp_opts) (crash : Z) (psp : option Z) (ker : Z * Z) : list (Z * Z) :=
  (if zo_stack o then (crash, sane crash (zc_stack c)) :: match psp with Some p => [(p, sane p (zc_stack c + 128))] | None => [] end else []) ++
  (if zo_kernel o then [ker] else []).
Definition z_last (o : zp_opts) (data bss : Z * Z) : list (Z * Z) := (if zo_data o then [data] else []) ++ (if zo_bss o then [bss] else []).

(** Given the array asked for, all is collected in order and fits: stacks in use, kernel, control blocks, stacks, tables,
    data and bss. *)
Theorem C69_everything_is_collected : forall sane mem c o sp cur th m crash psp ker data bss slots wms regs num,
  checks (2 ^ 32) sane mem -> zc_info c = true -> zc_sp c = Some sp ->
  (forall t, In t slots -> valid sane (zc_tcb c) t = true ->
     fields_in mem c sp t (th t) /\ sound (th t) /\ bytes_unused (zc_sentinel c) mem (th t) (m t)) ->
  zlen wms = zlen slots -> zp_max o (zlen slots) <= num <= zlen regs ->
  let gs := z_first sane c o crash psp ker ++
            (if zo_tasks o then z_tasks sane c cur th slots ++ z_tables c slots else []) ++ z_last o data bss in
  zlen gs <= zp_max o (zlen slots) /\ exists slots' wms' rest,
    zp_regions sane mem c o cur crash psp ker data bss slots wms regs num = Some (zlen gs, slots', wms', gs ++ rest).
Proof.
  intros sane mem c o sp cur th m crash psp ker data bss slots wms regs num CH EI EO W LW HN gs.
  pose proof (regions_ok sane mem c o cur (zp_f sane c cur th m) crash psp ker data bss slots wms regs num) as R.
  cbn zeta in R. destruct R as (L & slots' & wms' & E); [|exact LW|exact HN|].
  { intros t I V. destruct (W t I V) as (F & S & B). exact (body_ok sane mem c sp cur th m t CH EI EO F S B). }
  assert (zp_tasks sane c o (zp_f sane c cur th m) slots = if zo_tasks o then z_tasks sane c cur th slots ++ z_tables c slots else []) as ET.
  { unfold zp_tasks, z_tasks. destruct (zo_tasks o); [|reflexivity]. rewrite <- app_assoc. f_equal. f_equal.
    apply stack_regions_ext. intros t. apply zp_f_stack. }
  rewrite ET in L, E. split; [exact L|]. exists slots', wms'. eexists. exact E.
Qed.
Print Assumptions C69_everything_is_collected.

(** In a smaller array nothing at all is written. *)
Theorem C69_small_array_is_refused : forall sane mem c o cur crash psp ker data bss slots wms regs num, num < zp_max o (zlen slots) ->
  zp_regions sane mem c o cur crash psp ker data bss slots wms regs num = Some (0, slots, wms, regs).
Proof. intros. unfold zp_regions. now replace (num <? zp_max o (zlen slots)) with true by lia. Qed.
Print Assumptions C69_small_array_is_refused.

(** The regions of the tasks alone, as many as fit, then the tables; and what becomes of table and watermarks. *)
Theorem C69_task_regions : forall sane mem c sp cur th m slots wms regs num,
  checks (2 ^ 32) sane mem -> zc_info c = true -> zc_sp c = Some sp ->
  (forall t, In t slots -> valid sane (zc_tcb c) t = true ->
     fields_in mem c sp t (th t) /\ sound (th t) /\ bytes_unused (zc_sentinel c) mem (th t) (m t)) ->
  zlen wms = zlen slots -> 0 < num <= zlen regs ->
  let gs := take num (z_tasks sane c cur th slots) ++ z_tables c slots in
  let stack := zp_stack sane (zc_full c) (zc_stack c) cur th in
  let running t := negb (zc_full c) && (t =? cur) in
  zlen gs <= zlen regs ->
  exists slots' wms', zp_task_regions sane mem c cur slots wms regs num = Some (zlen gs, slots', wms', gs ++ drop (zlen gs) regs) /\
    scrubbed sane (zc_tcb c) slots slots' /\
    (zlen (tcb_regions sane (zc_tcb c) slots) < num -> slots' = map (fun t => if valid sane (zc_tcb c) t then t else 0) slots) /\
    renewed sane (zc_tcb c) num
      (fun t => if zc_usage c && (running t || negb (zlen (stack t) =? 0)) then Some (watermark sane (th t) (m t)) else None) stack slots wms wms'.
Proof.
  intros sane mem c sp cur th m slots wms regs num CH EI EO W LW HN gs stack running LG.
  pose proof (task_regions_ok sane mem c cur (zp_f sane c cur th m) slots wms regs num) as R. cbn zeta in R.
  assert (stack_regions sane (zc_tcb c) (fun t => opt (snd (zp_f sane c cur th m t))) slots = stack_regions sane (zc_tcb c) stack slots) as ES
    by (apply stack_regions_ext; intros t; apply zp_f_stack).
  rewrite ES in R. destruct R as (slots' & wms' & SC & M & RN & E); [|exact LW|exact HN|exact LG|].
  { intros t I V. destruct (W t I V) as (F & S & B). exact (body_ok sane mem c sp cur th m t CH EI EO F S B). }
  exists slots', wms'. split; [exact E|]. split; [exact SC|]. split; [exact M|].
  eapply renewed_ext; [|  |exact RN].
  - intros t. apply zp_f_stack.
  - intros t. unfold zp_f, running. fold stack. destruct (negb (zc_full c) && (t =? cur)); cbn [orb fst].
    + now rewrite andb_true_r.
    + destruct (stack t) as [|g l]; cbn [fst].
      * rewrite zlen_nil, Z.eqb_refl. cbn [negb]. now rewrite andb_false_r.
      * rewrite zlen_cons. pose proof (zlen_nonneg l). replace (1 + zlen l =? 0) with false by lia. now rewrite andb_true_r.
Qed.
Print Assumptions C69_task_regions.

(** Whatever control blocks contain, no read faults and all stacks collected can be read, as long as each control block
    that is in RAM is there as a whole. *)
Theorem C69_never_faults : forall banks mem c o cur crash psp ker data bss slots wms regs num,
  Forall (fun b => is_u32 (fst b) /\ is_u32 (snd b)) banks -> (forall x, in_ram banks x -> exists b, mem x = Some b /\ is_u8 b) ->
  0 <= zc_tcb c < 2 ^ 32 -> 0 <= zc_stack c < 2 ^ 32 ->
  match zc_sp c with Some o => 0 <= o <= zc_tcb c - 4 | None => True end ->
  0 <= zc_start c <= zc_tcb c - 4 -> 0 <= zc_size c <= zc_tcb c - 4 -> 0 <= zc_delta c <= zc_tcb c - 4 -> zc_sentinel c = false ->
  (forall t, In t slots -> 0 <= t /\ (valid (tr_sanitize banks) (zc_tcb c) t = true -> tr_sanitize banks t (zc_tcb c) = zc_tcb c)) ->
  zlen wms = zlen slots -> zp_max o (zlen slots) <= num <= zlen regs ->
  exists n slots' wms' regs' stacks,
    zp_regions (tr_sanitize banks) mem c o cur crash psp ker data bss slots wms regs num = Some (n, slots', wms', regs') /\ n <= zp_max o (zlen slots) /\
    take n regs' = z_first (tr_sanitize banks) c o crash psp ker ++
      (if zo_tasks o then tcb_regions (tr_sanitize banks) (zc_tcb c) slots ++ stacks ++ z_tables c slots else []) ++ z_last o data bss /\
    Forall (readable mem) stacks.
Proof.
  intros banks mem c o cur crash psp ker data bss slots wms regs num W M T S HO H1 H2 H3 HS P LW HN.
  set (sane := tr_sanitize banks) in *. assert (checks (2 ^ 32) sane mem) as CH by now apply sanitize_ok.
  set (f := fun t => match zp_body sane mem c cur t with Some r => r | None => (None, None) end).
  assert (forall t, In t slots -> valid sane (zc_tcb c) t = true -> zp_body sane mem c cur t = Some (f t) /\ Forall (readable mem) (opt (snd (f t)))) as B.
  { intros t I V. destruct (P t I) as (H0 & HT). destruct (body_some sane mem c cur t CH H0 (HT V) T S HO H1 H2 H3 ltac:(rewrite HS; discriminate)) as (w & g & E & R).
    unfold f. rewrite E. split; [reflexivity|exact R]. }
  pose proof (regions_ok sane mem c o cur f crash psp ker data bss slots wms regs num) as R. cbn zeta in R.
  destruct R as (L & slots' & wms' & E); [intros t I V; exact (proj1 (B t I V))|exact LW|exact HN|].
  eexists. exists slots', wms'. eexists. exists (stack_regions sane (zc_tcb c) (fun t => opt (snd (f t))) slots).
  split; [exact E|]. split; [exact L|]. split.
  - rewrite take_app_exact by reflexivity. unfold zp_tasks. reflexivity.
  - apply Forall_flat_map, Forall_forall. intros t I. destruct (valid sane (zc_tcb c) t) eqn:V; [exact (proj2 (B t I V))|constructor].
Qed.
Print Assumptions C69_never_faults.

(** A control block cut off by the end of RAM passes the check and is read past it. *)
Theorem C69_cut_control_block_is_not_read_refuted : ~ (forall banks mem c o cur crash psp ker data bss slots wms regs num,
  Forall (fun b => is_u32 (fst b) /\ is_u32 (snd b)) banks -> (forall x, in_ram banks x -> exists b, mem x = Some b /\ is_u8 b) ->
  match zc_sp c with Some o => 0 <= o <= zc_tcb c - 4 | None => True end -> zc_sentinel c = false ->
  zlen wms = zlen slots -> zp_max o (zlen slots) <= num <= zlen regs ->
  zp_regions (tr_sanitize banks) mem c o cur crash psp ker data bss slots wms regs num <> None).
Proof.
  intros H. apply (H [(4096, 64)] (fun x => if (4096 <=? x) && (x <? 4160) then Some 0 else None)
    (mk_zp 32 8 (Some 16) 20 24 28 true false false false 0 0) (mk_zo false false true false false) 0 0 None (0, 0) (0, 0) (0, 0) [4152] [0] (fr_zero 4) 4).
  - repeat constructor; unfold is_u32; cbn; lia.
  - intros x (lo & len & [I|[]] & R). injection I as <- <-. exists 0. replace ((4096 <=? x) && (x <? 4160)) with true by lia.
    split; [reflexivity|unfold is_u8; lia].
  - cbn. lia.
  - reflexivity.
  - reflexivity.
  - vm_compute. split; discriminate.
  - vm_compute. reflexivity.
Qed.
Print Assumptions C69_cut_control_block_is_not_read_refuted.

(** With a sentinel, an empty stack at the very end of the address space is searched from address 0 on. *)
Theorem C69_never_faults_with_sentinel_refuted : ~ (forall banks mem c o cur crash psp ker data bss slots wms regs num,
  Forall (fun b => is_u32 (fst b) /\ is_u32 (snd b)) banks -> (forall x, in_ram banks x -> exists b, mem x = Some b /\ is_u8 b) ->
  match zc_sp c with Some o => 0 <= o <= zc_tcb c - 4 | None => True end ->
  0 <= zc_start c <= zc_tcb c - 4 -> 0 <= zc_size c <= zc_tcb c - 4 -> 0 <= zc_delta c <= zc_tcb c - 4 ->
  (forall t, In t slots -> tr_sanitize banks t (zc_tcb c) = zc_tcb c) ->
  zlen wms = zlen slots -> zp_max o (zlen slots) <= num <= zlen regs ->
  zp_regions (tr_sanitize banks) mem c o cur crash psp ker data bss slots wms regs num <> None).
Proof.
  intros H. apply (H [(4096, 64)] (fun x => if (4096 <=? x) && (x <? 4160) then Some (if (x / 4 =? 1025) then 255 else 0) else None)
    (mk_zp 16 8 (Some 0) 4 8 12 true false true true 0 0) (mk_zo false false true false false) 4096 0 None (0, 0) (0, 0) (0, 0) [4096] [0] (fr_zero 4) 4).
  - repeat constructor; unfold is_u32; cbn; lia.
  - intros x (lo & len & [I|[]] & R). injection I as <- <-. exists (if x / 4 =? 1025 then 255 else 0).
    replace ((4096 <=? x) && (x <? 4160)) with true by lia. split; [reflexivity|unfold is_u8; destruct (x / 4 =? 1025); lia].
  - cbn. lia.
  - cbn. lia.
  - cbn. lia.
  - cbn. lia.
  - intros t [<-|[]]. reflexivity.
  - reflexivity.
  - vm_compute. split; discriminate.
  - vm_compute. reflexivity.
Qed.
Print Assumptions C69_never_faults_with_sentinel_refuted.

(** memfault_zephyr_get_task_regions() by itself may write and return more than it is given. *)
Theorem C69_count_within_the_array_refuted : ~ (forall sane mem c cur slots wms regs num n slots' wms' regs', zlen wms = zlen slots -> 0 <= num <= zlen regs ->
  zp_task_regions sane mem c cur slots wms regs num = Some (n, slots', wms', regs') -> n <= num).
Proof.
  intros H. enough (3 <= 1) by lia.
  apply (H (fun _ n => n) (fun _ => Some 0) (mk_zp 32 8 (Some 16) 20 24 28 true false true false 8192 8200) 4096 [4096] [0] (fr_zero 3) 1 3 [4096] [0]
    [(4096, 32); (8200, 4); (8192, 4)]).
  - reflexivity.
  - vm_compute. split; discriminate.
  - vm_compute. reflexivity.
Qed.
Print Assumptions C69_count_within_the_array_refuted.

(** With a sentinel a stack used up is reported to have 4 bytes left. *)
Theorem C69_used_up_stack_is_marked_refuted : ~ (forall sane mem c th, (forall a n, sane a n = n) -> sound th -> 4 <= th_size th ->
  (forall x, mem x = Some 0) -> zp_unused sane mem c (th_start th) (th_size th) = Some (2 ^ 32 - 1)).
Proof.
  intros H. specialize (H (fun _ n => n) (fun _ => Some 0) (mk_zp 32 8 (Some 16) 20 24 28 true false true true 0 0) (mk_th 4096 4096 64 0)).
  enough (Some 4 = Some (2 ^ 32 - 1)) as X by (vm_compute in X; discriminate). rewrite <- H; [vm_compute; reflexivity|reflexivity| |cbn; lia|reflexivity].
  unfold sound. cbn. lia.
Qed.
Print Assumptions C69_used_up_stack_is_marked_refuted.

(** Two threads at 4100 (running) and 4140, stacks of 16 bytes at 4200 and 4220; the second has used all but 8 bytes. *)
Definition C69_mem (x : Z) : option Z :=
  if (4096 <=? x) && (x <? 8192) then Some
    (if (4200 <=? x) && (x <? 4206) then 0xAA else if (4220 <=? x) && (x <? 4228) then 0xAA else
     if x =? 4116 then 0x6E else if x =? 4117 then 0x10 else if x =? 4120 then 0x68 else if x =? 4121 then 0x10 else if x =? 4124 then 16 else
     if x =? 4156 then 0x84 else if x =? 4157 then 0x10 else if x =? 4160 then 0x7C else if x =? 4161 then 0x10 else if x =? 4164 then 16 else 0) else None.
Example C69_case :
  zp_regions (tr_sanitize [(4096, 4096)]) C69_mem (mk_zp 32 64 (Some 16) 20 24 28 true false true false 5000 5100) (mk_zo true true true true true)
    4100 4206 (Some 4300) (4400, 10) (4500, 20) (4600, 30) [4100; 0; 4140] [7; 7; 7] (fr_zero 13) 13 =
  Some (10, [4100; 0; 4140], [6; 7; 8],
        [(4206, 64); (4300, 192); (4400, 10); (4100, 32); (4140, 32); (4228, 8); (5100, 12); (5000, 12); (4500, 20); (4600, 30); (0, 0); (0, 0); (0, 0)]).
Proof. vm_compute. reflexivity. Qed.
Example C69_case_full :
  zp_task_regions (tr_sanitize [(4096, 4096)]) C69_mem (mk_zp 32 64 (Some 16) 20 24 28 true true true false 5000 5100) 4100 [4100; 9000; 4140] [7; 7; 7] (fr_zero 6) 4 =
  Some (6, [4100; 0; 4140], [6; 7; 8], [(4100, 32); (4140, 32); (4200, 16); (4220, 16); (5100, 12); (5000, 12)]).
Proof. vm_compute. reflexivity. Qed.
