(** C113: the memory that the remaining ports put into a coredump. *)
From Verif Require Import Base TaskRegions TaskRegionsSpec PortCapture PortCaptureSpec PortCaptureProofs.

(** C113: Particle, for every list of threads whose control blocks can be read: the stack that was active,
    then the control blocks, then the stacks of the threads, each cut to RAM or left out, as far as 16 go. *)
Theorem C113_particle_threads : forall sane mem top want crash threads, (forall t, In (Some t) threads -> holds mem t (top t)) ->
  answers 16 (pa_regions sane mem true want crash threads) (take 16 (particle_wants sane top want crash threads)).
Proof. intros sane mem top want crash threads H. apply particle_ok. intros t IN. exact (TaskRegionsProofs.word_holds _ _ _ (H t IN)). Qed.
Print Assumptions C113_particle_threads.
(** All of that can be read. *)
Theorem C113_particle_readable : forall banks mem top want crash threads,
  Forall (fun b => is_u32 (fst b) /\ is_u32 (snd b)) banks -> (forall x, in_ram banks x -> exists b, mem x = Some b /\ is_u8 b) ->
  0 <= crash -> 0 <= want -> (forall t, In (Some t) threads -> 0 <= t /\ 0 <= top t) ->
  Forall (readable mem) (particle_wants (tr_sanitize banks) top want crash threads).
Proof.
  intros banks mem top want crash threads B M C W T.
  assert (P : forall a n, 0 <= a -> 0 <= n -> Forall (readable mem) (part (tr_sanitize banks) a n)).
  { intros a n A N. unfold part. destruct (_ =? 0); [apply Forall_nil|]. apply Forall_cons; [exact (checked_ok banks mem n a B M A N)|apply Forall_nil]. }
  assert (H : forall t, In t (handles threads) -> 0 <= t /\ 0 <= top t).
  { intros t IN. apply in_flat_map in IN as ([u|] & I1 & I2); [|destruct I2]. destruct I2 as [<-|[]]. exact (T u I1). }
  unfold particle_wants. apply Forall_app. split; [apply Forall_cons; [apply (checked_ok banks mem 512 crash B M C); lia|apply Forall_nil]|].
  apply Forall_app. split; apply Forall_flat_map, Forall_forall; intros t IN; destruct (H t IN); apply P; lia.
Qed.
Print Assumptions C113_particle_readable.

(** Da1469x, Mynewt and RAM storage: the stack that was active, as much as can be read. *)
Theorem C113_checked_stack : forall banks mem want crash, Forall (fun b => is_u32 (fst b) /\ is_u32 (snd b)) banks ->
  (forall x, in_ram banks x -> exists b, mem x = Some b /\ is_u8 b) -> 0 <= crash -> 0 <= want ->
  readable mem (checked_stack (tr_sanitize banks) want crash).
Proof. exact checked_ok. Qed.
Print Assumptions C113_checked_stack.
(** nRF5 and DA145xx: exactly the stack from the place of the crash to its top, if that is not above. *)
Theorem C113_whole_stack : forall top crash, is_u32 top -> 0 <= crash <= top -> forall x, inside (to_the_top top crash) x <-> crash <= x < top.
Proof. exact to_top_ok. Qed.
Print Assumptions C113_whole_stack.
(** Mynewt: the areas of the board, as many as the array holds. *)
Theorem C113_areas : forall cap areas, 0 <= cap -> answers cap (my_regions cap areas) (take cap areas).
Proof. exact my_ok. Qed.
Print Assumptions C113_areas.
(** ESP8266: the array holds all regions; besides the stack they lie in RAM, and they hold data, bss and the
    heaps. *)
Theorem C113_esp8266_all_ram : forall sane n iram heap crash l, 1 <= n -> 0 <= iram <= 0x100000 -> linked iram l ->
  exists gs, answers (n + 5) (esp8266_all sane n iram heap crash l) ((crash, sane crash 512) :: gs) /\
    Forall (fun g => forall x, inside g x -> in_ram (esp8266_ram iram) x) gs /\
    (forall x, ld_data l <= x < ld_data_end l \/ ld_bss l <= x < 0x40000000 \/ ld_ibss l <= x < ld_ibss_end l \/
               (heap = true /\ ld_iram_end l <= x < 0x40100000 + iram) -> exists g, In g gs /\ inside g x).
Proof. exact esp8266_ok_all. Qed.
Print Assumptions C113_esp8266_all_ram.

(** ** What is not true *)
Definition c_ram : list (Z * Z) := [(0x20000000, 0x40000)].
Definition c_mem (x : Z) : option Z := if (0x20000000 <=? x) && (x <? 0x20040000) then Some 0 else None.
Lemma c_reads x : in_ram c_ram x -> exists b, c_mem x = Some b /\ is_u8 b.
Proof. intros (lo & len & [E|[]] & X). injection E as <- <-. exists 0. unfold c_mem. replace (_ && _) with true by lia. split; [reflexivity|unfold is_u8; lia]. Qed.
Lemma c_banks : Forall (fun b => is_u32 (fst b) /\ is_u32 (snd b)) c_ram.
Proof. apply Forall_cons; [unfold is_u32; cbn; lia|apply Forall_nil]. Qed.
(** Particle: a thread whose handle is not in RAM has no region for its control block, yet the control block
    is read for its stack (memfault.cpp:396 comes before any check): a fault in the fault handler. *)
Theorem C113_particle_never_faults_refuted : ~ (forall banks mem want crash threads,
  Forall (fun b => is_u32 (fst b) /\ is_u32 (snd b)) banks -> (forall x, in_ram banks x -> exists b, mem x = Some b /\ is_u8 b) ->
  0 <= crash -> 0 <= want -> pa_regions (tr_sanitize banks) mem true want crash threads <> None).
Proof. intros H. apply (H c_ram c_mem 256 0x20001000 [Some 0xA5A5A5A4] c_banks c_reads ltac:(lia) ltac:(lia)). vm_compute. reflexivity. Qed.
Print Assumptions C113_particle_never_faults_refuted.
(** Particle: with 15 threads there is no room for any stack. *)
Theorem C113_particle_every_stack_refuted : ~ (forall sane mem top want crash threads, (forall t, In (Some t) threads -> holds mem t (top t)) ->
  (forall a n, sane a n = n) -> 0 < want ->
  forall t, In (Some t) threads -> exists n regs, pa_regions sane mem true want crash threads = Some (n, regs) /\ In (top t, want) (take n regs)).
Proof.
  intros H. set (l := map (fun k => Some (0x20000000 + 4 * k)) (zrange 15)).
  assert (R : forall t, In (Some t) l -> holds c_mem t 0).
  { intros t IN. apply in_map_iff in IN as (k & E & K). injection E as <-. cbn in K. split; [unfold is_u32; lia|].
    intros j J. unfold c_mem. replace (_ && _) with true by lia. rewrite Z.div_0_l by (apply Z.pow_nonzero; lia). reflexivity. }
  destruct (H (fun _ n => n) c_mem (fun _ => 0) 256 0x20001000 l R (fun _ _ => eq_refl) ltac:(lia) 0x20000000 ltac:(left; reflexivity)) as (n & regs & E & IN).
  vm_compute in E. injection E as <- <-. vm_compute in IN. intuition congruence.
Qed.
Print Assumptions C113_particle_every_stack_refuted.
(** nRF5 and DA145xx do not check the place of the crash (nrf5_coredump_regions.c:75-76): above the top of
    the stack the size wraps, and the coredump is to read nearly all of the address space. *)
Theorem C113_stack_readable_refuted : ~ (forall banks mem top crash, Forall (fun b => is_u32 (fst b) /\ is_u32 (snd b)) banks ->
  (forall x, in_ram banks x -> exists b, mem x = Some b /\ is_u8 b) -> in_ram banks (top - 1) -> in_ram banks crash ->
  readable mem (to_the_top top crash)).
Proof.
  intros H. assert (R : forall x, 0x20000000 <= x < 0x20040000 -> in_ram c_ram x) by (intros x X; exists 0x20000000, 0x40000; split; [left; reflexivity|lia]).
  destruct (H c_ram c_mem 0x20010000 0x20010010 c_banks c_reads (R (0x20010000 - 1) ltac:(lia)) (R 0x20010010 ltac:(lia)) 0x20040000) as (b & E & _).
  - vm_compute. split; [discriminate|reflexivity].
  - vm_compute in E. discriminate.
Qed.
Print Assumptions C113_stack_readable_refuted.
(** Memory that goes on in the next bank is cut at the end of the first (DA145xx, :71-77). *)
Theorem C113_cut_at_end_of_ram_refuted : ~ (forall banks a n, 0 <= n -> (forall x, a <= x < a + n -> in_ram banks x) -> tr_sanitize banks a n = n).
Proof.
  intros H. assert (E : tr_sanitize [(0x07FC0000, 0x4000); (0x07FC4000, 0x2000)] 0x07FC3F00 512 = 512); [|vm_compute in E; discriminate].
  apply H; [lia|]. intros x X.
  destruct (Z_lt_le_dec x 0x07FC4000); [exists 0x07FC0000, 0x4000|exists 0x07FC4000, 0x2000]; (split; [cbn; auto|lia]).
Qed.
Print Assumptions C113_cut_at_end_of_ram_refuted.
(** Mynewt: areas past the third are left out without a word (syscfg.yml:54-56). *)
Theorem C113_every_area_refuted : ~ (forall areas, exists n regs, my_regions 3 areas = Some (n, regs) /\ forall g, In g areas -> In g (take n regs)).
Proof.
  intros H. destruct (H [(1, 1); (2, 1); (3, 1); (4, 1)]) as (n & regs & E & A). vm_compute in E. injection E as <- <-.
  specialize (A (4, 1) ltac:(cbn; auto)). vm_compute in A. intuition congruence.
Qed.
Print Assumptions C113_every_area_refuted.

Example C113_case :
  pa_regions (tr_sanitize c_ram) (fun x => if x =? 0x20000103 then Some 0x20 else if x =? 0x20000102 then Some 3 else c_mem x) true 256 0x2003FF00 [Some 0x20000100; None] =
    Some (3, [(0x2003FF00, 256); (0x20000100, 200); (0x20030000, 256)] ++ fr_zero 13) /\
  to_the_top 0x20010000 0x2000F000 = (0x2000F000, 0x1000) /\
  checked_stack (tr_sanitize c_ram) 512 0x10 = (0x10, 0) /\
  my_regions 3 [(7, 8)] = Some (1, [(7, 8); (0, 0); (0, 0)]) /\
  esp8266_all (tr_sanitize (esp8266_ram 0xC000)) 2 0xC000 true 0x3FFFFF00 (mk_ld 0x40108000 0x40108100 0x3FFE9000 0x3FFEA000 0x3FFE8000 0x3FFE8800 0x40109000) =
    Some (6, [(0x3FFFFF00, 256); (0x40108000, 256); (0x3FFE9000, 0x1000); (0x3FFE8000, 0x800); (0x3FFEA000, 0x16000); (0x40109000, 0x3000); (0, 0)]).
Proof. vm_compute. repeat split; reflexivity. Qed.
