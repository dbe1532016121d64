(** C122: coredumps made by a debugger *)
From Coq Require Import String Sorting.Sorted.
From Verif Require Import Base GdbCoredump GdbCoredumpSpec FaultShim FaultShimSpec GdbCoredumpProofs Props_Fault.
Open Scope string_scope.
Open Scope list_scope.
Open Scope Z_scope.

Definition core_blocks (w : writer) (t : Z) : list (Z * Z * list Z) :=
  map (fun r => (0, 0, concat (map (fun n => match r n with Some b => b | None => word 0 end) (w_names w)))) (w_regs w)
  ++ [(2, 0, w_serial w); (10, 0, w_version w); (11, 0, w_type w); (4, 0, w_hw w); (7, 0, word (w_machine w)); (5, 0, word (w_reason w)); (1, 0xFFFFFFFC, word t)]
  ++ map (fun s => (1, fst s, snd s)) (w_sections w)
  ++ match w_mpu w with Some (x :: d) => [(9, 0, x :: d)] | _ => [] end.
(** A file that is written is a coredump of version 1 with its size in the header and exactly these blocks. *)
Theorem C122_file : forall w t1 t2 f, write_core w t1 t2 = Some f -> parse_core f = Some (core_blocks w t2).
Proof.
  intros w t1 t2 f H. unfold write_core in H. apply bind_inv in H as (f1 & H1 & H). unfold write_file in *.
  repeat match goal with Q : bind _ _ = Some _ |- _ => apply bind_inv in Q as (? & ? & Q) end.
  repeat match goal with Q : pack_I _ = Some _ |- _ => apply pack_word in Q as [-> ?] end.
  match goal with Q : all_blocks ?l = Some ?b, R : Some (word 1163022147 ++ word 1 ++ word (zlen f1) ++ ?b) = Some f |- _ => rename Q into AB2; rename R into RF; set (l2 := l) in * end.
  injection RF as <-. injection H1 as <-. 
  match goal with Q : all_blocks ?l = Some ?b, R : all_blocks l2 = Some ?c |- _ => lazymatch l with l2 => fail | _ => rename Q into AB1; rename b into b1; rename c into b2 end end.
  assert (LEN : zlen (word 1163022147 ++ word 1 ++ word 0 ++ b1) = zlen (word 1163022147 ++ word 1 ++ word (zlen (word 1163022147 ++ word 1 ++ word 0 ++ b1)) ++ b2)).
  { rewrite !zlen_app, !zlen_word. rewrite (all_blocks_len _ _ AB1), (all_blocks_len _ _ AB2). unfold l2. rewrite !fold_right_app. cbn [fold_right fst snd app]. rewrite !zlen_word. reflexivity. }
  set (N := zlen (word 1163022147 ++ word 1 ++ word 0 ++ b1)) in *. set (F := word 1163022147 ++ word 1 ++ word N ++ b2) in *.
  assert (NR : 0 <= N < 4294967296) by (match goal with Q : 0 <= zlen _ < 4294967296 |- _ => exact Q end).
  match goal with |- parse_core ?X = _ => change X with F end. unfold parse_core. clearbody N.
  assert (T0 : take 4 F = word 1163022147) by (apply take_app_exact; reflexivity).
  assert (T4 : take 4 (drop 4 F) = word 1) by (unfold F; rewrite (drop_app_exact 4 (word 1163022147)) by reflexivity; apply take_app_exact; reflexivity).
  assert (T8 : take 4 (drop 8 F) = word N).
  { unfold F. rewrite (app_assoc (word 1163022147)), (drop_app_exact 8 (word 1163022147 ++ word 1)) by reflexivity. apply take_app_exact. reflexivity. }
  assert (T12 : drop 12 F = b2).
  { unfold F. rewrite (app_assoc (word 1163022147)), (app_assoc (word 1163022147 ++ word 1)). apply drop_app_exact. reflexivity. }
  rewrite T0, T4, T8, T12, !number_word by lia. rewrite <- LEN.
  assert (LF : 12 + zlen b2 = N) by (rewrite LEN; unfold F; rewrite !zlen_app, !zlen_word; lia). pose proof (zlen_nonneg b2).
  replace ((12 <=? N) && (1163022147 =? 1163022147) && (1 =? 1) && (N =? N)) with true by lia.
  rewrite (parse_all l2 b2 AB2).
  - unfold l2, core_blocks. rewrite !map_app, !map_map. cbn [map fst snd]. f_equal. f_equal.
    + apply map_ext. intros r. f_equal. unfold concat_regs. rewrite flat_map_concat_map. reflexivity.
    + f_equal. f_equal. destruct (w_mpu w) as [[|? ?]|]; reflexivity.
  - apply Forall_forall. intros x X. unfold l2 in X. clear - X. rewrite !in_app_iff, !in_map_iff in X.
    destruct X as [(? & <- & _)|[X|[(? & <- & _)|X]]]; [cbn; lia| |cbn; lia|destruct (w_mpu w) as [[|? ?]|]; cbn in X; [contradiction|destruct X as [<-|[]]; cbn; lia|contradiction]].
    cbn [In] in X. repeat (destruct X as [<-|X]; [cbn [fst]; lia|]). contradiction.
  - pose proof (all_blocks_count l2 b2 AB2) as G. clear - G LF LEN. unfold zlen in *. lia.
Qed.
Print Assumptions C122_file.
(** It is written when everything fits into 32 bits. *)
Theorem C122_file_written : forall w t1 t2, is_u32 t1 -> is_u32 t2 -> is_u32 (w_machine w) -> is_u32 (w_reason w) ->
  Forall (fun s => is_u32 (fst s)) (w_sections w) ->
  12 + fold_right (fun b n => 12 + zlen (snd b) + n) 0 (core_blocks w t2) < 4294967296 ->
  exists f, write_core w t1 t2 = Some f /\ zlen f = 12 + fold_right (fun b n => 12 + zlen (snd b) + n) 0 (core_blocks w t2).
Proof.
  intros w t1 t2 U1 U2 UM UR US SZ.
  set (L := fun t => map (fun r => (0, concat_regs (w_names w) r, 0)) (w_regs w)
     ++ [(2, w_serial w, 0); (10, w_version w, 0); (11, w_type w, 0); (4, w_hw w, 0); (7, word (w_machine w), 0); (5, word (w_reason w), 0); (1, word t, 0xFFFFFFFC)]
     ++ map (fun s => (1, snd s, fst s)) (w_sections w)
     ++ match w_mpu w with Some (x :: d) => [(9, x :: d, 0)] | _ => [] end).
  assert (EQ : forall t, core_blocks w t = map (fun x => (fst (fst x), snd x, snd (fst x))) (L t)).
  { intros t. unfold L, core_blocks. rewrite !map_app, !map_map. cbn [map fst snd]. f_equal.
    - apply map_ext. intros r. unfold concat_regs. rewrite flat_map_concat_map. reflexivity.
    - f_equal. f_equal. destruct (w_mpu w) as [[|? ?]|]; reflexivity. }
  assert (FR : forall l : list (Z * list Z * Z), fold_right (fun b n => 12 + zlen (snd b) + n) 0 (map (fun x => (fst (fst x), snd x, snd (fst x))) l) = fold_right (fun x n => 12 + zlen (snd (fst x)) + n) 0 l).
  { induction l as [|x l IH]; [reflexivity|]. cbn [map fold_right snd]. now rewrite IH. }
  rewrite EQ, FR in *.
  assert (SAME : forall t, fold_right (fun x n => 12 + zlen (snd (fst x)) + n) 0 (L t) = fold_right (fun x n => 12 + zlen (snd (fst x)) + n) 0 (L t2)).
  { intros t. unfold L. rewrite !fold_right_app. cbn [fold_right fst snd]. rewrite !zlen_word. reflexivity. }
  assert (BIG : forall (l : list (Z * list Z * Z)) x, In x l -> zlen (snd (fst x)) <= fold_right (fun x n => 12 + zlen (snd (fst x)) + n) 0 l).
  { assert (P : forall l : list (Z * list Z * Z), 0 <= fold_right (fun x n => 12 + zlen (snd (fst x)) + n) 0 l) by (induction l as [|x l IH]; cbn [fold_right]; [lia|pose proof (zlen_nonneg (snd (fst x))); lia]).
    induction l as [|y l IH]; intros x []; cbn [fold_right]; [subst; specialize (P l); lia|]. specialize (IH x H). pose proof (zlen_nonneg (snd (fst y))). lia. }
  assert (OK : forall t, exists b, all_blocks (L t) = Some b).
  { intros t. apply all_blocks_some. apply Forall_forall. intros x X. split.
    - unfold L in X. rewrite !in_app_iff, !in_map_iff in X.
      destruct X as [(? & <- & _)|[X|[(q & <- & Q)|X]]]; [unfold is_u32; cbn; lia| |rewrite Forall_forall in US; exact (US q Q)|destruct (w_mpu w) as [[|? ?]|]; cbn in X; [contradiction|destruct X as [<-|[]]; unfold is_u32; cbn; lia|contradiction]].
      cbn [In] in X. repeat (destruct X as [<-|X]; [unfold is_u32; cbn [snd]; lia|]). contradiction.
    - specialize (BIG _ _ X). rewrite SAME in BIG. pose proof (zlen_nonneg (snd (fst x))). unfold is_u32. lia. }
  assert (WF : forall t n, is_u32 t -> is_u32 n -> exists b, all_blocks (L t) = Some b /\ write_file w t n = Some (word 1163022147 ++ word 1 ++ word n ++ b)).
  { intros t n UT UN. destruct (OK t) as [b B]. exists b. split; [exact B|]. unfold write_file, pack_I. unfold is_u32 in *.
    replace ((0 <=? 1163022147) && (1163022147 <? 4294967296)) with true by reflexivity. replace ((0 <=? 1) && (1 <? 4294967296)) with true by reflexivity.
    replace ((0 <=? n) && (n <? 4294967296)) with true by lia. replace ((0 <=? w_machine w) && (w_machine w <? 4294967296)) with true by lia.
    replace ((0 <=? w_reason w) && (w_reason w <? 4294967296)) with true by lia. replace ((0 <=? t) && (t <? 4294967296)) with true by lia. cbn [bind].
    fold (word (w_machine w)) (word (w_reason w)) (word t). unfold L in B. rewrite B. reflexivity. }
  destruct (WF t1 0 U1 ltac:(unfold is_u32; lia)) as (b1 & B1 & W1).
  assert (N1 : zlen (word 1163022147 ++ word 1 ++ word 0 ++ b1) = 12 + fold_right (fun x n => 12 + zlen (snd (fst x)) + n) 0 (L t2)).
  { rewrite !zlen_app, !zlen_word, (all_blocks_len _ _ B1), SAME. lia. }
  assert (NN : is_u32 (zlen (word 1163022147 ++ word 1 ++ word 0 ++ b1))) by (unfold is_u32; pose proof (zlen_nonneg (word 1163022147 ++ word 1 ++ word 0 ++ b1)); lia).
  destruct (WF t2 _ U2 NN) as (b2 & B2 & W2). eexists. split; [unfold write_core; rewrite W1; cbn [bind]; exact W2|].
  rewrite !zlen_app, !zlen_word, (all_blocks_len _ _ B2). lia.
Qed.
Print Assumptions C122_file_written.

(** Memory is captured as it is, up to the end or the first 4096 bytes that cannot be read. *)
Theorem C122_memory : forall rd m start size, (forall a n d, rd a n = Some d -> d = memory m a n) -> 0 <= size ->
  exists k, 0 <= k <= size /\ read_memory_until_error rd start size = memory m start k /\
    (k = size \/ (k mod 4096 = 0 /\ rd (start + k) (Z.min 4096 (size - k)) = None)).
Proof.
  intros rd m start size RD S0. unfold read_memory_until_error.
  destruct (read_until_ok rd m RD (Z.to_nat size) start (start + size)) as (k & A & B & C); [lia|].
  exists k. split; [lia|]. split; [exact B|]. destruct C as [C|[C D]]; [left; lia|right]. split; [exact C|].
  replace (start + size - start - k) with (size - k) in D by lia. exact D.
Qed.
Print Assumptions C122_memory.

(** Guessed regions: each is the first megabyte from the start of a section to be captured in RAM, they do not overlap, and
    each such section is captured from its start when none begins in the megabyte before it. *)
Theorem C122_regions : forall l,
  (forall a n, In (a, n) (guess_ram l) -> n = 1048576 /\ is_ram a = true /\ exists x, In x l /\ should_capture x = true /\ x_addr x = a) /\
  StronglySorted (fun r r' => fst r + snd r < fst r') (guess_ram l) /\
  (forall x, In x l -> should_capture x = true -> is_ram (x_addr x) = true ->
     (forall y, In y l -> should_capture y = true -> ~ x_addr x - 1048576 <= x_addr y < x_addr x) -> In (x_addr x, 1048576) (guess_ram l)).
Proof.
  intros l. unfold guess_ram. set (L := map (fun x => (x_addr x, capture_size)) (filter should_capture l)).
  assert (SZ : forall r, In r L -> snd r = capture_size) by (intros r R; apply in_map_iff in R as (x & <- & _); reflexivity).
  assert (IL : forall a, In a (map fst L) <-> exists x, In x l /\ should_capture x = true /\ x_addr x = a).
  { intros a. unfold L. rewrite map_map, in_map_iff. cbn [fst]. split.
    - intros (x & <- & X). apply filter_In in X as [X Y]. exists x. auto.
    - intros (x & X & Y & <-). exists x. split; [reflexivity|]. now apply filter_In. }
  destruct (sort_ok L) as [SS SI]. unfold merge_regions.
  destruct (sort_addr L) as [|r0 rest] eqn:E.
  - split; [intros a n []|]. split; [constructor|]. intros x X1 X2 _ _. exfalso.
    assert (In (x_addr x) (map fst L)) as Q by (apply IL; eauto). apply in_map_iff in Q as (q & _ & Q). apply SI in Q. contradiction.
  - assert (SZ' : forall r, In r (r0 :: rest) -> snd r = capture_size) by (intros r R; apply SZ, SI, R).
    inversion SS as [|? ? SS' FA]; subst. rewrite Forall_forall in FA.
    assert (C0 : 0 <= capture_size) by (unfold capture_size; lia).
    split; [|split].
    + intros a n H. apply in_map_iff in H as (b & [= -> <-] & H). apply filter_In in H as [H R]. split; [reflexivity|]. split; [exact R|]. apply IL.
      apply merge_in in H as [->|H].
      * apply in_map. apply SI. now left.
      * apply in_map_iff in H as (q & <- & Q). apply in_map. apply SI. now right.
    + pose proof (merge_apart capture_size C0 rest r0 (fun r R => SZ' r (or_intror R)) SS') as AP.
      specialize (AP ltac:(rewrite (SZ' r0 (or_introl eq_refl)); lia)).
      revert AP. generalize (map fst (merge r0 rest)). induction l0 as [|h t IH]; intros AP; cbn [filter map]; [constructor|].
      inversion AP as [|? ? AP' FH]; subst. destruct (is_ram h); [|now apply IH]. cbn [map]. constructor; [now apply IH|].
      apply Forall_forall. intros q Q. apply in_map_iff in Q as (z & <- & Z1). apply filter_In in Z1 as [Z1 _]. rewrite Forall_forall in FH. cbn [fst snd]. now apply FH.
    + intros x X1 X2 X3 NO. apply in_map_iff. exists (x_addr x). split; [reflexivity|]. apply filter_In. split; [|exact X3].
      assert (IN : In (x_addr x) (map fst (r0 :: rest))).
      { assert (In (x_addr x) (map fst L)) as Q by (apply IL; eauto). apply in_map_iff in Q as (q & Q1 & Q2). rewrite <- Q1. apply in_map. now apply SI. }
      assert (NOL : forall y, In y (map fst (r0 :: rest)) -> ~ x_addr x - 1048576 <= y < x_addr x).
      { intros y Y. apply in_map_iff in Y as (q & <- & Q). apply SI in Q. apply (in_map fst) in Q. apply IL in Q as (z & Z1 & Z2 & <-). now apply NO. }
      destruct (Z.eq_dec (fst r0) (x_addr x)) as [EQ|NE]; [rewrite <- EQ; apply merge_head|].
      cbn [map In] in IN. destruct IN as [IN|IN]; [contradiction|].
      apply (merge_starts capture_size (x_addr x) C0 rest (fst r0) r0 (fun r R => SZ' r (or_intror R)) SS' FA).
      * rewrite (SZ' r0 (or_introl eq_refl)). reflexivity.
      * apply in_map_iff in IN as (q & Q1 & Q2). specialize (FA q Q2). unfold before in FA. lia.
      * exact IN.
      * intros y Y. apply NOL. cbn [map In]. destruct Y as [->|Y]; [now left|now right].
Qed.
Print Assumptions C122_regions.

(** In a fault handler the registers at the fault are recovered, whatever stack, alignment and floating point state; the two
    stack pointers and the registers the hardware does not save stay as they are. *)
Theorem C122_fault_registers : forall k s r rd yes x, cm_ok k -> cm_taken k s ->
  r "xpsr" = Some x -> 2 <= x mod 512 <= 10 -> r "lr" = Some (cm_lr s) -> r "msp" = Some (cm_msp s) -> r "psp" = Some (cm_psp s) ->
  (forall i n, 4 <= i <= 11 -> get arm_names i = Some n -> r n = Some (cm_r s i)) ->
  (forall i, 0 <= i < 8 -> rd (frameptr k + i * 4) = Some (cm_mem s (frameptr k + 4 * i))) ->
  pc_in_table rd r (x mod 16) = true \/ yes = true ->
  exists r', patch_fault rd yes r = Done r' /\ map r' (take 19 arm_names) = map Some (cm_expected k (cm_msp s) (cm_psp s)) /\
    forall n, ~ In n (take 19 arm_names) -> r' n = r n.
Proof.
  intros k s r rd yes x OK T RX NX RL RM RP RR RD Y. rewrite (patch_fault_ok k s r rd yes x OK T RX NX RL RM RP RD Y). eexists. split; [reflexivity|].
  destruct T as (_ & _ & _ & TR & _). split.
  - change (take 19 arm_names) with ["r0"; "r1"; "r2"; "r3"; "r4"; "r5"; "r6"; "r7"; "r8"; "r9"; "r10"; "r11"; "r12"; "sp"; "lr"; "pc"; "xpsr"; "msp"; "psp"].
    cbn [map]. unfold upd. cbn [String.eqb Ascii.eqb Bool.eqb].
    rewrite (RR 4 "r4"), (RR 5 "r5"), (RR 6 "r6"), (RR 7 "r7"), (RR 8 "r8"), (RR 9 "r9"), (RR 10 "r10"), (RR 11 "r11") by (reflexivity || lia).
    rewrite !TR by lia. rewrite RM, RP. reflexivity.
  - change (take 19 arm_names) with ["r0"; "r1"; "r2"; "r3"; "r4"; "r5"; "r6"; "r7"; "r8"; "r9"; "r10"; "r11"; "r12"; "sp"; "lr"; "pc"; "xpsr"; "msp"; "psp"].
    intros n N. unfold upd. repeat match goal with |- context [(n =? ?c)%string] => destruct (String.eqb_spec n c) as [->|_]; [exfalso; apply N; cbn; tauto|] end. reflexivity.
Qed.
Print Assumptions C122_fault_registers.
(** Outside of exceptions they are left alone. *)
Theorem C122_thread_registers : forall r rd yes x, r "xpsr" = Some x -> x mod 512 = 0 -> patch_fault rd yes r = Done r.
Proof.
  intros r rd yes x RX NX. unfold patch_fault. rewrite RX, land_15. replace (x mod 16) with 0 by (Z.to_euclidean_division_equations; lia). reflexivity.
Qed.
Print Assumptions C122_thread_registers.

(** A core with two registers found and one section of memory. *)
Definition ex_writer : writer :=
  mk_writer arm_names 40 [fun n => if (n =? "pc")%string then Some [1; 2; 3; 4] else if (n =? "sp")%string then Some [5; 6; 7; 8] else None]
    [68; 49] [49; 46; 48] [109] [104] 5 [(0x20000000, [9; 8; 7])] (Some []).
Definition at_entry (n : string) : option Z :=
  let s := taken_state ex_crash in
  if (n =? "xpsr")%string then Some 0x61000003 else if (n =? "lr")%string then Some (cm_lr s) else if (n =? "msp")%string then Some (cm_msp s)
  else if (n =? "psp")%string then Some (cm_psp s) else if (n =? "pc")%string then Some 0x08000100 else if (n =? "sp")%string then Some (cm_msp s)
  else if (n =? "r4")%string then Some 0x104 else if (n =? "r5")%string then Some 0x105 else if (n =? "r6")%string then Some 0x106
  else if (n =? "r7")%string then Some 0x107 else if (n =? "r8")%string then Some 0x108 else if (n =? "r9")%string then Some 0x109
  else if (n =? "r10")%string then Some 0x10a else if (n =? "r11")%string then Some 0x10b else Some 0xBAD.
Definition target (a : Z) : option Z :=
  if a =? 0xE000ED08 then Some 0x08000000 else if a =? 0x0800000C then Some 0x08000101 else Some (cm_mem (taken_state ex_crash) a).
(** The file, memory up to an error, regions of two sections far apart and of one that is not captured, and a hard fault of a
    task with floating point state. *)
Example C122_case :
  match write_core ex_writer 1700000000 1700000001 with
  | Some f => zlen f = 226 /\ take 12 f = [67; 79; 82; 69; 1; 0; 0; 0; 226; 0; 0; 0] /\ parse_core f = Some (core_blocks ex_writer 1700000001)
  | None => False
  end /\
  zlen (read_memory_until_error (fun a n => if a <? 8192 then Some (memory (fun a => a mod 256) a n) else None) 4096 10000) = 4096 /\
  guess_ram [mk_section 0x08000000 5000 ".text" true; mk_section 0x20000000 16 ".data" false; mk_section 0x20000010 64 ".bss" true;
             mk_section 0x60000000 4 ".sdram" false; mk_section 0x30000000 4 ".ro" true] = [(0x20000000, 1048576); (0x60000000, 1048576)] /\
  map (result (patch_fault target false at_entry)) (take 19 arm_names) =
    map Some [0x100; 0x101; 0x102; 0x103; 0x104; 0x105; 0x106; 0x107; 0x108; 0x109; 0x10a; 0x10b; 0x10c; 0x20003F0C; 0x08001235; 0x08004320; 0x61000200;
     0x20008000; 0x20003EA0].
Proof. vm_compute. repeat split. Qed.

(** A section of RAM to be captured need not be in a region: of merged regions only the first megabyte is taken. *)
Theorem C122_every_section_in_ram_is_captured_refuted :
  ~ (forall l x, In x l -> should_capture x = true -> is_ram (x_addr x) = true ->
       exists a n, In (a, n) (guess_ram l) /\ a <= x_addr x < a + n).
Proof.
  intros H.
  destruct (H [mk_section 0x20000000 4 ".data" false; mk_section 0x20080000 4 ".bss" false; mk_section 0x20100000 4 ".heap" false]
              (mk_section 0x20100000 4 ".heap" false)) as (a & n & I1 & I2); [cbn; tauto|reflexivity|reflexivity|].
  vm_compute in I1. destruct I1 as [[= <- <-]|[]]. cbn in I2. lia.
Qed.
Print Assumptions C122_every_section_in_ram_is_captured_refuted.
(** And nothing is when the merged region begins below RAM by the map of addresses, as with SRAM_L and SRAM_U. *)
Theorem C122_some_section_in_ram_is_captured_refuted :
  ~ (forall l x, In x l -> should_capture x = true -> is_ram (x_addr x) = true -> guess_ram l <> []).
Proof.
  intros H. apply (H [mk_section 0x1FFF8000 4 ".data" false; mk_section 0x20000000 4 ".bss" false] (mk_section 0x20000000 4 ".bss" false));
    [cbn; tauto|reflexivity|reflexivity|reflexivity].
Qed.
Print Assumptions C122_some_section_in_ram_is_captured_refuted.
(** The stack pointers are those of the handler. *)
Theorem C122_stack_pointers_are_those_of_the_fault_refuted :
  ~ (forall k s r rd yes x r', cm_ok k -> cm_taken k s ->
       r "xpsr" = Some x -> 2 <= x mod 512 <= 10 -> r "lr" = Some (cm_lr s) -> r "msp" = Some (cm_msp s) -> r "psp" = Some (cm_psp s) ->
       (forall i, 0 <= i < 8 -> rd (frameptr k + i * 4) = Some (cm_mem s (frameptr k + 4 * i))) ->
       patch_fault rd yes r = Done r' -> r' "psp" = Some (k_psp k)).
Proof.
  intros H. destruct (patch_fault target true at_entry) as [r'|r'] eqn:E; [|vm_compute in E; discriminate E].
  specialize (H ex_crash (taken_state ex_crash) at_entry target true 0x61000003 r' (proj1 C74_case) (taken_state_ok _) eq_refl).
  assert (P : r' "psp" = result (patch_fault target true at_entry) "psp") by (rewrite E; reflexivity).
  rewrite H in P; [vm_compute in P; discriminate P|vm_compute; split; discriminate|reflexivity|reflexivity|reflexivity| |exact E].
  intros i I. assert (C : i = 0 \/ i = 1 \/ i = 2 \/ i = 3 \/ i = 4 \/ i = 5 \/ i = 6 \/ i = 7) by lia.
  repeat (destruct C as [->|C]; [reflexivity|]). subst. reflexivity.
Qed.
Print Assumptions C122_stack_pointers_are_those_of_the_fault_refuted.
(** When the frame cannot be read as a whole the registers are neither those at the fault nor those of the handler. *)
Theorem C122_registers_stay_on_errors_refuted :
  ~ (forall rd yes r r', patch_fault rd yes r = Stop r' -> forall n, r' n = r n).
Proof.
  intros H. pose (rd := fun a => if a =? 0x20003EA8 then None else target a).
  destruct (patch_fault rd false at_entry) as [r'|r'] eqn:E; [vm_compute in E; discriminate E|].
  specialize (H rd false at_entry r' E "r1").
  assert (P : r' "r1" = result (patch_fault rd false at_entry) "r1") by (rewrite E; reflexivity). rewrite H in P. vm_compute in P. discriminate P.
Qed.
Print Assumptions C122_registers_stay_on_errors_refuted.
(** Only four bits of the exception number count: an interrupt may be taken for a fault. *)
Theorem C122_interrupts_are_left_alone_refuted :
  ~ (forall r rd yes x r', r "xpsr" = Some x -> 16 <= x mod 512 -> patch_fault rd yes r = Done r' -> r' "pc" = r "pc").
Proof.
  intros H. pose (r := fun n => if (n =? "xpsr")%string then Some 0x61000012 else at_entry n).
  destruct (patch_fault target true r) as [r'|r'] eqn:E; [|vm_compute in E; discriminate E].
  specialize (H r target true 0x61000012 r' eq_refl ltac:(vm_compute; discriminate) E).
  assert (P : r' "pc" = result (patch_fault target true r) "pc") by (rewrite E; reflexivity). rewrite H in P. vm_compute in P. discriminate P.
Qed.
Print Assumptions C122_interrupts_are_left_alone_refuted.
