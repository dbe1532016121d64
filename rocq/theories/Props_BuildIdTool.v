(** C121: the tool that puts build ids into ELF files *)
From Coq Require Import String.
From Verif Require Import Base BuildId BuildIdTool BuildIdToolSpec BuildIdToolProofs.

(** When there is no id: the type and the id are changed, no other byte of the file; the device reads the SHA1 of what is
    loaded as its id; the tool reports it as hexadecimal text; and running it again changes nothing and reports the same. *)
Theorem C121_build_id : forall sha e file v sz s v' s' f' r, (forall b, zlen (sha b) = 20 /\ bytes (sha b)) ->
  lookup e n_storage = Some (v, sz, s) -> lookup e n_derived = Some (v', 20, s') -> placed e file s -> placed e file s' ->
  position v s + sz <= position v' s' \/ position v' s' + 20 <= position v s ->
  get (sym_data file v sz s) 0 = Some 1 -> info sha e file false = Some (f', r) ->
  exists b short, hashed None file (e_sects e) = Some b /\ r = (3, Some (hex_text (sha b)), short) /\
    zlen f' = zlen file /\
    (forall x, get f' x = if x =? position v s then Some 3
                          else if (position v' s' <=? x) && (x <? position v' s' + 20) then get (sha b) (x - position v' s') else get file x) /\
    (forall rest, bi_read 1 rest = Some None) /\
    (exists type, get (sym_data f' v sz s) 0 = Some type /\ forall rest, bi_read type (sym_data f' v' 20 s' ++ rest) = Some (Some (sha b))) /\
    forall d, info sha e f' d = Some (f', r).
Proof.
  intros sha e file v sz s v' s' f' r SH L1 L2 P1 P2 DJ G H.
  destruct (info_ok sha e file v sz s v' s' f' r (fun b => proj1 (SH b)) L1 L2 P1 P2 DJ G H) as (b & short & A & B & C & D & E & F & I).
  exists b, short. split; [exact A|]. rewrite <- hex_ok by apply SH. split; [exact B|]. split; [exact C|]. split; [exact D|]. split; [reflexivity|].
  split; [|exact I]. exists 3. split; [exact F|]. intros rest. rewrite E. unfold bi_read. change (3 =? 3) with true. cbv iota.
  rewrite read_at_some by (rewrite ?zlen_app, ?(proj1 (SH b)); pose proof (zlen_nonneg rest); lia). cbn [bind]. rewrite drop_0.
  rewrite take_app_exact by (now rewrite (proj1 (SH b))). reflexivity.
Qed.
Print Assumptions C121_build_id.
(** The file is left alone when it only shall be inspected, and when it has no Memfault id afterwards. *)
Theorem C121_inspect : forall sha e file d f' r, info sha e file d = Some (f', r) -> d = true \/ fst (fst r) <> 3 -> f' = file.
Proof. exact info_kept. Qed.
Print Assumptions C121_inspect.
(** The id of a file with a given layout is decided by what is loaded, and two different images hash different bytes. *)
Theorem C121_decided_by_the_image : forall e f f', image e f = image e f' -> hashed None f (e_sects e) = hashed None f' (e_sects e).
Proof. intros e f f' E. apply hashed_ext. now apply image_data. Qed.
Print Assumptions C121_decided_by_the_image.
Theorem C121_distinguishes : forall e f f' b, complete e f -> complete e f' ->
  hashed None f (e_sects e) = Some b -> hashed None f' (e_sects e) = Some b -> image e f = image e f'.
Proof. intros e f f' b C C' H H'. exact (hashed_inj e f f' C C' (e_sects e) (fun s I => I) b H H'). Qed.
Print Assumptions C121_distinguishes.
(** An id in a symbol of one's own: only the symbol changes, and running again changes nothing. *)
Theorem C121_sha1 : forall sha e file n v sz s f' h, (forall b, zlen (sha b) = 20) -> lookup e n = Some (v, sz, s) -> placed e file s ->
  sha1_mode sha e file n false = Some (f', h) ->
  changed file f' (position v s) h /\ zlen h = 20 /\ sz = 20 /\ (forall d, sha1_mode sha e f' n d = Some (f', h)) /\
  (forall f2 h2, sha1_mode sha e file n true = Some (f2, h2) -> f2 = file).
Proof.
  intros sha e file n v sz s f' h SH L P H. destruct (sha1_ok sha e file n v sz s f' h SH L P H) as (A & B & C).
  split; [exact A|]. split.
  - unfold sha1_mode in H. rewrite L in H. cbn [bind] in H. destruct (negb (sz =? 20)); [discriminate|]. apply bind_inv in H as (b & _ & H).
    destruct (zs_eqb _ _); injection H as _ <-; apply SH.
  - split; [|split; [exact C|exact (sha1_dump sha e file n)]].
    unfold sha1_mode in H. rewrite L in H. cbn [bind] in H. destruct (sz =? 20) eqn:E; [lia|discriminate].
Qed.
Print Assumptions C121_sha1.
(** It is the id the tool would give the SDK, when the symbol is as compiled and no other loaded section is at the same address. *)
Theorem C121_same_id : forall sha e file n v s f' h b, (forall b, zlen (sha b) = 20) -> lookup e n = Some (v, 20, s) -> placed e file s ->
  (forall s', In s' (e_sects e) -> s_alloc s' = true -> s_addr s' = s_addr s -> s' = s) ->
  sym_data file v 20 s = compiled_id -> hashed None file (e_sects e) = Some b ->
  sha1_mode sha e file n false = Some (f', h) -> h = sha b.
Proof.
  intros sha e file n v s f' h b SH L P U C HB H. destruct (lookup_spec _ _ _ _ _ L) as (IN & AL & V & V2).
  unfold sha1_mode in H. rewrite L in H. cbn [bind] in H. change (20 =? 20) with true in H. cbn [negb] in H.
  rewrite (hashed_compiled e file v s P IN) in H; [|lia|lia|exact C|trivial|exact U]. rewrite HB in H. cbn [bind] in H.
  destruct (zs_eqb _ _); now injection H.
Qed.
Print Assumptions C121_same_id.
(** A CRC in a symbol: the four bytes there are, in the byte order of the file, the CRC of everything else, no other byte
    changes, and running again changes nothing. *)
Theorem C121_crc : forall crc e file n v sz s f', lookup e n = Some (v, sz, s) -> placed e file s ->
  crc_mode crc e file n false = Some f' ->
  (exists c b, changed file f' (position v s) c /\ zlen c = 4 /\ unpack4 (e_little e) c = Some (crc b) /\
     hashed (Some (s_addr s, v - s_addr s, [], 4)) f' (e_sects e) = Some b) /\
  forall d, crc_mode crc e f' n d = Some f'.
Proof. exact crc_ok. Qed.
Print Assumptions C121_crc.

(** A file of four headers' bytes, .text of 40 bytes with both symbols, .data of 4 bytes, .bss of 100, and debug information. *)
Definition c121_text := mk_sect 256 40 4 true true false false.
Definition c121_data := mk_sect 8192 4 44 true false true false.
Definition c121_bss := mk_sect 8196 100 48 true false true true.
Definition c121_dbg := mk_sect 0 3 48 false false false false.
Definition c121_elf := mk_elf [c121_dbg; c121_text; c121_data; c121_bss]
  [(Some (str "main"), (256, 4)); (Some (str "g_memfault_build_id"), (260, 12)); (Some (str "g_memfault_sdk_derived_build_id"), (272, 20)); (Some (str "own"), (8192, 4)); (Some (str "zero"), (8196, 20))] true None.
Definition c121_file := [127; 69; 76; 70] ++ [1; 2; 3; 4] ++ [1; 20; 6; 0; 9; 9; 9; 9; 8; 8; 8; 8] ++ (1 :: fill 19 0) ++ [5; 5; 5; 5] ++ [10; 11; 12; 13] ++ [7; 7; 7].
Definition c121_sha (b : list Z) : list Z := fill 20 (fold_right Z.add 0 b mod 256).
Example C121_case :
  match main c121_sha zlen c121_elf c121_file None None None with
  | Some (f', None) => f' = [127; 69; 76; 70] ++ [1; 2; 3; 4] ++ [3; 20; 6; 0; 9; 9; 9; 9; 8; 8; 8; 8] ++ fill 20 85 ++ [5; 5; 5; 5] ++ [10; 11; 12; 13] ++ [7; 7; 7] /\
      main c121_sha zlen c121_elf f' None None (Some 7) = Some (f', Some (str "5555555")) /\
      main c121_sha zlen c121_elf f' None None None = Some (f', None)
  | _ => False
  end /\
  placed c121_elf c121_file c121_text /\
  crc_mode zlen c121_elf c121_file (Some (str "own")) false = Some (take 44 c121_file ++ [56; 0; 0; 0] ++ [7; 7; 7]).
Proof.
  split; [vm_compute; repeat split|]. split; [|reflexivity]. split; [reflexivity|]. split; [cbn; lia|]. split; [vm_compute; discriminate|].
  intros s' I A N. cbn [c121_elf e_sects In] in I. destruct I as [<-|[<-|[<-|[<-|[]]]]]; try discriminate; (split; [cbn; lia|]; split; [cbn; lia|]); cbn; auto; right; lia.
Qed.

(** --crc on the command line: the symbol of --sha1 is looked up instead, so that there is never a CRC. *)
Theorem C121_crc_option : forall sha crc e file n dump, n <> [] -> (forall m v, In (m, v) (e_syms e) -> m <> None) ->
  main sha crc e file None (Some n) dump = None.
Proof.
  intros sha crc e file n dump N W. unfold main. destruct n as [|c n]; [contradiction|]. cbn [given andb]. unfold crc_mode, lookup.
  assert (X : find_sym (e_syms e) None = None).
  { induction (e_syms e) as [|[m v] l IH]; [reflexivity|]. cbn [find_sym]. destruct m as [m|]; [|now destruct (W None v (or_introl eq_refl))].
    cbn [name_eqb]. apply IH. intros m' v' I. apply (W m' v'). now right. }
  rewrite X. reflexivity.
Qed.
Print Assumptions C121_crc_option.
Theorem C121_crc_option_refuted : ~ (forall sha crc e file n f', crc_mode crc e file (Some n) false = Some f' -> n <> [] ->
  main sha crc e file None (Some n) None = Some (f', None)).
Proof.
  intros X. specialize (X c121_sha zlen c121_elf c121_file (str "own") _ eq_refl ltac:(discriminate)). vm_compute in X. discriminate.
Qed.
Print Assumptions C121_crc_option_refuted.
(** --sha1 with --dump 0 changes the file. *)
Theorem C121_dump_refuted : ~ (forall sha crc e file sha1 d f' t, main sha crc e file sha1 None (Some d) = Some (f', t) -> f' = file).
Proof.
  intros X. specialize (X c121_sha zlen c121_elf c121_file (Some (str "g_memfault_sdk_derived_build_id")) 0 _ _ eq_refl). vm_compute in X. discriminate.
Qed.
Print Assumptions C121_dump_refuted.
(** A symbol of --sha1 that the compiler put into .bss: bytes that are not the symbol's are overwritten. *)
Theorem C121_zeroed_symbol_refuted : ~ (forall sha e file n v sz s f' h, (forall b, zlen (sha b) = 20) -> lookup e n = Some (v, sz, s) ->
  sha1_mode sha e file n false = Some (f', h) -> zlen f' = zlen file /\ drop (s_off s) f' = drop (s_off s) file).
Proof.
  intros X. specialize (X c121_sha c121_elf c121_file (Some (str "zero")) _ _ _ _ _ (fun _ => eq_refl) eq_refl eq_refl). vm_compute in X. destruct X as [X _]. discriminate.
Qed.
Print Assumptions C121_zeroed_symbol_refuted.
(** A CRC symbol of two bytes: the two after it are overwritten. *)
Theorem C121_small_crc_refuted : ~ (forall crc e file n v sz s f', (forall b, 0 <= crc b < 2 ^ 32) -> lookup e n = Some (v, sz, s) -> placed e file s ->
  crc_mode crc e file n false = Some f' -> forall x, position v s + sz <= x -> get f' x = get file x).
Proof.
  intros X. set (e := mk_elf [mk_sect 0 8 0 true false true false] [(Some [97], (0, 2))] true None).
  specialize (X (fun _ => 1) e [9; 9; 9; 9; 9; 9; 9; 9] (Some [97]) 0 2 (mk_sect 0 8 0 true false true false) [1; 0; 0; 0; 9; 9; 9; 9] ltac:(intros; lia) eq_refl).
  assert (P : placed e [9; 9; 9; 9; 9; 9; 9; 9] (mk_sect 0 8 0 true false true false)).
  { split; [reflexivity|]. split; [cbn; lia|]. split; [vm_compute; discriminate|]. intros s' [<-|[]] _ _. split; [cbn; lia|]. split; [cbn; lia|]. now left. }
  specialize (X P eq_refl 2 ltac:(vm_compute; discriminate)). vm_compute in X. discriminate.
Qed.
Print Assumptions C121_small_crc_refuted.
(** An empty section at the address of the symbol's section makes the two ids differ. *)
Theorem C121_same_id_refuted : ~ (forall sha e file n v s f' h b, (forall b, zlen (sha b) = 20) -> lookup e n = Some (v, 20, s) -> placed e file s ->
  sym_data file v 20 s = compiled_id -> hashed None file (e_sects e) = Some b -> sha1_mode sha e file n false = Some (f', h) -> h = sha b).
Proof.
  intros X. set (s := mk_sect 0 20 0 true false false false). set (e := mk_elf [mk_sect 0 0 0 true false false false; s] [(Some [97], (0, 20))] true None).
  specialize (X c121_sha e compiled_id (Some [97]) 0 s).
  assert (P : placed e compiled_id s).
  { split; [reflexivity|]. split; [cbn; lia|]. split; [vm_compute; discriminate|]. intros s' [<-|[<-|[]]] _ _; (split; [cbn; lia|]; split; [cbn; lia|]); cbn; auto. right. lia. }
  specialize (X _ _ _ (fun _ => eq_refl) eq_refl P eq_refl eq_refl eq_refl). vm_compute in X. discriminate.
Qed.
Print Assumptions C121_same_id_refuted.
(** Files with different layouts: 100 zeros and the four bytes of the number 100 at the same address have the same id. *)
Theorem C121_any_layout_refuted : ~ (forall e e' f f' b, complete e f -> complete e' f' ->
  hashed None f (e_sects e) = Some b -> hashed None f' (e_sects e') = Some b -> image e f = image e' f').
Proof.
  intros X. set (s := mk_sect 8192 100 0 true false true true). set (s' := mk_sect 8192 4 0 true false true false).
  specialize (X (mk_elf [s] [] true None) (mk_elf [s'] [] true None) [100; 0; 0; 0] [100; 0; 0; 0] [0; 32; 0; 0; 100; 0; 0; 0]).
  assert (C : complete (mk_elf [s] [] true None) [100; 0; 0; 0]) by (intros x [<-|[]] _ N; discriminate).
  assert (C' : complete (mk_elf [s'] [] true None) [100; 0; 0; 0]).
  { intros x [<-|[]] _ _. split; [cbn; lia|]. split; [cbn; lia|]. vm_compute. discriminate. }
  specialize (X C C' eq_refl eq_refl). discriminate.
Qed.
Print Assumptions C121_any_layout_refuted.
