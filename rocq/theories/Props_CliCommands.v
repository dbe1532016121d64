(** C129: the commands of the demo command lines. *)
From Coq Require Import String.
From Verif Require Import Base Crc16Spec ChunkSpec ChunkDrain Packetizer PacketizerSpec PacketizerProofs CliCommands CliCommandsSpec CliCommandsProofs.
Open Scope string_scope.
Open Scope list_scope.
Open Scope Z_scope.

(** crash: without an argument or with a number from 0 to 4 the program always ends, by what the number stands for or, if that
    did not end it, by an assertion that records the number; with another number an error is printed and nothing is done. *)
Theorem C129_crash faults argv_at buf name args :
  (args = [] -> crash faults argv_at buf (name :: args) = Some (Died (AAssert 0 false))) /\
  forall a more n, args = a :: more -> says a n -> -2147483648 <= n <= 2147483647 ->
    (0 <= n <= 4 -> exists x, crash faults argv_at buf (name :: args) = Some (Died x) /\
       (x = AAssert n false \/ n = 1 /\ x = ACall 195939070 \/ n = 2 /\ x = AStore8 (buf + 1) \/ n = 3 /\ x = AAssert 0 false \/ n = 4 /\ x = AAssert 0 true)) /\
    (~ (0 <= n <= 4) -> crash faults argv_at buf (name :: args) = Some (Back (-1) true)).
Proof.
  split; [intros ->; reflexivity|]. intros a more n -> S R. unfold crash. cbn [arg1]. rewrite (atoi_says a n S R). cbn [bind]. split.
  - intros H. assert (C : In n [0;1;2;3;4]) by (cbn [In]; lia). cbn [In] in C.
    repeat destruct C as [<-|C]; try contradiction; cbn [Z.eqb Pos.eqb]; unfold try; repeat match goal with |- context [faults ?q] => destruct (faults q) | |- context [argv_at =? ?k] => destruct (argv_at =? k) end; eexists; (split; [reflexivity|]); auto 10.
  - intros H. repeat match goal with |- context [n =? ?k] => destruct (Z.eqb_spec n k); [exfalso; lia|] end. reflexivity.
Qed.
Print Assumptions C129_crash.

(** The bytes written by crash 2 are the program's own, at an address that is not aligned. *)
Theorem C129_crash_unaligned buf : buf mod 4 = 0 -> (buf + 1) mod 4 = 1 /\ buf <= buf + 1 /\ (buf + 1) + 8 <= buf + 16.
Proof. intros H. split; [|lia]. rewrite Z.add_mod, H by lia. reflexivity. Qed.
Print Assumptions C129_crash_unaligned.

(** An argument that is no number does not print how the command is used: the program ends. *)
Theorem C129_usage_refuted faults argv_at buf name a more : no_number a ->
  crash faults argv_at buf (name :: a :: more) = Some (Died (AAssert 0 false)).
Proof. intros H. unfold crash. cbn [arg1]. rewrite atoi_none by exact H. reflexivity. Qed.
Print Assumptions C129_usage_refuted.

(** assert records the number given, as 32 bits; loadaddr reads from the address given. *)
Theorem C129_numbers name a more n :
  (says a n -> -2147483648 <= n <= 2147483647 -> assert_cmd (zlen (name :: a :: more)) (name :: a :: more) = Some (Died (AAssert (n mod 4294967296) false))) /\
  (says_address a n -> 0 <= n < 4294967296 -> loadaddr (name :: a :: more) = Loaded n).
Proof.
  split.
  - intros S R. unfold assert_cmd. pose proof (zlen_nonneg more). destruct (Z.ltb_spec 1 (zlen (name :: a :: more))) as [_|L]; [|rewrite !zlen_cons in L; lia].
    change (get (name :: a :: more) 1) with (Some a). cbn [bind]. rewrite (atoi_says a n S R). reflexivity.
  - intros S R. cbn [loadaddr]. rewrite (strtoul_says a n S) by lia. rewrite u32_id by (unfold is_u32; lia). reflexivity.
Qed.
Print Assumptions C129_numbers.

(** The command of the emlib port, with the words of the command in front: without an argument it ends the program; but with one
    or two arguments it reads past the end of argv, and with more it takes the third argument for the first. *)
Theorem C129_emlib words args : words <> [] -> args = [] -> emlib_assert (words ++ args) (zlen words) = Some (Died (AAssert 0 false)).
Proof.
  intros N ->. unfold emlib_assert, adjust, assert_cmd. rewrite app_nil_r. destruct words as [|x w]; [congruence|]. pose proof (zlen_nonneg w).
  destruct (Z.eqb_spec (zlen (x :: w)) 0); [rewrite zlen_cons in *; lia|]. destruct (Z.ltb_spec 1 (zlen (x :: w) - zlen (x :: w) + 1)); [lia|reflexivity].
Qed.
Print Assumptions C129_emlib.
Theorem C129_emlib_refuted words a b c more : words <> [] ->
  emlib_assert (words ++ [a]) (zlen words) = None /\ emlib_assert (words ++ [a; b]) (zlen words) = None /\
  forall n, says c n -> -2147483648 <= n <= 2147483647 ->
    emlib_assert (words ++ a :: b :: c :: more) (zlen words) = Some (Died (AAssert (n mod 4294967296) false)).
Proof.
  intros N. destruct words as [|x w]; [congruence|]. pose proof (zlen_nonneg w). pose proof (zlen_nonneg more).
  assert (D : forall r, drop (zlen (x :: w) + 1) ((x :: w) ++ r) = drop 1 r).
  { intros r. unfold drop, zlen. replace (Z.to_nat (Z.of_nat (List.length (x :: w)) + 1)) with (List.length (x :: w) + 1)%nat by lia.
    rewrite skipn_app. rewrite skipn_all2 by lia. replace (List.length (x :: w) + 1 - List.length (x :: w))%nat with 1%nat by lia. reflexivity. }
  assert (E : forall r, r <> [] -> emlib_assert ((x :: w) ++ r) (zlen (x :: w)) = do t <- get (drop 1 r) 1; do n <- atoi t; Some (Died (AAssert (u32 n) false))).
  { intros r Nr. unfold emlib_assert, adjust, assert_cmd. destruct (Z.eqb_spec (zlen (x :: w)) 0); [rewrite zlen_cons in *; lia|].
    destruct r as [|y r]; [congruence|]. pose proof (zlen_nonneg r). rewrite zlen_app, (zlen_cons y r).
    destruct (Z.ltb_spec 1 (zlen (x :: w) + (1 + zlen r) - zlen (x :: w) + 1)) as [_|L]; [|lia]. rewrite D. reflexivity. }
  split; [rewrite E by discriminate; reflexivity|]. split; [rewrite E by discriminate; reflexivity|].
  intros n S R. rewrite E by discriminate. change (get (drop 1 (a :: b :: c :: more)) 1) with (Some c). cbn [bind]. rewrite (atoi_says c n S R). reflexivity.
Qed.
Print Assumptions C129_emlib_refuted.

(** Draining sends everything that is queued: the chunks fall into one group per message, each received as that message, and
    the sources are then empty. *)
Theorem C129_drain cfg w mask bufs : queues_ok cfg w -> is_u32 mask -> Forall (fun b => 9 <= zlen b < 4294967296) bufs ->
  work (backlog cfg mask w) < zlen bufs ->
  exists groups st w', drain cfg w (pk_set_active_sources pk_init mask) bufs = Some (concat groups, st, w') /\
    Forall2 (fun g p => exists crc, receive g = Some (p, crc) /\ is_crc 0 p crc) groups (backlog cfg mask w) /\
    (forall s, q_of w' s = if enabled mask s then [] else q_of w s).
Proof. apply drain_everything. Qed.
Print Assumptions C129_drain.

(** The crashes of the ESP ports end the program for the numbers they know; the recursion stops in an assertion at depth 15. *)
Theorem C129_esp name a more n faults : says a n -> -2147483648 <= n <= 2147483647 ->
  (1 <= n <= 3 -> exists x, esp_assert (name :: a :: more) = Some (Died x)) /\
  (In n [0; 3; 4] -> exists x, esp_crash (name :: a :: more) = Some (Died x)) /\
  (n = 3 -> esp_crash (name :: a :: more) = Some (Died (AAssert 15 false))) /\
  (n = 2 -> esp8266_crash faults (name :: a :: more) = Some (Died (AAssert 15 false))) /\
  (1 <= n <= 3 -> exists x, esp8266_crash faults (name :: a :: more) = Some (Died x)).
Proof.
  intros S R. unfold esp_assert, esp_crash, esp8266_crash. cbn [arg1]. rewrite (atoi_says a n S R). cbn [bind].
  split; [|split; [|split; [intros ->; reflexivity|split; [intros ->; reflexivity|]]]].
  - intros H. assert (C : In n [1;2;3]) by (cbn [In]; lia). cbn [In] in C. repeat destruct C as [<-|C]; try contradiction; eexists; reflexivity.
  - intros C. cbn [In] in C. repeat destruct C as [<-|C]; try contradiction; eexists; reflexivity.
  - intros H. assert (C : In n [1;2;3]) by (cbn [In]; lia). cbn [In] in C. repeat destruct C as [<-|C]; try contradiction; eexists; reflexivity.
Qed.
Print Assumptions C129_esp.
(** But for other numbers, 1 of esp_crash among them, they do nothing and say nothing. *)
Theorem C129_esp_refuted name a more n : says a n -> -2147483648 <= n <= 2147483647 -> ~ (n = 0 \/ 2 <= n <= 4) ->
  esp_crash (name :: a :: more) = Some (Back 0 false) /\ (n <> 1 -> esp_assert (name :: a :: more) = Some (Back 0 false)).
Proof.
  intros S R H. unfold esp_assert, esp_crash. cbn [arg1]. rewrite (atoi_says a n S R). cbn [bind]. split.
  - repeat match goal with |- context [n =? ?k] => destruct (Z.eqb_spec n k); [exfalso; lia|] end. reflexivity.
  - intros K. repeat match goal with |- context [n =? ?k] => destruct (Z.eqb_spec n k); [exfalso; lia|] end. reflexivity.
Qed.
Print Assumptions C129_esp_refuted.

(** leak asks for as many bytes as given, once, and not for none. *)
Theorem C129_leak malloc name a more n : says a n -> 0 <= n <= 2147483647 ->
  leak malloc (name :: a :: more) = Some (if n =? 0 then ([], Back 1 false) else ([n], if malloc n then Back 0 false else Back 1 true)).
Proof.
  intros S R. unfold leak. cbn [arg1]. rewrite (atoi_says a n S) by lia. cbn [bind]. rewrite u32_id by (unfold is_u32; lia).
  destruct (n =? 0); [reflexivity|]. destruct (malloc n); reflexivity.
Qed.
Print Assumptions C129_leak.

(** The results: an error is printed exactly if there is one; being up to date is none. *)
Theorem C129_results connected rv released :
  (exists x, esp_ota connected rv = Back x (negb connected || (rv <? 0)) /\ (connected = true -> x = 0 <-> rv = 0 \/ rv = 1)) /\
  (exists p x, zephyr_url rv released = (p, Back x (rv <? 0)) /\ p = (0 <? rv) /\ (rv <= 0 -> x = rv)) /\
  (exists x, zephyr_post rv = Back x (rv <? 0) /\ (x = 0 <-> 0 <= rv)).
Proof.
  split; [|split].
  - unfold esp_ota. destruct connected; cbn [negb orb]; [|eexists; split; [reflexivity|discriminate]]. eexists. split; [reflexivity|]. intros _.
    destruct (Z.eqb_spec rv 1); lia.
  - unfold zephyr_url. destruct (Z.ltb_spec rv 0); [exists false, rv; repeat split; destruct (Z.ltb_spec 0 rv); lia|].
    destruct (Z.eqb_spec rv 0) as [->|]; [exists false, 0; repeat split; lia|]. exists true, released. repeat split; [destruct (Z.ltb_spec 0 rv); [reflexivity|lia]|lia].
  - unfold zephyr_post. eexists. split; [reflexivity|]. destruct (Z.ltb_spec rv 0); lia.
Qed.
Print Assumptions C129_results.
(** Not so in the command of the nRF Connect port: if there is no newer release, an error is printed, and 0 returned. *)
Theorem C129_nrf_refuted released : nrf_url 0 released = (false, Back 0 true).
Proof. reflexivity. Qed.
Print Assumptions C129_nrf_refuted.

(** The arguments of a few commands. *)
Example C129_case :
  crash (fun _ => false) 4096 8192 [str "crash"; str "2"] = Some (Died (AAssert 2 false)) /\ crash (fun _ => true) 4096 8192 [str "crash"; str " +2x"] = Some (Died (AStore8 8193)) /\
  crash (fun _ => true) 4096 8192 [str "crash"; str "help"] = Some (Died (AAssert 0 false)) /\
  loadaddr [str "loadaddr"; str "0x2000abcd"] = Loaded 536914893 /\ loadaddr [str "loadaddr"; str "017"] = Loaded 15 /\
  emlib_assert [str "assert"; str "5"] 1 = None /\ emlib_assert [str "memfault"; str "assert"; str "-1"] 2 = None /\
  leak (fun n => n <? 1000) [str "leak"; str "-1"] = Some ([4294967295], Back 1 true).
Proof. vm_compute. repeat split. Qed.
Example C129_case_says : says (str " -12 ") (-12) /\ no_number (str "help") /\ says_address (str "0x1f") 31.
Proof.
  split; [|split].
  - exists [32], [45], [1; 2], (str "12"), [32]. split; [constructor; [left; reflexivity|constructor]|].
    split; [split; [discriminate|split; [repeat (constructor; [lia|]); constructor|reflexivity]]|]. split; [cbn; lia|]. split; [reflexivity|right; split; reflexivity].
  - exists [], (str "help"). split; [constructor|]. split; [reflexivity|]. cbn. lia.
  - left. exists [1; 15]. split; [discriminate|]. split; [repeat (constructor; [lia|]); constructor|]. split; reflexivity.
Qed.
