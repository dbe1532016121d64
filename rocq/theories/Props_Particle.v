(** C110: uploads through events of the Particle cloud. *)
From Coq Require Import String.
From Verif Require Import Base Base64 Base64Spec Crc16Spec ChunkSpec Packetizer PacketizerSpec PacketizerProofs Uplink UplinkSpec UplinkProofs Particle ParticleSpec ParticleProofs Props_Uplink.

(** From boot on, whatever the application, the heap and the cloud do: nothing is published without a
    connection or within a second of the last look; every text fits an event and stands for a chunk, and from
    these chunks the cloud puts together exactly the messages acknowledged; the block is freed.  Connected, with
    memory and a second after the last look, a call publishes or there is nothing to send. *)
Theorem C110_events : forall W A O R (so : sources W) cfg (app : W -> O -> option (R * W)) (dev : device A O R) rel,
  keeps_contract so cfg app dev rel ->
  forall w a ops, rel None w a -> Forall (p_fine (fine dev)) ops -> in_time 0 ops ->
  exists ops1 rs m st w' a' t cs got k s, p_played dev ops ops1 a' /\ pt_run so cfg app pt_boot w pk_init ops1 = Some (rs, m, st, w') /\
    deeds dev a t a' /\ app_deeds t = p_calls ops1 rs /\ p_story p_start ops1 rs s /\
    stand_for (texts (p_outs rs)) cs /\ cloud None cs = (k, got) /\ received cfg got (sent t) /\
    forall e, s_conn s = true -> p_mem_ok e -> p_size_ok (pe_max e) -> 1000 <= pe_t1 e - s_at s < 2 ^ 32 -> pe_mem e <> None ->
      exists o m2 st2 w2 a2 t2, pt_step so cfg app m w' st (PtProcess e) = Some (PtOut o, m2, st2, w2) /\ deeds dev a' t2 a2 /\
        ((exists x, In (PPublish x (pe_pub e)) o) \/ forall s, enabled (pk_mask st) s = true -> offer dev s a2 = None).
Proof. intros W A O R so cfg app dev rel K. exact (p_accounts so cfg app dev rel K). Qed.
Print Assumptions C110_events.

(** The sizes for which a chunk as long as MEMFAULT_BASE64_MAX_DECODE_LEN allows fits an event. *)
Theorem C110_sizes : forall n, 0 <= n < 2 ^ 30 -> b64_enc_len (max_decode_len n) <= n <-> n mod 4 <= 1.
Proof. exact size_fits. Qed.
Print Assumptions C110_sizes.

Definition c110_e (t max : Z) (ok : bool) : p_env := mk_pe t t max (Some (fill (max + 1) 0xAA)) ok.
Definition c110_run (w : list (list Z)) (ops : list (@p_op (list Z))) := pt_run c65_sources (mk_uc [] false) c65_app pt_boot w pk_init ops.
Definition c110_texts (w : list (list Z)) (ops : list (@p_op (list Z))) : option (list (list Z) * list (list Z)) :=
  do x <- c110_run w ops; let '(rs, _, _, _) := x in Some (texts (p_outs rs), taken (p_outs rs)).
Definition c110_got (ts : list (list Z)) : option (list (list Z * Z)) :=
  do cs <- fold_right (fun t r => do r <- r; do c <- b64_decode t; Some (c :: r)) (Some []) ts; Some (snd (cloud None cs)).

(** A message of ten bytes in events of 16 characters: two chunks, the second a second after the first. *)
Example C110_case :
  c110_texts [[1; 2; 3; 4; 5; 6; 7; 8; 9; 10]] [PtProcess (c110_e 5000 16 true); PtCloud true true; PtProcess (c110_e 5000 16 true); PtProcess (c110_e 5999 16 true); PtProcess (c110_e 6000 16 true)] =
    Some ([str "SAsCAQIDBAUGBwgJ"; str "gAoK+G0="], [str "SAsCAQIDBAUGBwgJ"; str "gAoK+G0="]).
Proof. vm_compute. reflexivity. Qed.

(** Not with other sizes: an event of 622 characters and a chunk that fills it, and the assertion of :84 stops
    the device. *)
Theorem C110_other_sizes_refuted : ~ (forall n msg, 12 <= n < 2 ^ 30 -> bytes msg ->
  exists r, c110_run [msg] [PtCloud true true; PtProcess (c110_e 1000 n true)] = Some r).
Proof.
  intros H. destruct (H 622 (fill 600 7)) as (r & E); [lia|apply Forall_forall; intros x X; apply repeat_spec in X; subst; split; lia|].
  assert (X : match c110_run [fill 600 7] [PtCloud true true; PtProcess (c110_e 1000 622 true)] with Some _ => true | None => false end = true) by (rewrite E; reflexivity).
  vm_compute in X. discriminate.
Qed.
Print Assumptions C110_other_sizes_refuted.

(** Nor does what Particle.publish() does not take come again: the message is gone. *)
Theorem C110_published_refuted : ~ (forall msg ops ts us, Forall (p_fine bytes) ops -> in_time 0 ops ->
  c110_texts [msg] ops = Some (ts, us) -> c110_got us = c110_got ts).
Proof.
  intros H. specialize (H [1; 2; 3] [PtCloud true true; PtProcess (c110_e 1000 16 false); PtProcess (c110_e 2000 16 true)]).
  destruct (c110_texts [[1; 2; 3]] [PtCloud true true; PtProcess (c110_e 1000 16 false); PtProcess (c110_e 2000 16 true)]) as [[ts us]|] eqn:E; [|vm_compute in E; discriminate].
  specialize (H ts us). vm_compute in E. injection E as <- <-. assert (X : c110_got [] = c110_got [[67; 65; 73; 66; 65; 103; 78; 90; 106; 65; 61; 61]]); [|vm_compute in X; discriminate].
  assert (F : forall t ok, p_fine bytes (@PtProcess (list Z) (c110_e t 16 ok))).
  { intros t ok. split; [intros b [= <-]; split; [apply Forall_forall; intros x X; apply repeat_spec in X; subst; split; lia|reflexivity]|]. split; [cbn; lia|cbn; lia]. }
  apply H; [constructor; [exact Logic.I|constructor; [apply F|constructor; [apply F|constructor]]]|cbn; lia|reflexivity].
Qed.
Print Assumptions C110_published_refuted.
