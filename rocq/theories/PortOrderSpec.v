(** What the boot of a port is to do, written without its steps. *)
From Verif Require Import Base EventStorage SerializerHelper SerializerHelperSpec Reboot RebootSpec PortOrder.

(** The options that leave something out. *)
Definition collects (p : bport) : bool := match p with PZephyr record _ => record | _ => true end.
Definition counts (p : bport) : bool :=
  match p with PMynewt m => m | PEsp8266 m => m | PZephyr _ m => m | _ => true end.

(** What is known right after the reset, with the reason of the reset added. *)
Definition booted (m : rinfo) (load : option rinfo) (info : Z * Z) : rview := boot (start m) load (Some info).
(** The reset the device is to report: the reason recorded before it, or else what the hardware says. *)
Definition to_report (m : rinfo) (load : option rinfo) (info : Z * Z) : reset_info :=
  let k := match load with Some m => recall m | None => recall m end in
  mk_ri (match k_first k with Some f => f | None => fst info end) (k_pc k) (k_lr k) (snd info) (if k_cd k then 1 else 0).
(** Crashes counted, this reset included. *)
Definition crashes_now (m : rinfo) (load : option rinfo) (info : Z * Z) : Z :=
  let k := match load with Some m => recall m | None => recall m end in
  (k_crashes k + (if crash (match k_first k with Some f => f | None => fst info end) then 1 else 0)) mod 256.

(** The lines each port prints, and those of them its log keeps. *)
Definition prints (p : bport) : list bline :=
  match p with
  | PDa145xx | PDa1469x => [LBuild; LDevice]
  | PPsoc6 | PTemplate | PMynewt _ | PParticle _ => [LBuild; LDevice; LReady]
  | PEspIdf diag _ => if diag then [LReason; LBuild] else [LBuild]
  | PEsp8266 _ => []
  | PZephyr _ _ => [LBuild]
  end.
Definition has_log (p : bport) : bool := match p with PPsoc6 | PEspIdf _ _ => true | PParticle logs => logs | _ => false end.
(** PSoC 6 starts its log last; ESP-IDF's needs its hook; Particle's gets no line. *)
Definition keeps (p : bport) : option (list bline) :=
  if has_log p then Some (match p with PPsoc6 => [LReady] | PParticle _ => [] | PEspIdf _ hook => if hook then prints p else [] | _ => prints p end) else None.

(** The world after the boot of a port: the mutex, the log, the trace events and the metrics are started as
    above, and every later history of reboot tracking and event storage is that of a device which knows [v]
    and has [q] in its storage. *)
Definition boots_to (cfg : es_cfg) (cap : Z) (env : senv) (p : bport) (count : Z) (v : rview) (q : ssv) (w : bworld) : Prop :=
  b_locks w = true /\ b_trace w = true /\ b_count w = (if counts p then Some count else None) /\
  b_out w = prints p /\ b_log w = keeps p /\
  exists st, b_store w = Some st /\
    forall ops rs v2 q2, Forall rc_op_ok ops -> rc_spec_run cfg cap env v q ops = Some (rs, v2, q2) ->
      exists s3 st3, rc_run cfg env (b_rt w) st ops = Some (rs, s3, st3).
