(** Model of the packetizer over the data sources the SDK links (memfault_data_packetizer.c:99-123): the
    coredump in storage, seen through the run-length source when that is linked, the event storage in RAM,
    the log buffer and the custom data recordings.  The rest of the application calls the writers of the
    last three at any time. *)
From Verif Require Import Base Coredump DataSourceRle EventStorage Log LogDataSource SerializerHelper Cdr Packetizer Uplink.

(** The three callbacks of one data source, and what memfault_data_source_rle_encoder_set_active(NULL) does. *)
Record source (W : Type) := mk_source {
  s1_has : W -> option (option Z * W);
  s1_read : W -> Z -> list Z -> option (bool * list Z * W);
  s1_mark : W -> option W;
  s1_reset : W -> W }.
Arguments mk_source {W}. Arguments s1_has {W}. Arguments s1_read {W}. Arguments s1_mark {W}. Arguments s1_reset {W}.

(** ** Coredumps (memfault_coredump.c:563-589): the storage, and the run-length source.  [clear]:
    memfault_platform_coredump_storage_clear.  The run-length source reads nothing past the announced size
    (it fails otherwise, see DataSourceRle.v), so its backing message is that much of the storage. *)
Record core := mk_core { co_st : list Z; co_ds : ds }.
Definition co_msgs (st : list Z) : list (list Z) :=
  match cd_has_valid true st with Some n => [take n st] | None => [] end.
Definition core_source (rle : bool) (clear : list Z -> list Z) : source core :=
  if rle then
    mk_source
      (fun c => do x <- ds_has_more (co_msgs (co_st c)) (ds_set_active (co_ds c) true); (* memfault_data_packetizer.c:245-254 *)
                Some (fst x, mk_core (co_st c) (snd x)))
      (fun c off buf => match co_msgs (co_st c) with
                        | [] => None
                        | m :: _ => do x <- ds_read m (co_ds c) off (zlen buf);
                                    let '(ok, out, d) := (x : bool * list Z * ds) in
                                    Some (ok, out ++ drop (zlen out) buf, mk_core (co_st c) d)
                        end)
      (fun c => Some (mk_core (clear (co_st c)) (snd (ds_mark (co_msgs (co_st c)) (co_ds c)))))
      (fun c => mk_core (co_st c) (ds_set_active (co_ds c) false))
  else
    mk_source
      (fun c => Some (cd_has_valid true (co_st c), c))
      (fun c off buf => Some (match cd_read true (co_st c) off (zlen buf) with Some d => (true, d, c) | None => (false, buf, c) end))
      (fun c => Some (mk_core (clear (co_st c)) (co_ds c)))
      (fun c => c).

(** ** Events (memfault_event_storage.c, the data source).  A read that fails leaves the buffer alone. *)
Definition event_source (cfg : es_cfg) : source es :=
  mk_source
    (fun s => do x <- es_has cfg s; let '(b, n, s) := (x : bool * Z * es) in Some (if b then Some n else None, s))
    (fun s off buf => do x <- es_read s off (zlen buf);
                      Some (match x with Some d => (true, d, s) | None => (false, buf, s) end))
    (fun s => Some (es_mark s))
    (fun s => s).

(** ** Logs (memfault_log_data_source.c) *)
Definition log_source (env : senv) (tse : bool) : source lg :=
  mk_source
    (fun s => do x <- lds_has env tse s; Some (x, s))
    (fun s off buf => do x <- lds_read env tse s off buf; Some (fst x, snd x, s))
    log_mark_sent
    (fun s => s).

(** ** Custom data recordings (memfault_custom_data_recording.c:201-205) *)
Definition cdr_source (env : senv) : source (cdr_world * cdr) :=
  mk_source
    (fun c => do x <- cdr_has env (fst c) (snd c); Some (fst x, (fst c, snd x)))
    (fun c off buf => do x <- cdr_read (fst c) (snd c) off (zlen buf);
                      Some (match x with Some d => (true, d, c) | None => (false, buf, c) end))
    (fun c => Some (cdr_mark (fst c) (snd c)))
    (fun c => c).

(** ** The device *)
Record dv_cfg := mk_dc {
  dc_up : up_cfg;
  dc_clear : list Z -> list Z;
  dc_batch : es_cfg;
  dc_env : senv;
  dc_tse : bool;        (* MEMFAULT_LOG_TIMESTAMPS_ENABLE *)
  dc_line : Z }.        (* MEMFAULT_LOG_MAX_LINE_SAVE_LEN *)
Record world := mk_world { w_core : core; w_ev : es; w_log : lg; w_cdr : cdr_world * cdr }.

Section Device.
Variable c : dv_cfg.
Notation core_s := (core_source (uc_rle (dc_up c)) (dc_clear c)).
Notation ev_s := (event_source (dc_batch c)).
Notation log_s := (log_source (dc_env c) (dc_tse c)).
Notation cdr_s := (cdr_source (dc_env c)).

(** memfault_data_packetizer.c:99-123 *)
Definition dv_sources : sources world := mk_so world
  (fun s w => match s with
    | SCoredump => do x <- s1_has core_s (w_core w); Some (fst x, mk_world (snd x) (w_ev w) (w_log w) (w_cdr w))
    | SEvent => do x <- s1_has ev_s (w_ev w); Some (fst x, mk_world (w_core w) (snd x) (w_log w) (w_cdr w))
    | SLog => do x <- s1_has log_s (w_log w); Some (fst x, mk_world (w_core w) (w_ev w) (snd x) (w_cdr w))
    | SCdr => do x <- s1_has cdr_s (w_cdr w); Some (fst x, mk_world (w_core w) (w_ev w) (w_log w) (snd x))
    end)
  (fun s w off buf => match s with
    | SCoredump => do x <- s1_read core_s (w_core w) off buf; Some (fst x, mk_world (snd x) (w_ev w) (w_log w) (w_cdr w))
    | SEvent => do x <- s1_read ev_s (w_ev w) off buf; Some (fst x, mk_world (w_core w) (snd x) (w_log w) (w_cdr w))
    | SLog => do x <- s1_read log_s (w_log w) off buf; Some (fst x, mk_world (w_core w) (w_ev w) (snd x) (w_cdr w))
    | SCdr => do x <- s1_read cdr_s (w_cdr w) off buf; Some (fst x, mk_world (w_core w) (w_ev w) (w_log w) (snd x))
    end)
  (fun s w => match s with
    | SCoredump => do x <- s1_mark core_s (w_core w); Some (mk_world x (w_ev w) (w_log w) (w_cdr w))
    | SEvent => do x <- s1_mark ev_s (w_ev w); Some (mk_world (w_core w) x (w_log w) (w_cdr w))
    | SLog => do x <- s1_mark log_s (w_log w); Some (mk_world (w_core w) (w_ev w) x (w_cdr w))
    | SCdr => do x <- s1_mark cdr_s (w_cdr w); Some (mk_world (w_core w) (w_ev w) (w_log w) x)
    end)
  (fun w => Some (mk_world (s1_reset core_s (w_core w)) (w_ev w) (w_log w) (w_cdr w))).

(** The rest of the application: calls of the event storage, the log and the recordings. *)
Inductive dv_op := AEvent (o : es_op) | ALog (o : log_op) | ACdr (o : cdr_op).
Inductive dv_res := AEventRes (r : es_res) | ALogRes (r : log_res) | ACdrRes (r : cdr_res).
Definition dv_app (w : world) (o : dv_op) : option (dv_res * world) :=
  match o with
  | AEvent o => do x <- es_step (dc_batch c) (w_ev w) o; Some (AEventRes (fst x), mk_world (w_core w) (snd x) (w_log w) (w_cdr w))
  | ALog o => do x <- log_step (dc_line c) (dc_tse c) (w_log w) o; Some (ALogRes (fst x), mk_world (w_core w) (w_ev w) (snd x) (w_cdr w))
  | ACdr o => do x <- cdr_step (dc_env c) (fst (w_cdr w)) (snd (w_cdr w)) o;
              let '(r, cw, s) := (x : cdr_res * cdr_world * cdr) in Some (ACdrRes r, mk_world (w_core w) (w_ev w) (w_log w) (cw, s))
  end.

(** Boot: the coredump storage as it is found, RAM for events and logs, recordings the application holds,
    room for [n] recording sources with [max] bytes of metadata. *)
Definition dv_boot (st ev log : list Z) (min : Z) (recs : cdr_world) (n max : Z) : option world :=
  do e <- es_boot ev (zlen ev); do e <- e;
  do l <- log_boot log (zlen log) min; do l <- l;
  Some (mk_world (mk_core st ds_init) e l (recs, cdr_init n max)).

Definition dv_run (w : world) (st : pk) (ops : list (@up_op dv_op)) : option (list (@up_res dv_res) * pk * world) :=
  up_run dv_sources (dc_up c) dv_app w st ops.
End Device.
