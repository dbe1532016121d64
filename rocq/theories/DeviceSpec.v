(** Independent specification of a device: what it holds, what it offers for upload, and the accounts: what
    arrived at the cloud against what was written. *)
From Verif Require Import Base Packetizer PacketizerSpec Uplink UplinkSpec EventStorage EventStorageSpec Log LogSpec
  LogDataSourceSpec SerializerHelper SerializerHelperSpec Cdr CdrSpec CoredumpSpec CborSpec Rle RleSpec Device.

(** What a device holds: the coredump, the events, the logs with the time of the upload in progress, the
    recordings. *)
Record held := mk_held { e_core : option (list Z); e_ev : sev; e_log : hist; e_time : option Z; e_cdr : cdr_view }.
Definition held_ev (a : held) (v : sev) : held := mk_held (e_core a) v (e_log a) (e_time a) (e_cdr a).
Definition held_log (a : held) (h : hist) (t : option Z) : held := mk_held (e_core a) (e_ev a) h t (e_cdr a).
Definition held_cdr (a : held) (v : cdr_view) : held := mk_held (e_core a) (e_ev a) (e_log a) (e_time a) v.

(** The coredump found in storage: magic "CORE", the size at offset 8. *)
Definition stored_core (st : list Z) : option (list Z) :=
  if (12 <=? zlen st) && (le (take 4 st) =? 0x45524f43) then Some (take (le (take 4 (drop 8 st))) st) else None.

(** What is held at boot. *)
Definition held_boot (st : list Z) (min : Z) (recs : cdr_world) : held :=
  mk_held (stored_core st) (mk_sev [] None 0) (hist_init min) None (mk_cv [] recs None).

Section Device.
Variable c : dv_cfg.
(** Sizes: event storage, log buffer, table of recording sources, metadata of a recording. *)
Variables ecap lcap rn rmax : Z.
(** The messages: of a coredump, of logs (preceded by logs of some size, uploaded at some time), of a recording. *)
Variable cmsg : list Z -> list Z.
Variable lmsg : Z -> option Z -> list hlog -> list Z.
Variable rmsg : cdr_rec -> list Z.

(** Events covered by the read in progress, or by the next one. *)
Definition ev_covered (v : sev) : Z := if v_reading v =? 0 then batch (dc_batch c) (v_events v) else v_reading v.
(** Index of the first log of an upload. *)
Definition up_from (h : hist) : Z := Z.max (first lcap (h_saved h)) (h_sent h).
(** Source of the recording being read, or to be read next. *)
Definition rec_source (v : cdr_view) : option Z :=
  match cv_act v with Some i => Some i | None => first_with (cv_world v) (cv_reg v) end.

Definition dv_offer (s : src) (a : held) : option (list Z) :=
  match s with
  | SCoredump => option_map cmsg (e_core a)
  | SEvent => if 1 <=? ev_covered (e_ev a) then Some (message (dc_batch c) (v_events (e_ev a)) (ev_covered (e_ev a))) else None
  | SLog => match h_up (e_log a) with
            | Some _ => Some (lmsg (hrooms (take (up_from (e_log a)) (h_saved (e_log a)))) (e_time a) (uploading lcap (e_log a)))
            | None => None
            end
  | SCdr => match rec_source (e_cdr a) with
            | Some i => option_map rmsg (hd_error (cv_world (e_cdr a) i))
            | None => None
            end
  end.
Definition dv_ask (s : src) (a : held) : held :=
  match s with
  | SEvent => held_ev a (mk_sev (v_events (e_ev a)) (v_part (e_ev a)) (ev_covered (e_ev a)))
  | SCdr => held_cdr a (mk_cv (cv_reg (e_cdr a)) (cv_world (e_cdr a)) (rec_source (e_cdr a)))
  | _ => a
  end.
Definition dv_mark (s : src) (a : held) : held :=
  match s with
  | SCoredump => mk_held None (e_ev a) (e_log a) (e_time a) (e_cdr a)
  | SEvent => held_ev a (mk_sev (drop (ev_covered (e_ev a)) (v_events (e_ev a))) (v_part (e_ev a)) 0)
  | SLog => match hist_step (dc_line c) lcap (e_log a) LMarkSent with Some (_, h) => held_log a h (e_time a) | None => a end
  | SCdr => match rec_source (e_cdr a) with
            | Some i => let w := cv_world (e_cdr a) in held_cdr a (mk_cv (cv_reg (e_cdr a)) (w_set w i (tl (w i))) None)
            | None => a
            end
  end.
(** The application writes; reading, acknowledging and resetting is the packetizer's. *)
Definition dv_spec (a : held) (o : dv_op) : option (dv_res * held) :=
  match o with
  | AEvent o =>
      if is_reader o then None
      else do x <- sev_step (dc_batch c) ecap (e_ev a) o; Some (AEventRes (fst x), held_ev a (snd x))
  | ALog LMarkSent => None
  | ALog o =>
      do x <- hist_step (dc_line c) lcap (e_log a) o;
      Some (ALogRes (fst x), held_log a (snd x) (match o, h_up (e_log a) with LTrigger t, None => t | _, _ => e_time a end))
  | ACdr (CoRegister _ as o) | ACdr (CoRecord _ _ as o) =>
      do x <- cv_step rmsg rn (e_cdr a) o; Some (ACdrRes (fst x), held_cdr a (snd x))
  | ACdr _ => None
  end.
(** A recording that can be uploaded: its metadata fits the buffer, its message the chunk transport. *)
Definition rec_fine (r : cdr_rec) : Prop :=
  rec_ok r /\ zlen (rmsg r) - zlen (cr_data r) <= rmax /\ zlen (rmsg r) + zlen (uc_key (dc_up c)) < 4294967292.
Definition dv_fine (o : dv_op) : Prop :=
  match o with AEvent o => ev_ok o | ALog o => log_op_ok (dc_tse c) o | ACdr o => op_recs rec_fine o end.
Definition dv_dev : device held dv_op dv_res := mk_dev _ _ _ dv_offer dv_ask dv_mark dv_fine dv_spec.

(** ** Accounts *)
Definition of_src (s : src) (msgs : list (src * list Z)) : list (list Z) :=
  map snd (filter (fun x => src_type (fst x) =? src_type s) msgs).
Definition ev_calls (l : list (dv_op * dv_res)) : list (es_op * es_res) :=
  flat_map (fun x => match x with (AEvent o, AEventRes r) => [(o, r)] | _ => [] end) l.
Definition log_calls (l : list (dv_op * dv_res)) : list (log_op * log_res) :=
  flat_map (fun x => match x with (ALog o, ALogRes r) => [(o, r)] | _ => [] end) l.
(** Events committed; [p]: the event being written. *)
Fixpoint committed (p : list Z) (l : list (es_op * es_res)) : list (list Z) :=
  match l with
  | [] => []
  | (EAppend d, ROk true) :: r => committed (p ++ d) r
  | (EFinish rollback, _) :: r => (if rollback then [] else match p with [] => [] | _ => [p] end) ++ committed [] r
  | _ :: r => committed p r
  end.
(** Recordings made for source [i]. *)
Definition recorded (i : Z) (l : list (dv_op * dv_res)) : list cdr_rec :=
  flat_map (fun x => match x with (ACdr (CoRecord j r), _) => if j =? i then [r] else [] | _ => [] end) l.

(** Events: the messages received are made of consecutive events, one or with batching as many as fit the
    limit, and these followed by the ones still held are the ones committed. *)
Definition batch_ok (b : list (list Z)) : Prop :=
  zlen b = 1 \/ match dc_batch c with Some max => 1 < zlen b /\ zlen (concat b) <= max | None => False end.
Definition events_accounted (msgs : list (list Z)) (l : list (es_op * es_res)) (v : sev) : Prop :=
  exists bs, msgs = map (fun b => message (dc_batch c) b (zlen b)) bs /\ Forall batch_ok bs /\
    concat bs ++ v_events v = committed [] l.
(** The coredump found at boot was received once, or is still held. *)
Definition core_accounted (msgs : list (list Z)) (boot now : option (list Z)) : Prop :=
  match boot with
  | Some m => (msgs = [] /\ now = Some m) \/ (msgs = [cmsg m] /\ now = None)
  | None => msgs = [] /\ now = None
  end.
(** Recordings: per source, those received followed by those still held are those there were at boot
    followed by those made. *)
Definition recs_accounted (msgs : list (list Z)) (boot : cdr_world) (l : list (dv_op * dv_res)) (v : cdr_view) : Prop :=
  exists rs : list (Z * cdr_rec), msgs = map (fun x => rmsg (snd x)) rs /\
    forall i, map snd (filter (fun x => fst x =? i) rs) ++ cv_world v i = boot i ++ recorded i l.
(** Logs: each message received is an upload of consecutive logs out of those saved, at the time given with
    a trigger.  It begins with the first log not yet uploaded or, when that was overwritten, with the oldest
    one in the buffer; so no log is in two, and a log that is in none was overwritten first. *)
Record upload := mk_upload { u_from : Z; u_to : Z; u_time : option Z }.
Fixpoint successive (saved : list hlog) (lo : Z) (l : list upload) (hi : Z) : Prop :=
  match l with
  | [] => lo = hi
  | u :: r => u_from u = Z.max lo (first lcap (take (u_to u) saved)) /\ u_from u < u_to u /\ successive saved (u_to u) r hi
  end.
Definition logs_of (saved : list hlog) (u : upload) : list hlog := take (u_to u - u_from u) (drop (u_from u) saved).
Definition logs_accounted (msgs : list (list Z)) (l : list (log_op * log_res)) (h : hist) : Prop :=
  h_saved h = accepted (dc_line c) (map fst l) (map snd l) /\
  exists us, msgs = map (fun u => lmsg (hrooms (take (u_from u) (h_saved h))) (u_time u) (logs_of (h_saved h) u)) us /\
    successive (h_saved h) 0 us (h_sent h) /\ h_sent h <= zlen (h_saved h) /\
    Forall (fun u => In (LTrigger (u_time u)) (map fst l) /\ hrooms (logs_of (h_saved h) u) <= lcap) us.

(** The whole account of a history [ops] with results [rs]. *)
Definition accounted (core : option (list Z)) (recs : cdr_world) (ops : list (@up_op dv_op)) (rs : list (@up_res dv_res)) (a : held) : Prop :=
  exists msgs got cs, cloud None (chunks rs) = (cs, got) /\ received (dc_up c) got msgs /\
    let l := app_calls ops rs in
    core_accounted (of_src SCoredump msgs) core (e_core a) /\
    events_accounted (of_src SEvent msgs) (ev_calls l) (e_ev a) /\
    logs_accounted (of_src SLog msgs) (log_calls l) (e_log a) /\
    recs_accounted (of_src SCdr msgs) recs l (e_cdr a).

(** Nothing is left to upload from a source. *)
Definition nothing_held (s : src) (a : held) : Prop :=
  match s with
  | SCoredump => e_core a = None
  | SEvent => v_events (e_ev a) = []
  | SLog => h_up (e_log a) = None
  | SCdr => forall i, In i (cv_reg (e_cdr a)) -> cv_world (e_cdr a) i = []
  end.
End Device.

(** What the cloud reads in the messages: the coredump, run-length encoded if so configured; the logs, when
    they are whole; the recording, whose data ends the message. *)
Definition log_in_range (tse : bool) (e : hlog) : Prop :=
  0 <= l_level e < 8 /\ 0 <= l_type e < 2 /\ zlen (l_text e) <= 255 /\
  match l_ts e with Some t => is_u32 t /\ tse = true | None => True end.
Definition messages_read (c : dv_cfg) (lcap : Z) (cmsg : list Z -> list Z) (lmsg : Z -> option Z -> list hlog -> list Z)
  (rmsg : cdr_rec -> list Z) : Prop :=
  (forall m, zlen m < 2147483648 -> if uc_rle (dc_up c) then rle_decode (cmsg m) = Some m else cmsg m = m) /\
  (forall before t l, Forall (log_in_range (dc_tse c)) l -> hrooms l <= lcap -> all_whole lcap before l ->
     cbor_read (lmsg before t l) = Some (logs_item (dc_env c) (dc_tse c) t l, [])) /\
  (forall r, rec_ok r -> cbor_read (rmsg r) = Some (cdr_item (dc_env c) r, []) /\ exists head, rmsg r = head ++ cr_data r).

(** Configurations and memories covered: a project key of at most 32 bytes, a coredump that ends within the
    storage, storage that holds no coredump once cleared, buffers within range. *)
Record device_ok (c : dv_cfg) (st ev log : list Z) (rn rmax : Z) : Prop := {
  d_key : bytes (uc_key (dc_up c)) /\ zlen (uc_key (dc_up c)) <= 32;
  d_core : bytes st /\ zlen st <= 1073741824 /\ (stored_core st <> None -> le (take 4 (drop 8 st)) <= zlen st);
  d_clear : forall st, bytes st -> stored_core (dc_clear c st) = None /\ bytes (dc_clear c st) /\ zlen (dc_clear c st) = zlen st;
  d_env : senv_ok (dc_env c);
  d_ev : 0 < zlen ev <= 2147483648;
  d_line : 4 <= dc_line c <= 255;
  d_log : 0 < zlen log <= 268435456;
  d_rec : 0 <= rn /\ is_u32 rmax }.
