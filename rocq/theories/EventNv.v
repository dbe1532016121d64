(** Model of the non-volatile part of components/core/src/memfault_event_storage.c
    (MEMFAULT_EVENT_STORAGE_NV_SUPPORT_ENABLED == 1) over the RAM storage of EventStorage.v.

    The port's sMemfaultNonVolatileEventStorageImpl
    (include/memfault/core/platform/nonvolatile_event_storage.h:25-56) is a queue of messages that keeps
    its contract; what it is free to do is an input: whether enabled() says yes, and for each write in
    what pieces it reads the event through the callback and whether it then fails.  The callback
    memfault_event_storage_request_persist_callback is the last thing its callers do; an application that
    persists in it is a history with [NPersist] there. *)
From Verif Require Import Base CircularBuffer EventStorage.

(** The RAM storage, the port's messages (oldest first), what enabled() returns, and the static
    s_nv_event_storage_enabled of prv_nv_event_storage_enabled (memfault_event_storage.c:349). *)
Record nvs := mk_nvs { n_es : es; n_q : list (list Z); n_on : bool; n_seen : bool }.

(** One call of the port's write(): the sizes of its reads, and whether the device then accepts. *)
Definition nvw := (list Z * bool)%type.

(** The port reads the event through prv_event_storage_read_ram in pieces; [Some None]: a read failed. *)
Fixpoint nv_pull (s : es) (off : Z) (pieces : list Z) : option (option (list Z)) :=
  match pieces with
  | [] => Some (Some [])
  | n :: r => do d <- es_read s off n;
              match d with
              | None => Some None
              | Some d => do x <- nv_pull s (u32 (off + n)) r;
                          Some (match x with Some d' => Some (d ++ d') | None => None end)
              end
  end.
(** The port's write: a message is stored when all its bytes were read and the device accepts. *)
Definition nv_write (s : es) (total : Z) (w : nvw) (q : list (list Z)) : option (bool * list (list Z)) :=
  do x <- nv_pull s 0 (fst w);
  Some (match x with
        | Some m => if snd w && (zlen m =? total) then (true, q ++ [m]) else (false, q)
        | None => (false, q)
        end).

(** prv_save_event_to_persistent_storage, memfault_event_storage.c:333-347, called by
    memfault_event_storage_persist, :374-385, until it fails.  [ws]: how the port behaves at each write
    (beyond the list, the write fails). *)
Fixpoint nv_save_all (cfg : es_cfg) (ws : list nvw) (s : es) (q : list (list Z)) (saved : Z) : option (Z * es * list (list Z)) :=
  do h <- es_has cfg s;
  let '(has, total, s) := h in
  if negb has then Some (saved, s, q)
  else match ws with
       | [] => Some (saved, s, q)
       | w :: r =>
           do x <- nv_write s total w q;
           let (ok, q) := x in
           if ok then nv_save_all cfg r (es_mark s) q (saved + 1)
           else Some (saved, s, q)
       end.

(** prv_nv_event_storage_enabled, memfault_event_storage.c:349-370 *)
Definition nv_enabled (s : nvs) : bool * nvs :=
  let e := if n_seen s && negb (n_on s) then set_r (n_es s) 0 0 [] else n_es s in
  (n_on s, mk_nvs e (n_q s) (n_on s) (n_on s)).

Inductive nv_op :=
| NEvent (o : es_op)            (* the writer's calls and the byte counts, not the data source *)
| NHas | NRead (offset len : Z) | NMark
| NPersist (ws : list nvw)
| NPort (on : bool)             (* the port is enabled or disabled *)
| NReset (storage : list Z).    (* the device resets and boots with this RAM; the port keeps its messages *)
(** [asked]: memfault_event_storage_request_persist_callback was called. *)
Inductive nv_res :=
| NREvent (r : es_res) (asked : bool) | NRHas (b : bool) (size : Z) | NRRead (d : option (list Z)) | NRMark (asked : bool)
| NRSaved (n : Z) | NRNone.

Definition nv_step (cfg : es_cfg) (s : nvs) (o : nv_op) : option (nv_res * nvs) :=
  match o with
  | NEvent o =>
      do x <- es_step cfg (n_es s) o; let (r, e) := (x : es_res * es) in
      (* memfault_event_storage.c:304-308: the callback is called when a write in progress was committed *)
      Some (NREvent r (match o with EFinish false => es_wip (n_es s) | _ => false end), mk_nvs e (n_q s) (n_on s) (n_seen s))
  | NHas =>                                          (* prv_has_event, :424-427 *)
      let (on, s) := nv_enabled s in
      if on then Some (match n_q s with m :: _ => NRHas true (zlen m) | [] => NRHas false 0 end, s)
      else do x <- es_has cfg (n_es s); let '(b, n, e) := (x : bool * Z * es) in
           Some (NRHas b n, mk_nvs e (n_q s) (n_on s) (n_seen s))
  | NRead off n =>                                   (* prv_event_storage_read, :429-432 *)
      let (on, s) := nv_enabled s in
      if on then Some (NRRead (match n_q s with m :: _ => if off + n <=? zlen m then read_at m off n else None | [] => None end), s)
      else do d <- es_read (n_es s) off n; Some (NRRead d, s)
  | NMark =>                                         (* prv_event_storage_mark_event_read, :435-439; :385-394 *)
      let (on, s) := nv_enabled s in
      if on then do x <- es_has cfg (n_es s); let '(b, _, e) := (x : bool * Z * es) in
                 Some (NRMark b, mk_nvs e (tl (n_q s)) (n_on s) (n_seen s))
      else Some (NRMark false, mk_nvs (es_mark (n_es s)) (n_q s) (n_on s) (n_seen s))
  | NPersist ws =>                                   (* memfault_event_storage_persist, :372-383 *)
      let (on, s) := nv_enabled s in
      if on then do x <- nv_save_all cfg ws (n_es s) (n_q s) 0; let '(n, e, q) := (x : Z * es * list (list Z)) in
                 Some (NRSaved n, mk_nvs e q (n_on s) (n_seen s))
      else Some (NRSaved 0, s)
  | NPort on => Some (NRNone, mk_nvs (n_es s) (n_q s) on (n_seen s))
  | NReset storage =>
      do x <- es_boot storage (zlen storage); do e <- x;
      Some (NRNone, mk_nvs e (n_q s) (n_on s) false)
  end.
Fixpoint nv_run (cfg : es_cfg) (s : nvs) (ops : list nv_op) : option (list nv_res * nvs) :=
  match ops with
  | [] => Some ([], s)
  | o :: r => do x <- nv_step cfg s o; do y <- nv_run cfg (snd x) r; Some (fst x :: fst y, snd y)
  end.
(** After memfault_events_storage_boot, the port holding [q]. *)
Definition nv_boot (storage : list Z) (q : list (list Z)) (on : bool) : option nvs :=
  do x <- es_boot storage (zlen storage); do e <- x; Some (mk_nvs e q on false).
