(** Model of ports/dialog/da1469x/memfault_diagnostic_service.c: the Memfault Diagnostic Service (MDS), which
    streams chunks as notifications over BLE.

    The BLE stack, the heap and the application are answers given from outside; confirmations, notifications,
    allocations and the timer are recorded.  The packetizer is the one of Uplink.v.  Simplifications: events
    are handled one at a time (in the firmware the timer's callback runs in another task, without a lock);
    attribute handles are names; log output and the registration of the service are omitted. *)
From Coq Require Import String.
From Verif Require Import Base Packetizer Uplink.

Inductive hd := HFeatures | HUri | HAuth | HId | HChunk | HCccd | HOther.

(** Calls of the BLE stack, the heap and the timer *)
Inductive out :=
| ONotify (c : Z) (v : list Z) (ok : bool)                 (* ble_gatts_send_event *)
| OReadCfm (c : Z) (h : hd) (status : Z) (v : list Z)      (* ble_gatts_read_cfm *)
| OWriteCfm (c : Z) (h : hd) (status : Z)                  (* ble_gatts_write_cfm *)
| OAlloc (n : Z) (ok : bool) | OFree
| OStart | OStop.                                          (* xTimerChangePeriod and xTimerStart; xTimerStop *)

(** md_service_t, :106-132, without handles.  [m_payload]: the block, if not NULL *)
Record mds := mk_md { m_active : bool; m_mode : bool; m_seq : Z; m_conn : Z; m_payload : option (list Z); m_len : Z }.
(** mds_boot, :393-394 *)
Definition mds_boot : mds := mk_md false false 0 0 None 0.

(** What an attempt to notify meets: ble_gattc_get_mtu() ([None]: an error), OS_MALLOC() (the contents of the
    block), whether ble_gatts_send_event() succeeds *)
Record n_env := mk_ne { ne_mtu : option Z; ne_mem : option (list Z); ne_send : bool }.

(** The base of the URI, the project key and the serial number *)
Record m_cfg := mk_mc { mc_base : list Z; mc_key : list Z; mc_serial : list Z }.

(** prv_handle_disconnected_evt, :151-162 *)
Definition handle_gone (c : Z) (m : mds) : mds * list out :=
  (if m_active m && (m_conn m =? c) then mk_md false false 0 0 (m_payload m) (m_len m) else m, [OStop]).

(** prv_handle_read_req, :233-294, with [junk] the 64 bytes of uri *)
Definition handle_read (mc : m_cfg) (junk : list Z) (access : bool) (c : Z) (h : hd) (off : Z) : option out :=
  if negb access then Some (OReadCfm c h 2 [])                             (* :234-237; ATT_ERROR_READ_NOT_PERMITTED *)
  else
    do x <- match h with
            | HFeatures => Some (Some (1, [0]))
            | HUri =>
                do uri <- splice junk 0 (take 63 (mc_base mc ++ fill 63 0));                       (* :251 *)
                do uri <- put uri 63 0;
                let total := zlen (mc_base mc) + zlen (mc_serial mc) in
                if 63 <? total then Some None                              (* :258-261 *)
                else
                  do uri <- splice uri 0 (mc_base mc ++ [0]);              (* :263 *)
                  do uri <- splice uri (zlen (mc_base mc)) (mc_serial mc ++ [0]);                  (* :264 *)
                  do uri <- put uri 63 0;
                  Some (Some (total, uri))
            | HAuth => let v := str "Memfault-Project-Key:" ++ mc_key mc in Some (Some (zlen v, v))
            | HId => Some (Some (zlen (mc_serial mc), mc_serial mc))
            | _ => Some (Some (-1, []))
            end;
    match (x : option (Z * list Z)) with
    | None => Some (OReadCfm c h 0x82 [])                                  (* kMdsAppError_InsufficientLength *)
    | Some (len, value) =>
        if len =? -1 then Some (OReadCfm c h 2 [])                         (* :275-278 *)
        else if 512 <? len then Some (OReadCfm c h 0x80 [])                (* :280-284; kMdsAppError_InvalidLength *)
        else if len <? off then Some (OReadCfm c h 0 [])                   (* :286-287 *)
        else do v <- read_at value off (len - off); Some (OReadCfm c h 0 v)
    end.

(** prv_handle_cccd_write, :296-324 *)
Definition cccd_write (c off : Z) (v : list Z) (m : mds) : option (Z * mds) :=
  if negb (off =? 0) then Some (0x0b, m)                                   (* ATT_ERROR_ATTRIBUTE_NOT_LONG *)
  else if negb (zlen v =? 2) then Some (0x80, m)
  else
    do lo <- get v 0; do hi <- get v 1;
    let sub := negb (Z.land (lo + 256 * hi) 1 =? 0) in
    if negb (m_active m) then Some (0, mk_md sub (m_mode m) (m_seq m) c (m_payload m) (m_len m))
    else if m_conn m =? c then Some (0, mk_md sub (m_mode m) (m_seq m) (m_conn m) (m_payload m) (m_len m))
    else Some (0x81, m).                                                   (* kMdsAppError_ClientAlreadySubscribed *)

Section Mds.
Context {W : Type}.
Variables (so : sources W) (cfg : up_cfg) (mc : m_cfg) (junk : list Z).

(** prv_try_notify, :164-209 *)
Definition try_notify (e : n_env) (c : Z) (m : mds) (w : W) (st : pk) : option (mds * list out * pk * W) :=
  if negb (m_active m) || negb (m_conn m =? c) then Some (m, [], st, w)    (* :165-169 *)
  else if negb (m_mode m) then Some (m, [], st, w)                         (* :171-174 *)
  else
    match ne_mtu e with
    | None => Some (m, [], st, w)                                          (* :178-180 *)
    | Some mtu =>
        do x <- match m_payload m with
                | Some _ => Some (m, [], st, w)
                | None =>
                    do y <- up_avail so cfg w st;                          (* :182 *)
                    let '(avail, w, _) := (y : bool * W * list pk_call) in
                    if negb avail then Some (m, [], st, w)
                    else
                      match ne_mem e with
                      | None => Some (m, [OAlloc (mtu - 3) false], st, w)
                      | Some b =>
                          do b <- put b 0 (Z.land (m_seq m) 0x1f);         (* :185 *)
                          let len := mtu - 3 - 1 in                        (* :186 *)
                          do z <- up_get_chunk so cfg w st (take len (drop 1 b));
                          let '(ok, d, st, w, _) := (z : bool * list Z * pk * W * list pk_call) in
                          do b <- splice b 1 d;
                          Some (mk_md (m_active m) (m_mode m) (m_seq m) (m_conn m) (Some b) (if ok then zlen d else len), [OAlloc (mtu - 3) true], st, w)
                      end
                end;
        let '(m, l, st, w) := (x : mds * list out * pk * W) in
        if negb (m_len m =? 0) then                                        (* :191 *)
          do b <- m_payload m;
          do v <- read_at b 0 (m_len m + 1);                               (* :192-193 *)
          if ne_send e then
            Some (mk_md (m_active m) (m_mode m) ((m_seq m + 1) mod 32) (m_conn m) None 0, l ++ [ONotify c v true; OFree], st, w)   (* :194-202 *)
          else Some (m, l ++ [ONotify c v false; OStart], st, w)           (* :207-208 *)
        else Some (m, l ++ [OStart], st, w)
    end.

(** The loop of prv_mds_timer_callback, :224-226, on the connections in the order of the loop *)
Fixpoint try_all (l : list (Z * n_env)) (m : mds) (w : W) (st : pk) : option (mds * list out * pk * W) :=
  match l with
  | [] => Some (m, [], st, w)
  | (c, e) :: l =>
      do x <- try_notify e c m w st;
      let '(m, o1, st, w) := (x : mds * list out * pk * W) in
      do y <- try_all l m w st;
      let '(m, o2, st, w) := (y : mds * list out * pk * W) in
      Some (m, o1 ++ o2, st, w)
  end.

(** prv_handle_data_export_write, :326-355 *)
Definition export_write (e : n_env) (c off : Z) (v : list Z) (m : mds) (w : W) (st : pk) : option (Z * mds * list out * pk * W) :=
  if negb (off =? 0) then Some (0x0b, m, [], st, w)
  else if negb (zlen v =? 1) then Some (0x80, m, [], st, w)
  else if negb (m_active m) || negb (m_conn m =? c) then Some (0x83, m, [], st, w)      (* kMdsAppError_ClientNotSubscribed *)
  else
    do cmd <- get v 0;
    if negb ((cmd =? 0) || (cmd =? 1)) then Some (6, m, [], st, w)         (* ATT_ERROR_REQUEST_NOT_SUPPORTED *)
    else
      do x <- try_notify e c (mk_md (m_active m) (cmd =? 1) (m_seq m) (m_conn m) (m_payload m) (m_len m)) w st;
      let '(m, o, st, w) := (x : mds * list out * pk * W) in
      Some (0, m, o, st, w).

(** prv_handle_write_req, :357-373 *)
Definition handle_write (access : bool) (e : n_env) (c : Z) (h : hd) (off : Z) (v : list Z) (m : mds) (w : W) (st : pk) : option (mds * list out * pk * W) :=
  if negb access then Some (m, [OReadCfm c h 3 []], st, w)                 (* :358-361; ATT_ERROR_WRITE_NOT_PERMITTED *)
  else
    match h with
    | HCccd => do x <- cccd_write c off v m; let (s, m) := (x : Z * mds) in Some (m, [OWriteCfm c h s], st, w)
    | HChunk => do x <- export_write e c off v m w st; let '(s, m, o, st, w) := (x : Z * mds * list out * pk * W) in
                Some (m, o ++ [OWriteCfm c h s], st, w)
    | _ => Some (m, [OWriteCfm c h 0x0a], st, w)                           (* ATT_ERROR_ATTRIBUTE_NOT_FOUND *)
    end.

(** prv_cleanup_service, :375-386: what is freed, but for the service itself *)
Definition cleanup (m : mds) : list out := match m_payload m with Some _ => [OFree] | None => [] end.

(** ** Histories: events of the BLE stack, the timer, and everything else the application does. *)
Context {O R : Type}.
Variable app : W -> O -> option (R * W).
Inductive m_op :=
| MGone (c : Z)                                            (* a disconnection *)
| MRead (access : bool) (c : Z) (h : hd) (off : Z)
| MWrite (access : bool) (e : n_env) (c : Z) (h : hd) (off : Z) (v : list Z)
| MSent (c : Z) (e : n_env)                                (* event_sent, :388-390 *)
| MTimer (l : list (Z * n_env))                            (* :213-231, on the connections ble_gap_get_connected() gives *)
| MApp (o : O).
Inductive m_res := MROut (l : list out) | MRApp (r : R).
Definition m_step (m : mds) (w : W) (st : pk) (o : m_op) : option (m_res * mds * pk * W) :=
  match o with
  | MGone c => let (m, l) := handle_gone c m in Some (MROut l, m, st, w)
  | MRead access c h off => do x <- handle_read mc junk access c h off; Some (MROut [x], m, st, w)
  | MWrite access e c h off v => do x <- handle_write access e c h off v m w st; let '(m, l, st, w) := (x : mds * list out * pk * W) in Some (MROut l, m, st, w)
  | MSent c e => do x <- try_notify e c m w st; let '(m, l, st, w) := (x : mds * list out * pk * W) in Some (MROut l, m, st, w)
  | MTimer l => do x <- try_all (rev l) m w st; let '(m, l, st, w) := (x : mds * list out * pk * W) in Some (MROut l, m, st, w)
  | MApp o => do x <- app w o; let (r, w) := (x : R * W) in Some (MRApp r, m, st, w)
  end.
Fixpoint m_run (m : mds) (w : W) (st : pk) (ops : list m_op) : option (list m_res * mds * pk * W) :=
  match ops with
  | [] => Some ([], m, st, w)
  | o :: r => do x <- m_step m w st o; let '(res, m, st, w) := (x : m_res * mds * pk * W) in
              do y <- m_run m w st r; let '(rs, m, st, w) := (y : list m_res * mds * pk * W) in Some (res :: rs, m, st, w)
  end.
End Mds.
Arguments MGone {O}. Arguments MRead {O}. Arguments MWrite {O}. Arguments MSent {O}. Arguments MTimer {O}. Arguments MApp {O}. Arguments MROut {R}. Arguments MRApp {R}.
