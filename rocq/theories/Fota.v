(** Model of the firmware updates of the Zephyr ports: ports/zephyr/common/memfault_platform_fota.c with the
    MCUboot backend, ports/zephyr/ncs/src/memfault_fota.c and memfault_fota_legacy.c.

    The OTA client below them is that of ZephyrOta.v and ZephyrSock.v.  The libraries are their answers:
    flash_img_init, flash_img_buffered_write, boot_request_upgrade and the download library of the nRF
    Connect SDK answer anything.  What flash_img_buffered_write does when it succeeds is part of the model,
    after its documentation.
    Simplifications: log output is omitted, but not the arithmetic for it; the dummy backend (:134-179) is
    not modelled; a failed write leaves nothing behind. *)
From Verif Require Import Base HttpUtils HttpRequest ZephyrHttp ZephyrOta ZephyrSock.

(** ** The MCUboot backend *)
(** The image writer: what is in the slot, and what is buffered for the next block of
    CONFIG_IMG_BLOCK_BUF_SIZE = [blk] bytes.  Whole blocks are written; the rest only if told to flush. *)
Record img := mk_img { im_slot : list Z; im_buf : list Z }.
Definition img_write (blk : Z) (s : img) (d : list Z) (flush : bool) : img :=
  let t := im_buf s ++ d in
  let n := zlen t / blk * blk in
  if flush then mk_img (im_slot s ++ t) [] else mk_img (im_slot s ++ take n t) (drop n t).

(** memfault_zephyr_fota_download_callback: the default with the answer of boot_request_upgrade, or the
    application's (:32-46) *)
Inductive callback := Default (rq : Z) | Custom (ok : bool).
(** One start: the answers of flash_img_init and flash_img_buffered_write (given all calls of the handler up
    to this one), the callback, the block size, and the two connections *)
Record fenv := mk_fenv { fe_init : Z; fe_write : list h_call -> Z; fe_cb : callback; fe_blk : Z; fe_n1 : net; fe_n2 : net }.
(** What is done to the rest of the system; kMfltRebootReason_FirmwareUpdate is 3. *)
Inductive act := AInit (rv : Z) | AWrite (d : list Z) (rv : Z) | ARequest (rv : Z) | AMark (reason : Z) | AReboot.
(** sMemfaultOtaDownloadCtx, :26-29 *)
Record fctx := mk_fctx { fc_size : Z; fc_img : img }.
Inductive hres := HRet (b : bool) | HReboot | HFault.

(** The handlers, :49-82; [log]: the calls up to this one.  The percentage of :66 is computed in int, up to
    the division by the size in size_t: an overflow and a division by zero are faults. *)
Definition f_handle (e : fenv) (c : fctx) (log : list h_call) (k : h_call) : hres * fctx * list act :=
  match k with
  | HUpdate size => (HRet true, mk_fctx size (fc_img c), [])                     (* :51 *)
  | HData d =>
      let rv := fe_write e log in
      if negb (rv =? 0) then (HRet false, c, [AWrite d rv])                      (* :60 *)
      else
        let c := mk_fctx (fc_size c) (img_write (fe_blk e) (fc_img c) d false) in     (* :59 *)
        let written := zlen (im_slot (fc_img c)) in                              (* :65 *)
        if (2147483648 <=? written * 100) || (fc_size c =? 0) then (HFault, c, [AWrite d 0])   (* :66 *)
        else (HRet true, c, [AWrite d 0])
  | HComplete =>
      match fe_cb e with
      | Default rq =>
          if negb (rq =? 0) then (HRet false, c, [ARequest rq])                  (* :34 *)
          else (HReboot, c, [ARequest 0; AMark 3; AReboot])                      (* :41-42 *)
      | Custom ok => (HRet ok, c, [])
      end
  end.
(** The handler over a sequence of calls: the answer to the last one *)
Fixpoint f_play (e : fenv) (c : fctx) (past todo : list h_call) : hres * fctx * list act :=
  match todo with
  | [] => (HRet true, c, [])
  | k :: r =>
      let '(h, c, a) := f_handle e c (past ++ [k]) k in
      match r with
      | [] => (h, c, a)
      | _ => let '(h, c, a') := f_play e c (past ++ [k]) r in (h, c, a ++ a')
      end
  end.
Definition c_init := mk_fctx 0 (mk_img [] []).
(** The client gets no answer from a call that does not return; it makes no further call then. *)
Definition f_ans (e : fenv) (log : list h_call) : bool :=
  match fst (fst (f_play e c_init [] log)) with HRet b => b | _ => false end.

Inductive fres := Ret (rv : Z) | Rebooted | Faulted.
Section Mcuboot.
Variable o : os.
Variable oc : o_cfg.
Variable junk : list Z.
(** memfault_zephyr_fota_start, :84-130; [busy]: s_fota_in_progress *)
Definition fota_start (e : fenv) (busy : bool) (l : list ev) : option (fres * bool * fctx * list act * list ev) :=
  if busy then Some (Ret (-1), true, c_init, [], l)                              (* :86 *)
  else if negb (fe_init e =? 0) then Some (Ret (fe_init e), true, c_init, [AInit (fe_init e)], l)   (* :91, :113-116 *)
  else
    do x <- ota_update o oc junk (f_ans e) (fe_blk e) (fe_n1 e) (fe_n2 e) l;     (* :118 *)
    let '(rv, _, log, l) := (x : Z * (list Z * list Z) * list h_call * list ev) in
    let '(h, c, a) := f_play e c_init [] log in
    Some (match h with HRet _ => Ret rv | HReboot => Rebooted | HFault => Faulted end, false, c, AInit 0 :: a, l).   (* :128 *)
(** Starts, one after the other, until the device is reset *)
Fixpoint fota_starts (es : list fenv) (busy : bool) (l : list ev) : option (list (fres * list act)) :=
  match es with
  | [] => Some []
  | e :: r =>
      do x <- fota_start e busy l;
      let '(res, busy, _, a, l) := (x : fres * bool * fctx * list act * list ev) in
      match res with
      | Ret _ => do y <- fota_starts r busy l; Some ((res, a) :: y)
      | _ => Some [(res, a)]
      end
  end.
End Mcuboot.

(** ** nRF Connect SDK *)
(** memfault_fota.c; memfault_fota_legacy.c from nRF Connect SDK 2.6 on; before *)
Inductive ncs := Downloader | AnyCert | EachCert.
(** Calls of the library: fota_download_init, fota_download_any or _start with host, file and the
    certificates; and the reset *)
Inductive dcall := DInit (rv : Z) | DGet (host file : list Z) (certs : list Z) (rv : Z) | DReboot.
(** s_download_url, what it points to; and whether the library has a download running *)
Record nst := mk_nst { ns_url : option (list Z); ns_dl : bool }.
Fixpoint strchr (l : list Z) (c : Z) : option Z :=
  match l with
  | [] => None
  | x :: r => if x =? c then Some 0 else match strchr r c with Some i => Some (i + 1) | None => None end
  end.
(** s_memfault_fota_certs, memfault_fota.c:94-96: the numbers of the certificates
    DigicertRootG2, AmazonRootCa1 and DigicertRootCa, root_cert_storage.h:24-28 *)
Definition certs : list Z := [1001; 1002; 1003].

Section Ncs.
Variable v : ncs.
Variable o : os.
Variable oc : o_cfg.
Variable junk : list Z.
Variable custom : bool.
(** The answer of the library, given all calls so far *)
Variable lib : list dcall -> Z.
Variable ealready : Z.

(** memfault_fota_legacy.c:167-202: one certificate after the other *)
Fixpoint each_cert (url : list Z) (cs : list Z) (rv : Z) (q : list dcall) : Z * list dcall :=
  match cs with
  | [] => (rv, q)
  | c :: r =>
      let rv := lib q in let q := q ++ [DGet url url [c] rv] in
      if (rv =? 0) || (rv =? ealready) then (rv, q) else each_cert url r rv q    (* :170, :175 *)
  end.
(** memfault_fota.c:115-140, memfault_fota_legacy.c:159-208: the result, the memory of the URL, the calls.
    [None]: a write outside of the memory *)
Definition download (mem : list Z) (q : list dcall) : option (Z * list Z * list dcall) :=
  match v with
  | Downloader =>
      match strchr (cstr mem) 47 with                                            (* :116 *)
      | None => Some (-1, mem, q)
      | Some i =>
          do mem <- put mem i 0;                                                 (* :125 *)
          let host := cstr mem in let file := cstr (drop (i + 1) mem) in
          let rv := lib q in Some (rv, mem, q ++ [DGet host file certs rv])      (* :133-135 *)
      end
  | AnyCert => let rv := lib q in Some (rv, mem, q ++ [DGet (cstr mem) (cstr mem) certs rv])
  | EachCert => let (rv, q) := each_cert (cstr mem) certs 0 q in Some (rv, mem, q)
  end.
(** prv_fota_url_cleanup, :51-54 *)
Definition url_cleanup (url : option (list Z)) (l : list ev) : option (list Z) * list ev := (None, release_download_url url l).
(** memfault_zephyr_port_get_download_url on a pointer that may be set already (memfault_platform_http.c:609,
    :649-660), then memfault_fota_start, memfault_fota.c:98-152, memfault_fota_legacy.c:142-220 *)
Definition ncs_start (n : net) (s : nst) (q : list dcall) (l : list ev) : option (Z * nst * list dcall * list ev) :=
  do x <- check_ota o oc junk n l;
  let '(ok, got, _, l) := (x : bool * option (list Z) * list Z * list ev) in
  if negb ok then Some (-1, s, q, l)
  else
    match (match got with Some m => Some m | None => ns_url s end) with
    | None => Some (0, s, q, l)
    | Some mem =>
        let rv := lib q in let q := q ++ [DInit rv] in                           (* :109 *)
        if negb (rv =? 0) then
          let (url, l) := if rv =? 1 then (Some mem, l) else url_cleanup (Some mem) l in
          Some (rv, mk_nst url (ns_dl s), q, l)
        else
          do y <- download mem q;
          let '(rv, mem, q) := (y : Z * list Z * list dcall) in
          if rv =? 0 then Some (1, mk_nst (Some mem) true, q, l)                 (* :143 *)
          else
            let (url, l) := if rv =? 1 then (Some mem, l) else url_cleanup (Some mem) l in   (* :147 *)
            Some (rv, mk_nst url (ns_dl s), q, l)
    end.

Inductive devt := Finished | Error | Cancelled | Progress.
(** prv_fota_download_callback_wrapper, :78-92, with the default callback, :57-72, or one of the application
    that leaves the URL alone: whether the device was reset *)
Definition ncs_event (e : devt) (s : nst) (q : list dcall) (l : list ev) : bool * nst * list dcall * list ev :=
  if match e with Finished => negb custom | _ => false end then (true, s, q ++ [DReboot], l)   (* :63 *)
  else
    let (url, l) := match e with
                    | Error | Cancelled => if custom then (ns_url s, l) else url_cleanup (ns_url s) l   (* :68 *)
                    | _ => (ns_url s, l) end in
    let (url, l) := match e with Progress => (url, l) | _ => url_cleanup url l end in           (* :87 *)
    (false, mk_nst url (match e with Progress => ns_dl s | _ => false end), q, l).

Inductive nop := NStart (n : net) | NEvent (e : devt).
(** A history, until the device is reset: the results of the starts, the state, the calls *)
Fixpoint ncs_run (ops : list nop) (s : nst) (q : list dcall) (l : list ev) : option (list Z * nst * list dcall * list ev) :=
  match ops with
  | [] => Some ([], s, q, l)
  | NStart n :: r =>
      do x <- ncs_start n s q l;
      let '(rv, s, q, l) := (x : Z * nst * list dcall * list ev) in
      do y <- ncs_run r s q l;
      let '(rvs, s, q, l) := (y : list Z * nst * list dcall * list ev) in Some (rv :: rvs, s, q, l)
  | NEvent e :: r =>
      let '(reset, s, q, l) := ncs_event e s q l in
      if (reset : bool) then Some ([], s, q, l) else ncs_run r s q l
  end.
End Ncs.
