(** C98, C99: firmware updates on Zephyr and with the nRF Connect SDK. *)
From Coq Require Import String.
From Verif Require Import Base HttpUtils HttpUtilsSpec HttpRequest HttpRequestSpec ZephyrHttp ZephyrHttpSpec ZephyrOta ZephyrOtaSpec ZephyrSock ZephyrSockSpec Fota FotaSpec FotaProofs.

(** Whatever the servers, the image writer and the bootloader answer: the slot holds the whole blocks of
    what the image writer accepted, and the device is reset for the update only after everything the
    client passed on was accepted and the bootloader took the request; the reset is then marked. *)
Theorem C98_slot_and_reset : forall o oc junk e busy l res busy' c a l', 0 < fe_blk e ->
  fota_start o oc junk e busy l = Some (res, busy', c, a, l') ->
  im_slot (fc_img c) = whole_blocks (fe_blk e) (accepted a) /\ (In AReboot a <-> res = Rebooted) /\ (res = Rebooted -> upgraded a).
Proof. exact start_ok. Qed.
Print Assumptions C98_slot_and_reset.

(** With servers that send a URL and an image, or the beginning of them: the image writer gets a prefix of
    the image, and if the device is reset, or the application told that the download is complete, all of
    it.  An image below 21 MB causes no fault. *)
Theorem C98_image : forall o oc junk e l hd1 code1 url missing1 hd2 code2 payload missing2, fe_init e = 0 ->
  zlen junk = 48 -> bytes (oc_serial oc) -> bytes (oc_hwver oc) -> bytes (oc_swtype oc) -> bytes (oc_swver oc) ->
  Forall param_fits [oc_serial oc; oc_hwver oc; oc_swtype oc; oc_swver oc] -> 0 < fe_blk e ->
  bytes hd1 -> response_head hd1 code1 (zlen url) -> url <> [] -> serves (n_rx (fe_n1 e)) hd1 url missing1 ->
  bytes url -> ~ In 0 url -> ~ bare_scheme url ->
  bytes hd2 -> response_head hd2 code2 (zlen payload) -> payload <> [] -> serves (n_rx (fe_n2 e)) hd2 payload missing2 ->
  exists res c a l', fota_start o oc junk e false l = Some (res, false, c, a, l') /\
    (exists rest, payload = accepted a ++ rest) /\
    (res = Rebooted -> accepted a = payload /\ im_slot (fc_img c) = whole_blocks (fe_blk e) payload /\ fe_cb e = Default 0) /\
    (res = Ret 1 -> accepted a = payload /\ im_slot (fc_img c) = whole_blocks (fe_blk e) payload /\ fe_cb e = Custom true) /\
    (zlen payload * 100 < 2147483648 -> res <> Faulted).
Proof. exact start_served. Qed.
Print Assumptions C98_image.

(** As long as the image writer can be prepared, no start is refused. *)
Theorem C98_starts_run : forall o oc junk es, Forall (fun e => fe_init e = 0) es -> forall l rs, fota_starts o oc junk es false l = Some rs ->
  Forall (fun p => exists t, snd p = AInit 0 :: t) rs.
Proof. exact starts_run. Qed.
Print Assumptions C98_starts_run.

Definition c98_os : os := mk_os (fun _ => 0) (fun l => zlen l) (fun _ => 0) (fun _ => 0) (fun _ _ => true).
Definition c98_oc := mk_oc (str "dev1") (str "hw") (str "app") (str "1.0") (str "device.memfault.com") (str "k3y").
Definition c98_head (status len : string) : list Z :=
  str "HTTP/1.1 " ++ str status ++ [13; 10] ++ str "Content-Length: " ++ str len ++ [13; 10; 13; 10].
Definition c98_net (d : list (list Z)) : net := mk_net (repeat (TxTake 1000) 40) (map RxData d).
Definition c98_url := c98_net [c98_head "200 OK" "22" ++ str "https://memfault.com/x"].
Definition c98_env (blk : Z) (cb : callback) (d : list (list Z)) : fenv := mk_fenv 0 (fun _ => 0) cb blk c98_url (c98_net d).
Definition c98_start (e : fenv) : option (fres * img * list act) :=
  do x <- fota_start c98_os c98_oc (fill 48 0) e false []; let '(res, _, c, a, _) := (x : fres * bool * fctx * list act * list ev) in Some (res, fc_img c, a).

(** The writer is never told to flush (:59): the end of an image that does not fill a block is not in the
    slot when the upgrade is requested. *)
Theorem C98_image_is_in_the_slot_refuted : exists e image, n_rx (fe_n2 e) = map RxData [c98_head "200 OK" "12" ++ image] /\
  exists buf a, c98_start e = Some (Rebooted, mk_img (str "firmware") buf, a) /\ accepted a = image /\ image = str "firmware-1.1" /\ buf <> [].
Proof.
  exists (c98_env 8 (Default 0) [c98_head "200 OK" "12" ++ str "firmware-1.1"]), (str "firmware-1.1"). split; [reflexivity|].
  eexists _, _. split; [vm_compute; reflexivity|]. split; [reflexivity|]. split; [reflexivity|discriminate].
Qed.
Print Assumptions C98_image_is_in_the_slot_refuted.

(** A start whose image writer cannot be prepared (:113-116) leaves the flag of a running update set: every
    later start is refused, with nothing running. *)
Theorem C98_starts_after_failure_refuted : forall o oc junk e es l, fe_init e <> 0 ->
  fota_starts o oc junk (e :: es) false l = Some ((Ret (fe_init e), [AInit (fe_init e)]) :: map (fun _ => (Ret (-1), [])) es).
Proof.
  intros o oc junk e es l I. cbn [fota_starts]. unfold fota_start at 1. replace (fe_init e =? 0) with false by lia. cbn [negb bind]. rewrite blocked. reflexivity.
Qed.
Print Assumptions C98_starts_after_failure_refuted.

(** An answer without a payload makes the percentage divide by zero (:66), and one of 21475328 bytes
    overflow. *)
Theorem C98_no_fault_refuted :
  (exists e, n_rx (fe_n2 e) = map RxData [c98_head "200 OK" "0"] /\ c98_start e = Some (Faulted, mk_img [] [10], [AInit 0; AWrite [10] 0])) /\
  (forall e size k, (forall l, fe_write e l = 0) -> fe_blk e = 4096 -> 0 < size -> (0 < k)%nat ->
     fst (fst (f_play e c_init [] (HUpdate size :: map HData (repeat (fill 4096 0) k)))) = if Z.of_nat k <=? 5242 then HRet true else HFault).
Proof.
  split; [|exact percent_fault]. exists (c98_env 8 (Default 0) [c98_head "200 OK" "0"]). split; [reflexivity|]. vm_compute. reflexivity.
Qed.
Print Assumptions C98_no_fault_refuted.

(** An image of two blocks in three pieces; a write that fails; an upgrade the bootloader does not take. *)
Example C98_case :
  c98_start (c98_env 8 (Default 0) [c98_head "200 OK" "16"; str "firmw"; str "are-1.1."; str "xyz"]) =
    Some (Rebooted, mk_img (str "firmware-1.1.xyz") [], [AInit 0; AWrite (str "firmw") 0; AWrite (str "are-1.1.") 0; AWrite (str "xyz") 0; ARequest 0; AMark 3; AReboot]) /\
  c98_start (mk_fenv 0 (fun log => if zlen log =? 3 then -5 else 0) (Default 0) 4 c98_url (c98_net [c98_head "200 OK" "6" ++ str "abc"; str "def"])) =
    Some (Ret (-1), mk_img [] (str "ab"), [AInit 0; AWrite (str "ab") 0; AWrite (str "c") (-5)]) /\
  c98_start (c98_env 2 (Default (-22)) [c98_head "200 OK" "2" ++ str "ab"]) = Some (Ret (-1), mk_img (str "ab") [], [AInit 0; AWrite (str "ab") 0; ARequest (-22)]).
Proof. vm_compute. repeat split. Qed.

(** Asking for the download of a URL, with either library: nothing is asked for without a URL from the
    server; otherwise, once the library is initialised, the download of that URL with the certificates of
    Memfault; 1 is returned if the library accepts it. *)
Theorem C99_requests : forall v o oc junk lib ealready n s q l hd1 code1 url missing1, ns_url s = None ->
  zlen junk = 48 -> bytes (oc_serial oc) -> bytes (oc_hwver oc) -> bytes (oc_swtype oc) -> bytes (oc_swver oc) ->
  bytes hd1 -> response_head hd1 code1 (zlen url) -> url <> [] -> serves (n_rx n) hd1 url missing1 -> ~ In 0 url ->
  exists rv s' q' l', ncs_start v o oc junk lib ealready n s q l = Some (rv, s', q', l') /\
    (q' = q /\ (rv = -1 \/ rv = 0 /\ code1 < 400 /\ code1 <> 200) \/
     code1 = 200 /\ lib q <> 0 /\ q' = q ++ [DInit (lib q)] /\ rv = lib q \/
     code1 = 200 /\ lib q = 0 /\ exists calls, q' = q ++ DInit 0 :: calls /\ requests v url ealready calls /\
       ((exists x host file cs, calls = x ++ [DGet host file cs 0]) -> rv = 1)).
Proof. exact start_requests. Qed.
Print Assumptions C99_requests.

(** A start with no download running: 1 means one is running now; what it took from the network stack and
    the heap is given back, except the URL, which is kept exactly while a download runs. *)
Theorem C99_start : forall v o oc junk lib ealready n s q l rv s' q' l', addr_errors o -> lib_errors lib -> (ns_url s <> None <-> ns_dl s = true) -> ns_dl s = false ->
  ncs_start v o oc junk lib ealready n s q l = Some (rv, s', q', l') ->
  (ns_url s' <> None <-> ns_dl s' = true) /\ (rv = 1 <-> ns_dl s' = true) /\ rv <= 1 /\
  exists d, l' = l ++ d /\ forall h, 0 <= d_addrs h -> 0 <= d_mem h -> after h d = Some (with_url (ns_url s') h).
Proof. exact start_inv. Qed.
Print Assumptions C99_start.
(** Any history of starts and events, one download at a time. *)
Theorem C99_histories : forall v o oc junk custom lib ealready ops, addr_errors o -> lib_errors lib ->
  forall s q l rvs s' q' l', (ns_url s <> None <-> ns_dl s = true) ->
  one_at_a_time v o oc junk custom lib ealready ops s q l -> ncs_run v o oc junk custom lib ealready ops s q l = Some (rvs, s', q', l') ->
  (ns_url s' <> None <-> ns_dl s' = true) /\
  exists d, l' = l ++ d /\ forall h, 0 <= d_addrs h -> 0 <= d_mem h -> after (with_url (ns_url s) h) d = Some (with_url (ns_url s') h).
Proof. exact run_inv. Qed.
Print Assumptions C99_histories.

Definition c99_none := c98_net [c98_head "204 No Content" "0"].
Definition c99_run (v : ncs) (custom : bool) (lib : list dcall -> Z) (ops : list nop) : option (list Z * nst * list dcall * option held) :=
  do x <- ncs_run v c98_os c98_oc (fill 48 0) custom lib (-120) ops (mk_nst None false) [] [];
  let '(rvs, s, q, l) := (x : list Z * nst * list dcall * list ev) in Some (rvs, s, q, after (mk_held [] 0 0) l).

(** A second start while a download runs: its URL replaces the first, which is never freed; and when the
    server has no update, the pointer is still that of the running download, so that there seems to be
    one: its URL is freed under the download, or its download is asked for again. *)
Theorem C99_second_start_refuted :
  (exists s q, c99_run AnyCert true (fun _ => 0) [NStart c98_url; NStart c98_url; NEvent Finished] = Some ([1; 1], s, q, Some (mk_held [] 0 1)) /\ ns_url s = None) /\
  (exists s q h, c99_run Downloader true (fun _ => 0) [NStart c98_url; NStart c99_none] = Some ([1; -1], s, q, h) /\ s = mk_nst None true) /\
  (exists s q h, c99_run AnyCert true (fun _ => 0) [NStart c98_url; NStart c99_none] = Some ([1; 1], s, q, h) /\ zlen q = 4).
Proof.
  split; [|split]; eexists _, _; [|eexists|eexists]; (split; [vm_compute; reflexivity|reflexivity]).
Qed.
Print Assumptions C99_second_start_refuted.
(** The first '/' of a URL with a scheme is not that behind the host (:115). *)
Theorem C99_host_is_split_off_refuted : exists s file q h, c99_run Downloader true (fun _ => 0) [NStart c98_url] = Some ([1], s, q, h) /\
  q = [DInit 0; DGet (str "https:") file [1001; 1002; 1003] 0] /\ file = str "/memfault.com/x".
Proof. eexists _, _, _, _. split; [vm_compute; reflexivity|]. split; reflexivity. Qed.
Print Assumptions C99_host_is_split_off_refuted.

(** The third certificate is the right one; the download fails, and one without update follows. *)
Example C99_case :
  c99_run EachCert false (fun q => if (zlen q =? 1) || (zlen q =? 2) then -111 else 0) [NStart c98_url; NEvent Progress; NEvent Error; NStart c99_none] =
    Some ([1; 0], mk_nst None false,
      [DInit 0; DGet (str "https://memfault.com/x") (str "https://memfault.com/x") [1001] (-111); DGet (str "https://memfault.com/x") (str "https://memfault.com/x") [1002] (-111);
       DGet (str "https://memfault.com/x") (str "https://memfault.com/x") [1003] 0], Some (mk_held [] 0 0)).
Proof. vm_compute. reflexivity. Qed.

(** A finished download resets the device, unless the application has its own callback, and nothing follows; no other
    event does. *)
Theorem C99_reset : forall v o oc junk lib ealready custom e ops s q l,
  (e = Finished -> ncs_run v o oc junk false lib ealready (NEvent e :: ops) s q l = Some ([], s, q ++ [DReboot], l)) /\
  (custom = true \/ e <> Finished -> exists s' l', ncs_event custom e s q l = (false, s', q, l')).
Proof.
  intros v o oc junk lib ealready custom e ops s q l. split; [intros ->; reflexivity|].
  intros H. unfold ncs_event.
  replace (match e with Finished => negb custom | _ => false end) with false
    by (destruct e, custom; cbn [negb]; destruct H; congruence).
  destruct (match e with Error | Cancelled => _ | _ => _ end) as [u l1]. destruct (match e with Progress => _ | _ => _ end) as [u2 l2]. eauto.
Qed.
Print Assumptions C99_reset.
