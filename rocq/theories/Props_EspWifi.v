(** C112: what the ESP-IDF port says of the Wi-Fi signal, the access point and the chip. *)
From Coq Require Import String.
From Verif Require Import Base Metrics MetricsSpec HttpUtilsSpec HttpRequestSpec DeviceIdSpec EspWifi EspWifiSpec EspWifiProofs.
Local Open Scope list_scope.
Local Open Scope Z_scope.

(** C112: for every history of connections, measurements and heartbeats, if each event of the driver is
    handled before the next measurement, each heartbeat sets the lowest signal strength measured since the
    last one, of those below -10, and nothing if there is none. *)
Theorem C112_lowest_signal : forall key l, r_run key r_boot (flat_map promptly (Up :: l)) = low_spec key [] (Up :: l).
Proof. exact low_all. Qed.
Print Assumptions C112_lowest_signal.

(** At every heartbeat with an access point its channel, authentication and standard are set, and the maker
    of the access point if its address is not the one seen last; nothing is set without one. *)
Theorem C112_access_points : forall v51 v53 k l, ak_auth k <> ak_standard k -> ak_auth k <> ak_oui k -> ak_standard k <> ak_oui k ->
  (forall p, In (Some p) l -> bssid_ok p /\ is_u32 (ap_auth p)) ->
  exists os, ap_run v51 v53 k (fill 6 0) l = Some os /\
  forall pre p post, l = pre ++ p :: post -> exists ops, nth_error os (List.length pre) = Some ops /\
  match p with
  | None => ops = []
  | Some p => set_number (ak_channel k) ops = Some (ap_channel p) /\ set_text (ak_auth k) ops = Some (mode_name (ap_auth p)) /\
              set_text (ak_standard k) ops = Some (standard_text v51 v53 p) /\
              set_text (ak_oui k) ops = if list_eq_dec Z.eq_dec (last_bssid pre) (ap_bssid p) then None else Some (maker (ap_bssid p))
  end.
Proof.
  intros v51 v53 k l K1 K2 K3 F. apply (ap_all v51 v53 k K1 K2 K3 l (fill 6 0)).
  apply Forall_forall. intros [p|] IN; [exact (F p IN)|exact I].
Qed.
Print Assumptions C112_access_points.
(** The standard is one the access point has (unknown only if it has none); the texts fit their metrics. *)
Theorem C112_texts : forall v51 v53 p, bssid_ok p -> is_u32 (ap_auth p) ->
  ((exists s, has v51 v53 p s = true /\ standard_text v51 v53 p = std_name s) \/
   ((forall s, has v51 v53 p s = false) /\ standard_text v51 v53 p = str "unknown")) /\
  fits 8 (standard_text v51 v53 p) /\ fits 23 (mode_name (ap_auth p)) /\ zlen (maker (ap_bssid p)) = 8.
Proof.
  intros v51 v53 p [L F] A. split; [exact (standard_ok v51 v53 p)|]. split; [exact (standard_fits v51 v53 p)|].
  split; [exact (proj2 (auth_ok _ A))|exact (proj2 (oui_ok _ L F))].
Qed.
Print Assumptions C112_texts.
(** The first heartbeat sets the revision of the chip in full, and the flash's identifier if it can be read;
    the others set neither. *)
Theorem C112_chip : forall k target f rev l, 0 <= rev < 25600 -> ck_flash k <> ck_chip k -> match f with Some v => 0 <= v < 16777216 | None => True end ->
  exists ops, chip_run k target false ((f, rev) :: l) = ops :: map (fun _ => []) l /\
    (exists t, set_text (ck_chip k) ops = Some t /\ revision target rev t) /\
    set_text (ck_flash k) ops = match f with Some v => Some (in_hex (table false) [v / 65536; v / 256 mod 256; v mod 256]) | None => None end.
Proof. exact chip_first. Qed.
Print Assumptions C112_chip.

(** ** What is not true *)
(** Measurements between an event and its handling are lost: the driver raises one event until the threshold
    is set again (memfault_platform_metrics.c:118-119), and with the value of that event. *)
Theorem C112_lowest_signal_refuted : ~ (forall key l, r_run key r_boot (RConnected :: l) = low_spec key [] (sig_of (RConnected :: l))).
Proof. intros H. specialize (H 0 [RBeacon (-50); RBeacon (-80); RHandle; RBeacon (-40); RCollect]). vm_compute in H. discriminate. Qed.
Print Assumptions C112_lowest_signal_refuted.
(** The standard is not the newest the access point has: 802.11n is looked at first (:184), and newer access
    points have it too. *)
Theorem C112_newest_standard_refuted : ~ (forall p s, has true true p s = true -> exists t, standard_text true true p = std_name t /\ rank s <= rank t).
Proof.
  intros H. destruct (H (mk_ap [1; 2; 3; 4; 5; 6] 1 3 true true true false false true) AX eq_refl) as (t & E & R).
  destruct t; vm_compute in E; try discriminate. vm_compute in R. congruence.
Qed.
Print Assumptions C112_newest_standard_refuted.
(** The maker is not said at every heartbeat: it is set only when the address changes (:137), but a heartbeat
    clears it, so the later ones say it is empty. *)
Definition o_defs : list mdef := [mk_mdef MUnsigned 0 0; mk_mdef MString 23 0; mk_mdef MString 8 0; mk_mdef MString 8 0].
Definition o_keys : akeys := mk_ak 0 1 2 3.
Definition o_ap : ap := mk_ap [0xDE; 0xAD; 0xBE; 1; 2; 3] 6 3 true true false false false false.
Definition o_said (l : list (option ap)) : option (list (option mitem)) :=
  do os <- ap_run true true o_keys (fill 6 0) l;
  do r <- me_run o_defs [] (ms_init o_defs) (flat_map (fun ops => ops ++ heartbeat_ops 0 0) os);
  Some (reported (event_index 0 o_defs (ak_oui o_keys)) (fst r)).
Theorem C112_maker_at_every_heartbeat_refuted : ~ (forall l, (forall p, In (Some p) l -> bssid_ok p /\ is_u32 (ap_auth p)) ->
  o_said l = Some (map (fun p => match p with Some p => Some (IText (maker (ap_bssid p))) | None => Some (IText []) end) l)).
Proof.
  intros H. specialize (H [Some o_ap; Some o_ap]).
  assert (B : forall p, In (Some p) [Some o_ap; Some o_ap] -> bssid_ok p /\ is_u32 (ap_auth p)).
  { intros p [E|[E|[]]]; injection E as <-; (split; [split; [reflexivity|repeat (apply Forall_cons; [unfold is_u8; lia|]); apply Forall_nil]|unfold is_u32; cbn; lia]). }
  specialize (H B). vm_compute in H. discriminate.
Qed.
Print Assumptions C112_maker_at_every_heartbeat_refuted.
(** A flash that cannot be read at the first heartbeat is not read again (:356). *)
Theorem C112_flash_is_said_refuted : ~ (forall k target l f rev, In (Some f, rev) l -> 0 <= f < 16777216 ->
  exists ops, In ops (chip_run k target false l) /\ set_text (ck_flash k) ops <> None).
Proof.
  intros H. destruct (H (mk_ck 0 1) (str "esp32") [(None, 301); (Some 1, 301)] 1 301) as (ops & IN & N); [cbn; auto|lia|].
  cbn in IN. destruct IN as [<-|[<-|[]]]; apply N; reflexivity.
Qed.
Print Assumptions C112_flash_is_said_refuted.

Example C112_case :
  r_run 7 r_boot [RConnected; RBeacon (-30); RHandle; RBeacon (-61); RHandle; RBeacon (-45); RHandle; RCollect; RCollect; RBeacon (-9); RHandle; RConnected; RBeacon (-55); RHandle; RCollect]
    = [[OSetS 7 (-61)]; []; [OSetS 7 (-55)]] /\
  ap_run true true o_keys (fill 6 0) [Some o_ap; None; Some o_ap] =
    Some [[OSetU 0 6; OSetStr 1 (str "WPA2-PSK"); OSetStr 2 (str "802.11g"); OSetStr 3 (str "de:ad:be")]; [];
          [OSetU 0 6; OSetStr 1 (str "WPA2-PSK"); OSetStr 2 (str "802.11g")]] /\
  o_said [Some o_ap; Some o_ap] = Some [Some (IText (str "de:ad:be")); Some (IText [])] /\
  chip_run (mk_ck 0 1) (str "esp32s3") false [(Some 0xEF4017, 2); (Some 0xEF4017, 2)] = [[OSetStr 0 (str "ef4017"); OSetStr 1 (str "esp32s3-0.2")]; []].
Proof. vm_compute. repeat split; reflexivity. Qed.
