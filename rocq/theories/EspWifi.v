(** Model of the Wi-Fi and chip metrics of the ESP-IDF port:
    ports/esp_idf/memfault/common/memfault_platform_metrics.c.
    Simplifications: logs are left out; esp_wifi_set_rssi_threshold succeeds (while Wi-Fi is down it may not,
    but :96 sets the threshold again when it is back). *)
From Coq Require Import String.
From Verif Require Import Base Metrics HttpRequest DeviceId.
Local Open Scope list_scope.
Local Open Scope Z_scope.

(** ** The lowest signal strength *)
(** s_min_rssi (:56), and the driver's threshold: below it an event is raised, once until it is set again
    (esp_wifi_set_rssi_threshold of ESP-IDF); the events not yet handled. *)
Record rst := mk_rs { r_min : Z; r_thr : option Z; r_queue : list Z }.
Definition r_boot : rst := mk_rs 0 None [].
Inductive rop := RConnected | RBeacon (rssi : Z) | RHandle | RCollect.
(** [:96], the driver, :115-120, and :208-216 with what is set at a heartbeat. *)
Definition r_step (key : Z) (s : rst) (o : rop) : rst * list mop :=
  match o with
  | RConnected => (mk_rs (r_min s) (Some (-10)) (r_queue s), [])
  | RBeacon r =>
      match r_thr s with
      | Some t => if r <? t then (mk_rs (r_min s) None (r_queue s ++ [r]), []) else (s, [])
      | None => (s, [])
      end
  | RHandle =>
      match r_queue s with
      | [] => (s, [])
      | r :: q => let m := Z.min r (r_min s) in (mk_rs m (Some m) q, [])
      end
  | RCollect => if r_min s <=? -10 then (mk_rs 0 (Some (-10)) (r_queue s), [OSetS key (r_min s)]) else (s, [])
  end.
(** What each heartbeat sets. *)
Fixpoint r_run (key : Z) (s : rst) (l : list rop) : list (list mop) :=
  match l with
  | [] => []
  | RCollect :: r => let (s, ops) := r_step key s RCollect in ops :: r_run key s r
  | o :: r => r_run key (fst (r_step key s o)) r
  end.

(** ** The access point *)
(** wifi_ap_record_t: the address, the channel, the mode of authentication, the flags of the standards. *)
Record ap := mk_ap { ap_bssid : list Z; ap_channel : Z; ap_auth : Z;
                     ap_b : bool; ap_g : bool; ap_n : bool; ap_a : bool; ap_ac : bool; ap_ax : bool }.
(** :147-161, the numbers of wifi_auth_mode_t; [None]: NULL *)
Definition auth_table : list (option (list Z)) :=
  [Some (str "OPEN"); Some (str "WEP"); Some (str "WPA-PSK"); Some (str "WPA2-PSK"); Some (str "WPA-WPA2-PSK"); Some (str "WPA2-ENTERPRISE");
   Some (str "WPA3-PSK"); Some (str "WPA2-WPA3-PSK"); Some (str "WAPI-PSK"); None; Some (str "WPA3-ENT-192")].
(** :163-178; [None]: read outside of the table.  An unsigned comparison: the enum is unsigned. *)
Definition auth_text (mode : Z) : option (list Z) :=
  if zlen auth_table <=? u32 mode then Some (str "UNKNOWN")
  else do e <- get auth_table (u32 mode); Some (match e with Some t => t | None => str "UNKNOWN" end).
(** :180-205; [v51], [v53]: from ESP-IDF 5.1 and 5.3 on *)
Definition standard_text (v51 v53 : bool) (p : ap) : list Z :=
  if ap_n p then str "802.11n"
  else if v53 && ap_ac p then str "802.11ac"
  else if v53 && ap_a p then str "802.11a"
  else if v51 && ap_ax p then str "802.11ax"
  else if ap_g p then str "802.11g"
  else if ap_b p then str "802.11b"
  else str "unknown".
(** :139-140; snprintf into 9 bytes *)
Definition oui_text (b : list Z) : option (list Z) :=
  do x <- get b 0; do y <- get b 1; do z <- get b 2;
  Some (take 8 (hex2 false x ++ [58] ++ hex2 false y ++ [58] ++ hex2 false z)).
Record akeys := mk_ak { ak_channel : Z; ak_auth : Z; ak_standard : Z; ak_oui : Z }.
(** :218-233 and :134-144; [seen]: s_memfault_ap_bssid, zeros at first; [None]: no access point (:220) *)
Definition ap_collect (v51 v53 : bool) (k : akeys) (seen : list Z) (p : option ap) : option (list mop * list Z) :=
  match p with
  | None => Some ([], seen)
  | Some p =>
      do a <- auth_text (ap_auth p);
      let ops := [OSetU (ak_channel k) (ap_channel p); OSetStr (ak_auth k) a; OSetStr (ak_standard k) (standard_text v51 v53 p)] in
      if list_eq_dec Z.eq_dec seen (ap_bssid p) then Some (ops, seen)
      else do t <- oui_text (ap_bssid p); Some (ops ++ [OSetStr (ak_oui k) t], ap_bssid p)
  end.
Fixpoint ap_run (v51 v53 : bool) (k : akeys) (seen : list Z) (l : list (option ap)) : option (list (list mop)) :=
  match l with
  | [] => Some []
  | p :: r => do x <- ap_collect v51 v53 k seen p; let (ops, seen) := (x : list mop * list Z) in
              do y <- ap_run v51 v53 k seen r; Some (ops :: y)
  end.

(** ** The chip *)
(** "%06x": at least six digits *)
Definition hex6 (v : Z) : list Z :=
  let d i := nib false (Z.land (Z.shiftr v (4 * i)) 15) in
  (if 268435456 <=? v then [d 7; d 6] else if 16777216 <=? v then [d 6] else []) ++ [d 5; d 4; d 3; d 2; d 1; d 0].
Record ckeys := mk_ck { ck_flash : Z; ck_chip : Z }.
(** :327-357; [flash]: what esp_flash_read_id gives, [None] an error; [rev]: efuse_hal_chip_revision();
    [done]: did_collect *)
Definition chip_collect (k : ckeys) (target : list Z) (done : bool) (flash : option Z) (rev : Z) : list mop * bool :=
  if done then ([], true)
  else
    let room := zlen target + 1 + 7 in                                              (* :348 *)
    ((match flash with Some v => [OSetStr (ck_flash k) (take (7 - 1) (hex6 v))] | None => [] end) ++
     [OSetStr (ck_chip k) (take (room - 1) (target ++ [45] ++ print_int (u8 (rev / 100)) ++ [46] ++ print_int (u8 (rev mod 100))))],
     true).
Fixpoint chip_run (k : ckeys) (target : list Z) (done : bool) (l : list (option Z * Z)) : list (list mop) :=
  match l with
  | [] => []
  | (f, v) :: r => let (ops, done) := chip_collect k target done f v in ops :: chip_run k target done r
  end.
