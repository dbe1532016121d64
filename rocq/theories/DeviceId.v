(** Device serials: how the ports turn an identifier of the chip into the serial number of the device.
    Each call is a program of single byte accesses to the static buffer the port keeps it in, so that
    several tasks may ask at once (Conc.v). *)
From Coq Require Import String.
From Verif Require Import Base Conc LockConc.

Record did := mk_did { d_buf : list Z; d_init : bool }.
Definition set_buf (s : did) (b : list Z) : did := mk_did b (d_init s).
Definition set_init (s : did) : did := mk_did (d_buf s) true.

(** One byte stored, and several, one after the other. *)
Definition p_store (i b : Z) : prog did unit := Act (fun s => do l <- put (d_buf s) i b; Some (tt, set_buf s l)) Ret.
Fixpoint p_stores (i : Z) (l : list Z) : prog did unit :=
  match l with [] => Ret tt | b :: r => p_store i b ;; p_stores (i + 1) r end.
(** snprintf of a text into [space] bytes at [i]: cut to fit, then NUL (C99 7.19.6.5).  Simplification:
    bytes are stored in order. *)
Definition p_snprintf (i space : Z) (text : list Z) : prog did unit :=
  if space <=? 0 then Ret tt else p_stores i (take (space - 1) text ++ [0])%list.
(** A caller reads the string: byte after byte up to the NUL. *)
Fixpoint p_string (fuel : nat) (i : Z) : prog did (list Z) :=
  match fuel with
  | O => fault
  | S f => let* b := Act (fun s => do b <- get (d_buf s) i; Some (b, s)) Ret in
           if b =? 0 then Ret [] else let* r := p_string f (i + 1) in Ret (b :: r)
  end.

(** "%02X", "%02x"; examples/mbed/libraries/memfault/platform_reference_impl/memfault_platform_device_info.c:28-30 *)
Definition nib (upper : bool) (v : Z) : Z := if v <? 10 then v + 48 else v - 10 + (if upper then 65 else 97).
Definition hex2 (upper : bool) (v : Z) : list Z := [nib upper (Z.shiftr v 4); nib upper (Z.land v 15)].

(** The ports: ESP-IDF, WICED, nRF5, Dialog DA145xx, Mbed (STM32F4) and Zephyr. *)
Inductive dport := DEsp | DWiced | DNrf5 | DDialog | DMbed | DZephyr.
(** The buffers: ports/esp_idf/memfault/common/memfault_platform_device_info.c:18,
    examples/wiced/libraries/memfault/platform_reference_impl/memfault_platform_device_info.c:52,
    examples/nrf5/apps/memfault_demo_app/third_party/memfault/memfault_platform_port.c:44,
    examples/dialog/da145xx/apps/memfault_demo_app/src/memfault_platform_device_info.c:23,
    mbed memfault_platform_device_info.c:32-34, :41, ports/zephyr/common/memfault_platform_core.c:217-218 *)
Definition d_cap (p : dport) : Z :=
  match p with DEsp | DWiced | DNrf5 => 32 | DDialog => 13 | DMbed => 25 | DZephyr => 33 end.
Definition d_boot (p : dport) : did := mk_did (fill (d_cap p) 0) false.

(** esp_idf memfault_platform_device_info.c:22-37, wiced :37-49, nrf5 memfault_platform_port.c:21-41
    (there the bytes of two words, lowest first). *)
Fixpoint p_mac (buf_len cur : Z) (id : list Z) : prog did unit :=
  match id with
  | [] => Ret tt
  | v :: r =>
      let space := u32 (buf_len - cur) in
      p_snprintf cur space (hex2 true v) ;;
      if 2 <? space then p_mac buf_len (cur + 2) r else Ret tt
  end.
(** nrf5 memfault_platform_port.c:27-32: the bytes of the two identifier words. *)
Definition nrf_bytes (w : Z) : list Z := map (fun j => Z.land (Z.shiftr w (8 * j)) 255) [0; 1; 2; 3].
(** mbed memfault_platform_device_info.c:44-49 *)
Fixpoint p_mbed (i : Z) (id : list Z) : prog did unit :=
  match id with
  | [] => p_store i 0
  | c :: r => p_store i (nib true (Z.shiftr c 4)) ;; p_store (i + 1) (nib true (Z.land c 15)) ;; p_mbed (i + 2) r
  end.
(** memfault_platform_core.c:238-240; the size given is that of the whole buffer. *)
Fixpoint p_zephyr (i : Z) (id : list Z) : prog did unit :=
  match id with
  | [] => Ret tt
  | v :: r => p_snprintf (i * 2) 33 (hex2 false v) ;; p_zephyr (i + 1) r
  end.

(** A call: where the identifier comes from and whether it is made in an interrupt.  [None]: the
    identifier cannot be read (nvds_get, hwinfo_get_device_id). *)
Record dcall := mk_dcall { dc_isr : bool }.
Definition p_serial (p : dport) (soc : list Z) (id : option (list Z)) (o : dcall) : prog did (list Z) :=
  let read := p_string (S (Z.to_nat (d_cap p))) 0 in
  let bytes := match id with Some l => l | None => [] end in
  match p with
  | DEsp =>                                                             (* esp_idf memfault_platform_device_info.c:43-54 *)
      let* b := Act (fun s => do b <- get (d_buf s) 0; Some (b, s)) Ret in
      if b =? 0 then
        if dc_isr o then Ret (str "unknown")                            (* :47-48 *)
        else p_mac 32 0 bytes ;; read                                   (* :50 *)
      else read
  | DWiced => p_mac 32 0 bytes ;; read                                  (* wiced :51-56 *)
  | DNrf5 =>                                                            (* nrf5 memfault_platform_port.c:43-53 *)
      let* i := fetch d_init in
      if (i : bool) then read else p_mac 32 0 bytes ;; change set_init ;; read
  | DDialog =>                                                          (* dialog :13-20, :22-41 *)
      let* i := fetch d_init in
      if (i : bool) then read
      else (match id with Some l => p_snprintf 0 13 (flat_map (hex2 true) (rev l)) | None => Ret tt end) ;;
           change set_init ;; read
  | DMbed => p_mbed 0 bytes ;; read                                     (* mbed :36-51 *)
  | DZephyr =>                                                          (* memfault_platform_core.c:216-245 *)
      match bytes with
      | [] => Ret (soc ++ str "-testserial")%list                       (* :229-235 *)
      | _ => p_zephyr 0 bytes ;; read
      end
  end.
