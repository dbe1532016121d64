(** Model of the ports' memfault_reboot_reason_get: the reason of the last reset, from the chip's reset
    register.  Register layouts are vendors' (not in the repository), so the masks are given from
    outside, by what they stand for: a class and a number for chips with several of one class.  What a
    port prints is left out; MEMFAULT_SDK_ASSERT(info != NULL) holds. *)
From Verif Require Import Base.

(** components/include/memfault/core/reboot_reason_types.h:29-124 *)
Definition rUnknown : Z := 0.            Definition rUserShutdown : Z := 1.
Definition rUserReset : Z := 2.          Definition rFirmwareUpdate : Z := 3.
Definition rLowPower : Z := 4.           Definition rDebuggerHalted : Z := 5.
Definition rButtonReset : Z := 6.        Definition rPowerOnReset : Z := 7.
Definition rSoftwareReset : Z := 8.      Definition rDeepSleep : Z := 9.
Definition rPinReset : Z := 10.          Definition rUnknownError : Z := 0x8000.
Definition rAssert : Z := 0x8001.        Definition rBrownOut : Z := 0x8003.
Definition rHardwareWatchdog : Z := 0x8005. Definition rSoftwareWatchdog : Z := 0x8006.
Definition rClockFailure : Z := 0x8007.  Definition rKernelPanic : Z := 0x8008.
Definition rUpdateError : Z := 0x8009.   Definition rTaskWatchdog : Z := 0x800C.
Definition rUsageFault : Z := 0x9300.    Definition rHardFault : Z := 0x9400.
Definition rLockup : Z := 0x9401.        Definition rSecurity : Z := 0x9402.
Definition rParity : Z := 0x9403.        Definition rTemperature : Z := 0x9404.
Definition rHardware : Z := 0x9405.

(** What a bit of a reset register (or a value of a vendor's enum) stands for. *)
Inductive class := Por | Bor | Pin | Button | Soft | Wdt | SwWdt | TaskWdt | Lock | Sleep | LowP | Debug
  | Clock | Secure | Temp | Firewall | OptLoad | Parity | Hard | User | Domain | Protect | Panic
  | Shutdown | Update | UpdateTime | Mode | External.
Definition cause : Type := class * Z.

(** The build and the chip: which masks are defined, the masks, MEMFAULT_REBOOT_REASON_CLEAR (or
    CONFIG_MEMFAULT_CLEAR_RESET_REG), the flags which a vendor's "clear the flags" clears, whether the
    soft device is on (nRF5), and hwinfo's answers (Zephyr). *)
Record chip := mk_chip {
  has : cause -> bool; mask : cause -> Z; clr : bool; flags : Z; sdh : bool;
  hw_rv : Z; hw_sup : option Z }.
(** The register and, on STM32 F4 and L4, the standby flag of PWR. *)
Record rreg := mk_rr { rg : Z; sb : bool }.
Record told := mk_told { t_reason : Z; t_reg : Z }.

(** reset_cause & MASK *)
Definition hit (h : chip) (r : Z) (c : cause) : bool := negb (Z.land r (mask h c) =? 0).
(** The same, in an #if defined(MASK). *)
Definition ifhit (h : chip) (r : Z) (c : cause) : bool := has h c && hit h r c.
(** Writing ones clears, on W1C registers; "clear the flags" of the vendors' HAL. *)
Definition w1c (r v : Z) : Z := Z.ldiff r v.
Definition keep (r : rreg) (v : Z) : rreg := mk_rr v (sb r).

Inductive port := Da14531 | Da1469x | Da1468x | Saml1x | Nrf5 | S32 | Rw61x | Rt1021 | F4 | F7 | H5 | H7
  | L4 | U5 | Wb | Rmu | Emu | Siwx | NrfxPower | NrfxReset | Hwinfo.

(** ports/dialog/da145xx/reset_reboot_tracking.c:31-43, :62-67 *)
Definition da14531 (h : chip) (s : rreg) : told * rreg :=
  let r := rg s in
  (mk_told (if hit h r (Pin, 0) then rPinReset
            else if hit h r (Soft, 0) then rSoftwareReset
            else if hit h r (Wdt, 0) then rHardwareWatchdog else rPowerOnReset) r, s).
(** ports/dialog/da1469x/reset_reboot_tracking.c:22-62 *)
Definition da1469x (h : chip) (s : rreg) : told * rreg :=
  let r := rg s in
  let reason := if r =? 0 then rDeepSleep
    else if hit h r (Por, 0) then rPowerOnReset
    else if hit h r (Debug, 0) then rDebuggerHalted
    else if negb (Z.land r (Z.lor (mask h (Wdt, 0)) (mask h (Wdt, 1))) =? 0) then rHardwareWatchdog
    else if hit h r (Pin, 0) then rPinReset
    else if hit h r (Soft, 0) then rSoftwareReset else rUnknown in
  (mk_told reason r, if clr h then keep s 0 else s).
(** ports/dialog/da1468x/reset_stat_reboot_tracking.c:47-107 *)
Definition da1468x (h : chip) (s : rreg) : told * rreg :=
  let r := rg s in
  let reason := if hit h r (Por, 0) then rPowerOnReset
    else if hit h r (Debug, 0) then rSoftwareReset
    else if hit h r (Wdt, 0) then rHardwareWatchdog
    else if hit h r (Soft, 0) then rSoftwareReset
    else if hit h r (Pin, 0) then rPinReset else rPowerOnReset in
  (mk_told reason r, keep s 0).
(** ports/atmel/saml1x/rcause_reboot_tracking.c:15-37 *)
Definition saml1x (h : chip) (s : rreg) : told * rreg :=
  let r := rg s in
  (mk_told (if hit h r (Por, 0) then rPowerOnReset
            else if hit h r (Bor, 0) then rBrownOut
            else if hit h r (Bor, 1) then rBrownOut
            else if hit h r (Pin, 0) then rPinReset
            else if hit h r (Wdt, 0) then rHardwareWatchdog
            else if hit h r (Soft, 0) then rSoftwareReset else rUnknown) r, s).
(** ports/nrf5_sdk/resetreas_reboot_tracking.c:38-54, :75-140; sd_power_reset_reason_get succeeds *)
Definition nrf5 (h : chip) (s : rreg) : told * rreg :=
  let r := rg s in
  let s' := keep s (if sdh h then w1c r r else w1c r (Z.lor r r)) in
  let reason := if hit h r (Pin, 0) then rPinReset
    else if hit h r (Wdt, 0) then rHardwareWatchdog
    else if hit h r (Soft, 0) then rSoftwareReset
    else if hit h r (Lock, 0) then rSoftwareReset
    else if hit h r (Sleep, 0) then rDeepSleep          (* OFF *)
    else if hit h r (Sleep, 1) then rDeepSleep          (* DIF *)
    else if ifhit h r (Sleep, 2) then rDeepSleep        (* LPCOMP *)
    else if ifhit h r (Sleep, 3) then rDeepSleep        (* NFC *)
    else if ifhit h r (Sleep, 4) then rDeepSleep        (* VBUS *)
    else rPowerOnReset in
  (mk_told reason r, s').
(** ports/s32sdk/rcm_reboot_tracking.c:24-83 *)
Definition s32k (h : chip) (s : rreg) : told * rreg :=
  let r := rg s in
  (mk_told (if hit h r (Bor, 0) && hit h r (Por, 0) then rBrownOut
            else if hit h r (Por, 0) then rPowerOnReset
            else if hit h r (Debug, 0) then rSoftwareReset       (* MDM_AP *)
            else if hit h r (Soft, 0) then rSoftwareReset
            else if hit h r (Debug, 1) then rSoftwareReset       (* JTAG *)
            else if hit h r (Pin, 0) then rButtonReset
            else if hit h r (Lock, 0) then rLockup
            else if hit h r (Wdt, 0) then rHardwareWatchdog
            else if hit h r (Clock, 0) then rClockFailure        (* LOL *)
            else if hit h r (Clock, 1) then rClockFailure        (* LOC *)
            else rUnknown) r, s).
(** ports/nxp/rw61x/pmu_reboot_tracking.c:28-79.  The register is the ROM's copy, which the write of
    :40 does not change. *)
Definition rw61x (h : chip) (s : rreg) : told * rreg :=
  let r := rg s in
  (mk_told (if hit h r (Soft, 0) then rSoftwareReset
            else if hit h r (Lock, 0) then rLockup
            else if hit h r (Wdt, 0) then rHardwareWatchdog
            else if hit h r (Debug, 0) then rDebuggerHalted
            else if hit h r (SwWdt, 0) then rSoftwareWatchdog
            else if hit h r (Secure, 0) then rSecurity
            else if hit h r (Pin, 0) then rPinReset else rPowerOnReset) r, s).
(** ports/nxp/rt1021/src_reboot_tracking.c:24-75; [flags]: SRC_SRSR_W1C_BITS_MASK *)
Definition rt1021 (h : chip) (s : rreg) : told * rreg :=
  let r := Z.land (rg s) (Z.lor (flags h) (mask h (Temp, 0))) in
  let s' := if clr h then keep s (w1c (rg s) (flags h)) else s in
  let reason := if hit h r (Soft, 0) then rSoftwareReset
    else if hit h r (Temp, 0) then rUnknownError
    else if hit h r (Wdt, 1) then rHardwareWatchdog              (* WDOG3 *)
    else if hit h r (Wdt, 0) then rHardwareWatchdog
    else if hit h r (Debug, 0) then rDebuggerHalted
    else if hit h r (Button, 0) then rButtonReset
    else if hit h r (Secure, 0) then rUnknownError
    else if hit h r (Lock, 0) then rLockup
    else if hit h r (Pin, 0) then rPinReset else rUnknown in
  (mk_told reason r, s').
(** ports/stm32cube/f4/rcc_reboot_tracking.c:25-75 *)
Definition stm_f4 (h : chip) (s : rreg) : told * rreg :=
  let r := rg s in
  let '(reason, sb') := if sb s then (rDeepSleep, false)
    else (if hit h r (LowP, 0) then rDeepSleep
          else if hit h r (Soft, 0) then rSoftwareReset
          else if hit h r (Wdt, 0) then rHardwareWatchdog
          else if hit h r (Wdt, 1) then rHardwareWatchdog
          else if hit h r (Por, 0) then rPowerOnReset
          else if ifhit h r (Bor, 0) then rBrownOut
          else if hit h r (Pin, 0) then rPinReset else rUnknown, sb s) in
  (mk_told reason r, mk_rr (w1c r (flags h)) sb').
(** ports/stm32cube/f7/rcc_reboot_tracking.c:24-72 *)
Definition stm_f7 (h : chip) (s : rreg) : told * rreg :=
  let r := rg s in
  let reason := if hit h r (Soft, 0) then rSoftwareReset
    else if hit h r (Por, 0) then rPowerOnReset
    else if hit h r (Bor, 0) then rBrownOut
    else if hit h r (Wdt, 1) then rHardwareWatchdog
    else if hit h r (Wdt, 0) then rHardwareWatchdog
    else if hit h r (LowP, 0) then rLowPower
    else if hit h r (Pin, 0) then rPinReset else rUnknown in
  (mk_told reason r, if clr h then keep s (w1c r (flags h)) else s).
(** ports/stm32cube/h5/rcc_reboot_tracking.c:24-61 *)
Definition stm_h5 (h : chip) (s : rreg) : told * rreg :=
  let r := rg s in
  let reason := if hit h r (Pin, 0) then rPinReset
    else if hit h r (Bor, 0) then rBrownOut
    else if hit h r (Soft, 0) then rSoftwareReset
    else if hit h r (Wdt, 0) then rHardwareWatchdog
    else if hit h r (Wdt, 1) then rHardwareWatchdog
    else if hit h r (LowP, 0) then rLowPower else rUnknown in
  (mk_told reason r, if clr h then keep s (w1c r (flags h)) else s).
(** ports/stm32cube/h7/rcc_reboot_tracking.c:27-109; (User, 0): CPURSTF, (Domain, 1) and (Domain, 2): D1RSTF
    and D2RSTF *)
Definition ors (h : chip) (l : list cause) : Z := fold_right (fun c r => Z.lor (mask h c) r) 0 l.
Definition stm_h7 (h : chip) (s : rreg) : told * rreg :=
  let r := rg s in
  let cpu := (User, 0) in let pin := (Pin, 0) in
  let x := Z.land r (ors h [(Wdt, 0); cpu; (Domain, 1); (Domain, 2); (Bor, 0); pin; (Por, 0); (Soft, 0); (Wdt, 1); (LowP, 0)]) in
  let reason :=
    if x =? ors h [(Por, 0); pin; (Bor, 0); (Domain, 2); (Domain, 1); cpu] then rPowerOnReset
    else if x =? ors h [pin; cpu] then rPinReset
    else if x =? ors h [pin; (Bor, 0); cpu] then rBrownOut
    else if x =? ors h [(Soft, 0); pin; cpu] then rSoftwareReset
    else if x =? ors h [cpu] then rSoftwareReset
    else if x =? ors h [(Wdt, 1); pin; cpu] then rHardwareWatchdog
    else if x =? ors h [(Wdt, 0); pin; cpu] then rHardwareWatchdog
    else if x =? ors h [(Domain, 1)] then rLowPower
    else if x =? ors h [(Domain, 2)] then rLowPower
    else if x =? ors h [(LowP, 0); pin; cpu] then rUnknownError else rUnknown in
  (mk_told reason r, if clr h then keep s (w1c r (flags h)) else s).
(** ports/stm32cube/l4/rcc_reboot_tracking.c:25-75 *)
Definition stm_l4 (h : chip) (s : rreg) : told * rreg :=
  let r := rg s in
  let '(reason, sb') := if sb s then (rDeepSleep, false)
    else (if hit h r (Firewall, 0) then rUsageFault
          else if hit h r (Soft, 0) then rSoftwareReset
          else if hit h r (Wdt, 0) then rHardwareWatchdog
          else if hit h r (Wdt, 1) then rHardwareWatchdog
          else if hit h r (Bor, 0) then rPowerOnReset
          else if hit h r (Pin, 0) then rPinReset else rUnknown, sb s) in
  (mk_told reason r, mk_rr (w1c r (flags h)) sb').
(** ports/stm32cube/u5/rcc_reboot_tracking.c:21-67 *)
Definition stm_u5 (h : chip) (s : rreg) : told * rreg :=
  let r := rg s in
  let reason := if hit h r (LowP, 0) then rDeepSleep
    else if hit h r (Soft, 0) then rSoftwareReset
    else if hit h r (Wdt, 0) then rHardwareWatchdog
    else if hit h r (Wdt, 1) then rHardwareWatchdog
    else if hit h r (Pin, 0) && hit h r (Bor, 0) then rPowerOnReset
    else if hit h r (Bor, 0) then rBrownOut
    else if hit h r (Pin, 0) then rPinReset else rUnknown in
  (mk_told reason r, keep s (w1c r (flags h))).
(** ports/stm32cube/wb/rcc_reboot_tracking.c:25-68 *)
Definition stm_wb (h : chip) (s : rreg) : told * rreg :=
  let r := rg s in
  let reason := if hit h r (Soft, 0) then rSoftwareReset
    else if hit h r (Wdt, 0) then rHardwareWatchdog
    else if hit h r (Wdt, 1) then rHardwareWatchdog
    else if hit h r (Bor, 0) then rPowerOnReset
    else if hit h r (Pin, 0) then rPinReset else rUnknown in
  (mk_told reason r, if clr h then keep s (w1c r (flags h)) else s).
(** ports/emlib/rmu_reboot_tracking.c:31-76, :154-176; (Sleep, 0): EM4RST, used when EM4WURST, (Sleep, 1), is
    defined.  The register is what RMU_ResetCauseGet gives. *)
Definition em_rmu (h : chip) (s : rreg) : told * rreg :=
  let r := rg s in
  let reason := if hit h r (Por, 0) then rPowerOnReset
    else if ifhit h r (Bor, 0) then rBrownOut
    else if ifhit h r (Bor, 1) then rBrownOut
    else if ifhit h r (Bor, 2) then rBrownOut
    else if hit h r (Lock, 0) then rLockup
    else if hit h r (Soft, 0) then rSoftwareReset
    else if hit h r (Wdt, 0) then rHardwareWatchdog
    else if has h (Sleep, 1) && hit h r (Sleep, 0) then rDeepSleep
    else if hit h r (Pin, 0) then rButtonReset else rUnknown in
  (mk_told reason r, if clr h then keep s (w1c r (flags h)) else s).
(** :79-149; the second tests of SYSREQ and LOCKUP (:127-131, :137-141) *)
Definition em_emu (h : chip) (s : rreg) : told * rreg :=
  let r := rg s in
  let reason := if hit h r (Por, 0) then rPowerOnReset
    else if hit h r (Bor, 0) then rBrownOut
    else if hit h r (Bor, 1) then rBrownOut
    else if hit h r (Bor, 2) then rBrownOut
    else if hit h r (Bor, 3) then rBrownOut
    else if hit h r (Bor, 4) then rBrownOut
    else if hit h r (Lock, 0) then rLockup
    else if hit h r (Soft, 0) then rSoftwareReset
    else if hit h r (Wdt, 0) then rHardwareWatchdog
    else if hit h r (Wdt, 1) then rHardwareWatchdog
    else if hit h r (Sleep, 0) then rDeepSleep
    else if hit h r (Secure, 0) then rUnknownError
    else if ifhit h r (Soft, 1) then rSoftwareReset
    else if ifhit h r (Soft, 0) then rSoftwareReset
    else if ifhit h r (Lock, 1) then rLockup
    else if ifhit h r (Lock, 0) then rLockup
    else if hit h r (Pin, 0) then rPinReset else rUnknown in
  (mk_told reason r, if clr h then keep s (w1c r (flags h)) else s).
(** ports/silabs/wiseconnect/siwx91x/siwx91x_reboot_tracking.c:46-47, :54-81 *)
Definition siwx (s : rreg) : told * rreg :=
  let r := rg s in
  (mk_told (if Z.land r 0x10000 =? 0 then rPowerOnReset
            else if Z.land r 0x20000 =? 0 then rPinReset else rSoftwareReset) r, s).
(** ports/zephyr/ncs/src/nrfx_pmu_reboot_tracking.c:34-87, :173-202 *)
Definition nrfx_power (h : chip) (s : rreg) : told * rreg :=
  let r := rg s in
  let reason := if hit h r (Pin, 0) then rPinReset
    else if hit h r (Wdt, 0) then rHardwareWatchdog
    else if hit h r (Soft, 0) then rSoftwareReset
    else if hit h r (Lock, 0) then rLockup
    else if hit h r (Sleep, 0) then rDeepSleep          (* OFF *)
    else if ifhit h r (Sleep, 2) then rDeepSleep        (* LPCOMP *)
    else if hit h r (Sleep, 1) then rDeepSleep          (* DIF *)
    else if ifhit h r (Sleep, 3) then rDeepSleep        (* NFC *)
    else if ifhit h r (Sleep, 4) then rDeepSleep        (* VBUS *)
    else if ifhit h r (Debug, 0) then rDeepSleep        (* CTRLAP *)
    else if r =? 0 then rPowerOnReset else rUnknown in
  (mk_told reason r, if clr h then keep s (w1c r (Z.lor r r)) else s).
(** :89-170, :173-202; NRF_RESET_HAS_NETWORK guards LSREQ and LCTRLAP: [has] of (Soft, 1) *)
Definition nrfx_reset (h : chip) (s : rreg) : told * rreg :=
  let r := rg s in
  let reason := if hit h r (Pin, 0) then rPinReset
    else if hit h r (Wdt, 0) then rHardwareWatchdog     (* DOG0 *)
    else if ifhit h r (Debug, 0) then rDebuggerHalted   (* CTRLAP *)
    else if ifhit h r (Debug, 1) then rDebuggerHalted   (* CTRLAPPIN *)
    else if hit h r (Soft, 0) then rSoftwareReset
    else if hit h r (Lock, 0) then rLockup
    else if hit h r (Sleep, 0) then rDeepSleep          (* OFF *)
    else if ifhit h r (Sleep, 2) then rDeepSleep        (* LPCOMP *)
    else if hit h r (Sleep, 1) then rDeepSleep          (* DIF *)
    else if ifhit h r (Soft, 1) then rSoftwareReset     (* LSREQ *)
    else if ifhit h r (Lock, 1) then rLockup            (* LLOCKUP *)
    else if ifhit h r (Wdt, 2) then rHardwareWatchdog   (* LDOG *)
    else if ifhit h r (Soft, 2) then rSoftwareReset     (* MFORCEOFF *)
    else if has h (Soft, 1) && hit h r (Debug, 2) then rSoftwareReset (* LCTRLAP *)
    else if ifhit h r (Sleep, 4) then rDeepSleep        (* VBUS *)
    else if hit h r (Wdt, 1) then rHardwareWatchdog     (* DOG1 *)
    else if hit h r (Sleep, 3) then rDeepSleep          (* NFC *)
    else if r =? 0 then rPowerOnReset else rUnknown in
  (mk_told reason r, if clr h then keep s (w1c r (Z.lor r r)) else s).
(** ports/zephyr/common/memfault_platform_core.c:121-140: the table, in its 16-bit fields *)
Definition hw_table (h : chip) : list (Z * Z) :=
  map (fun x => (u16 (mask h (fst x)), u16 (snd x)))
  [((Pin, 0), rPinReset); ((Soft, 0), rSoftwareReset); ((Bor, 0), rBrownOut); ((Por, 0), rPowerOnReset);
   ((Wdt, 0), rHardwareWatchdog); ((Debug, 0), rDebuggerHalted); ((Secure, 0), rSecurity);
   ((LowP, 0), rLowPower); ((Lock, 0), rLockup); ((Parity, 0), rParity); ((Clock, 0), rClockFailure);
   ((Clock, 1), rClockFailure); ((Hard, 0), rHardware); ((User, 0), rUserReset); ((Temp, 0), rTemperature)].
(** :142-149 *)
Fixpoint hw_loop (l : list (Z * Z)) (r : Z) : Z :=
  match l with
  | [] => rUnknown
  | (b, reason) :: l => if negb (Z.land r b =? 0) then reason else hw_loop l r
  end.
(** :96-150, :153-208 with CONFIG_HWINFO; [hw_rv]: hwinfo_get_reset_cause; [hw_sup]: what
    hwinfo_get_supported_reset_cause gives, if it succeeds; [flags]: what hwinfo_clear_reset_cause clears *)
Definition hwinfo (h : chip) (s : rreg) : told * rreg :=
  let s' := if clr h then keep s (w1c (rg s) (flags h)) else s in
  if negb (hw_rv h =? 0) then (mk_told rUnknown 0, s')
  else
    let r := rg s in
    let fallback := (r =? 0) && match hw_sup h with Some m => Z.land m (mask h (Por, 0)) =? 0 | None => false end in
    (mk_told (if fallback then rPowerOnReset else hw_loop (hw_table h) r) r, s').

Definition reason_get (p : port) (h : chip) (s : rreg) : told * rreg :=
  match p with
  | Da14531 => da14531 h s | Da1469x => da1469x h s | Da1468x => da1468x h s
  | Saml1x => saml1x h s | Nrf5 => nrf5 h s | S32 => s32k h s | Rw61x => rw61x h s | Rt1021 => rt1021 h s
  | F4 => stm_f4 h s | F7 => stm_f7 h s | H5 => stm_h5 h s | H7 => stm_h7 h s | L4 => stm_l4 h s
  | U5 => stm_u5 h s | Wb => stm_wb h s | Rmu => em_rmu h s | Emu => em_emu h s | Siwx => siwx s
  | NrfxPower => nrfx_power h s | NrfxReset => nrfx_reset h s | Hwinfo => hwinfo h s
  end.

(** ** Ports with a number or a vendor's enum *)
(** ports/dialog/da145xx/reset_reboot_tracking.c:45-53, :62-67: [x]: por_time *)
Definition da14585 (x : Z) : told := mk_told (if negb (x =? 0) then rPowerOnReset else rDeepSleep) 0.
(** ports/esp8266_sdk/memfault/esp_reboot_tracking.c:26-77; [e]: the values of the enum *)
Definition esp8266 (e : cause -> Z) (x : Z) : told :=
  mk_told (if x =? e (Por, 0) then rPowerOnReset
           else if x =? e (Soft, 0) then rSoftwareReset
           else if x =? e (SwWdt, 0) then rHardwareWatchdog        (* INT_WDT *)
           else if x =? e (TaskWdt, 0) then rHardwareWatchdog
           else if x =? e (Wdt, 0) then rUnknown
           else if x =? e (Sleep, 0) then rDeepSleep
           else if x =? e (Bor, 0) then rBrownOut
           else if x =? e (Panic, 0) then rHardFault
           else rUnknownError) (u32 x).
(** ports/esp_idf/memfault/common/memfault_platform_core.c:99-164 *)
Definition esp_idf (e : cause -> Z) (x : Z) : told :=
  mk_told (if x =? e (Por, 0) then rPowerOnReset
           else if x =? e (Soft, 0) then rSoftwareReset
           else if x =? e (SwWdt, 0) then rSoftwareWatchdog
           else if x =? e (TaskWdt, 0) then rTaskWatchdog
           else if x =? e (Wdt, 0) then rHardwareWatchdog
           else if x =? e (Sleep, 0) then rDeepSleep
           else if x =? e (Bor, 0) then rBrownOut
           else if x =? e (Panic, 0) then rUnknownError
           else rUnknown) (u32 x).
(** ports/mynewt/src/memfault_platform_port.c:127-159 *)
Definition mynewt (e : cause -> Z) (x : Z) : told :=
  mk_told (if x =? e (Por, 0) then rPowerOnReset
           else if x =? e (Pin, 0) then rPinReset
           else if x =? e (Wdt, 0) then rHardwareWatchdog
           else if x =? e (Soft, 0) then rSoftwareReset
           else if x =? e (Bor, 0) then rBrownOut
           else if x =? e (User, 0) then rUserReset
           else if x =? e (Sleep, 0) then rDeepSleep
           else if x =? e (Update, 0) then rFirmwareUpdate else rUnknown) 0.
(** ports/particle/src/memfault.cpp:267-314 *)
Definition particle (e : cause -> Z) (x : Z) : told :=
  mk_told (if x =? e (Pin, 0) then rPinReset
           else if x =? e (Wdt, 0) then rHardwareWatchdog
           else if x =? e (User, 0) then rUserReset
           else if (x =? e (Shutdown, 0)) || (x =? e (Shutdown, 1)) then rUserShutdown
           else if x =? e (Bor, 0) then rBrownOut
           else if x =? e (Update, 0) then rFirmwareUpdate
           else if x =? e (UpdateTime, 0) then rUpdateError
           else if x =? e (Panic, 0) then rKernelPanic
           else if (x =? e (Mode, 0)) || (x =? e (Mode, 1)) then rSoftwareReset else rUnknown) x.
(** ports/cypress/psoc6/res_cause_reboot_tracking.c:23-122; [m33], [m7]: CY_IP_M33SYSCPUSS, CY_IP_M7CPUSS.
    The register is not cleared. *)
Definition psoc6 (m33 m7 : bool) (e : cause -> Z) (x : Z) : told :=
  mk_told (if x =? 0 then rPowerOnReset
           else if x =? e (Wdt, 0) then rHardwareWatchdog
           else if x =? e (Protect, 0) then rUnknownError
           else if x =? e (Protect, 1) then rUnknownError
           else if (m33 || m7) && (x =? e (Debug, 0)) then rAssert
           else if x =? e (Soft, 0) then rSoftwareReset
           else if (x =? e (SwWdt, 0)) || (x =? e (SwWdt, 1)) || (x =? e (SwWdt, 2)) || (x =? e (SwWdt, 3)) then rSoftwareWatchdog
           else if (x =? e (Clock, 0)) || (x =? e (Clock, 1)) then rClockFailure
           else if x =? e (Sleep, 0) then rLowPower
           else if m7 && ((x =? e (External, 0)) || (x =? e (Bor, 0)) || (x =? e (Bor, 1)) || (x =? e (Bor, 2))) then rBrownOut
           else if m7 && ((x =? e (Hard, 0)) || (x =? e (Hard, 1)) || (x =? e (Hard, 2)) || (x =? e (Hard, 3)) || (x =? e (Hard, 4))
                          || (x =? e (Hard, 5)) || (x =? e (Hard, 6)) || (x =? e (Hard, 7)) || (x =? e (Hard, 8))) then rUnknownError
           else if m7 && (x =? e (Por, 0)) then rPowerOnReset
           else rUnknown) x.

(** The ports above by name. *)
Inductive eport := Esp8266 | EspIdf | Mynewt | Particle | Psoc6.
Definition enum_get (q : eport) (m33 m7 : bool) (e : cause -> Z) (x : Z) : told :=
  match q with
  | Esp8266 => esp8266 e x | EspIdf => esp_idf e x | Mynewt => mynewt e x | Particle => particle e x | Psoc6 => psoc6 m33 m7 e x
  end.
