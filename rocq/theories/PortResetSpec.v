(** What the reported reset reasons mean, without the ports' code: causes as names, registers as sets of
    them. *)
From Verif Require Import Base PortReset.

Definition class_dec (a b : class) : {a = b} + {a <> b}.
Proof. decide equality. Defined.
Definition ceq (a b : cause) : bool := if class_dec (fst a) (fst b) then snd a =? snd b else false.
Definition among (c : cause) (l : list cause) : bool := existsb (ceq c) l.

(** The reason for a class of resets (reboot_reason_types.h). *)
Definition meaning (k : class) : Z :=
  match k with
  | Por => 7 | Bor => 0x8003 | Pin => 10 | Button => 6 | Soft => 8 | Wdt => 0x8005 | SwWdt => 0x8006 | TaskWdt => 0x800C
  | Lock => 0x9401 | Sleep => 9 | LowP => 4 | Debug => 5 | Clock => 0x8007 | Secure => 0x9402 | Temp => 0x9404
  | Firewall => 0x9300 | OptLoad => 0 | Parity => 0x9403 | Hard => 0x9405 | User => 2 | Domain => 4
  | Protect => 0x8000 | Panic => 0x8008 | Shutdown => 1 | Update => 3 | UpdateTime => 0x8009 | Mode => 8 | External => 10
  end.
(** Where a port says something else. *)
Definition says (p : port) (c : cause) : Z :=
  match p, fst c with
  | Da1468x, Debug => 8 | S32, Debug => 8 | S32, Pin => 6 | Rmu, Pin => 6
  | Nrf5, Lock => 8 | NrfxPower, Debug => 9
  | NrfxReset, Debug => if snd c =? 2 then 8 else 5
  | Rt1021, Temp => 0x8000 | Rt1021, Secure => 0x8000 | Emu, Secure => 0x8000
  | F4, LowP => 9 | U5, LowP => 9 | H7, LowP => 0x8000 | H7, User => 8
  | L4, Bor => 7 | Wb, Bor => 7          (* "doesn't have a way to disambiguate a BOR vs POR" *)
  | _, k => meaning k
  end.

(** The bits of each port's register, first those that are told first. *)
Definition order (p : port) : list cause :=
  match p with
  | Da14531 => [(Pin, 0); (Soft, 0); (Wdt, 0)]
  | Da1469x => [(Por, 0); (Debug, 0); (Wdt, 0); (Wdt, 1); (Pin, 0); (Soft, 0)]
  | Da1468x => [(Por, 0); (Debug, 0); (Wdt, 0); (Soft, 0); (Pin, 0)]
  | Saml1x => [(Por, 0); (Bor, 0); (Bor, 1); (Pin, 0); (Wdt, 0); (Soft, 0)]
  | Nrf5 => [(Pin, 0); (Wdt, 0); (Soft, 0); (Lock, 0); (Sleep, 0); (Sleep, 1); (Sleep, 2); (Sleep, 3); (Sleep, 4)]
  | S32 => [(Por, 0); (Debug, 0); (Soft, 0); (Debug, 1); (Pin, 0); (Lock, 0); (Wdt, 0); (Clock, 0); (Clock, 1); (Bor, 0)]
  | Rw61x => [(Soft, 0); (Lock, 0); (Wdt, 0); (Debug, 0); (SwWdt, 0); (Secure, 0); (Pin, 0)]
  | Rt1021 => [(Soft, 0); (Temp, 0); (Wdt, 1); (Wdt, 0); (Debug, 0); (Button, 0); (Secure, 0); (Lock, 0); (Pin, 0)]
  | F4 => [(LowP, 0); (Soft, 0); (Wdt, 0); (Wdt, 1); (Por, 0); (Bor, 0); (Pin, 0)]
  | F7 => [(Soft, 0); (Por, 0); (Bor, 0); (Wdt, 1); (Wdt, 0); (LowP, 0); (Pin, 0)]
  | H5 => [(Pin, 0); (Bor, 0); (Soft, 0); (Wdt, 0); (Wdt, 1); (LowP, 0)]
  | H7 => [(Wdt, 0); (User, 0); (Domain, 1); (Domain, 2); (Bor, 0); (Pin, 0); (Por, 0); (Soft, 0); (Wdt, 1); (LowP, 0)]
  | L4 => [(Firewall, 0); (Soft, 0); (Wdt, 0); (Wdt, 1); (Bor, 0); (Pin, 0)]
  | U5 => [(LowP, 0); (Soft, 0); (Wdt, 0); (Wdt, 1); (Bor, 0); (Pin, 0)]
  | Wb => [(Soft, 0); (Wdt, 0); (Wdt, 1); (Bor, 0); (Pin, 0)]
  | Rmu => [(Por, 0); (Bor, 0); (Bor, 1); (Bor, 2); (Lock, 0); (Soft, 0); (Wdt, 0); (Sleep, 0); (Pin, 0)]
  | Emu => [(Por, 0); (Bor, 0); (Bor, 1); (Bor, 2); (Bor, 3); (Bor, 4); (Lock, 0); (Soft, 0); (Wdt, 0); (Wdt, 1); (Sleep, 0);
            (Secure, 0); (Soft, 1); (Lock, 1); (Pin, 0)]
  | Siwx => [(Por, 0); (Pin, 0)]
  | NrfxPower => [(Pin, 0); (Wdt, 0); (Soft, 0); (Lock, 0); (Sleep, 0); (Sleep, 2); (Sleep, 1); (Sleep, 3); (Sleep, 4); (Debug, 0)]
  | NrfxReset => [(Pin, 0); (Wdt, 0); (Debug, 0); (Debug, 1); (Soft, 0); (Lock, 0); (Sleep, 0); (Sleep, 2); (Sleep, 1);
                  (Soft, 1); (Lock, 1); (Wdt, 2); (Soft, 2); (Debug, 2); (Sleep, 4); (Wdt, 1); (Sleep, 3)]
  | Hwinfo => [(Pin, 0); (Soft, 0); (Bor, 0); (Por, 0); (Wdt, 0); (Debug, 0); (Secure, 0); (LowP, 0); (Lock, 0); (Parity, 0);
               (Clock, 0); (Clock, 1); (Hard, 0); (User, 0); (Temp, 0)]
  end.
(** The standby flag of F4 and L4. *)
Definition standby : cause := (Sleep, 9).
Definition has_standby (p : port) : bool := match p with F4 | L4 => true | _ => false end.

(** ** What a chip does *)
(** Bits that a reset of cause [c] sets for sure, and those that it may set as well: what the ports'
    comments say.  *)
Definition power_only (p : port) : bool :=      (* no bit means a power-on reset *)
  match p with Da14531 | Nrf5 | Rw61x | NrfxPower | NrfxReset => true | _ => false end.
(** hwinfo: no bit means a power-on reset where the driver has no bit for it. *)
Definition no_por_bit (h : chip) : bool := match hw_sup h with Some m => Z.land m (mask h (Por, 0)) =? 0 | None => false end.
Definition sets (p : port) (h : chip) (c : cause) : list cause :=
  match p, fst c with
  | Da1469x, Sleep => []
  | Hwinfo, Por => if no_por_bit h then [] else [c]
  | U5, Por => [(Pin, 0); (Bor, 0)]
  | Siwx, Por => [] | Siwx, Pin => [(Por, 0)] | Siwx, _ => [(Por, 0); (Pin, 0)]    (* the bits are inverted *)
  | H7, Por => [c; (Pin, 0); (Bor, 0); (Domain, 2); (Domain, 1); (User, 0)]
  | H7, Pin => [c; (User, 0)]
  | H7, (User | Domain) => [c]
  | H7, _ => [c; (Pin, 0); (User, 0)]
  | _, Por => if power_only p then [] else [c]
  | _, _ => [c]
  end.
Definition may_set (p : port) (c : cause) : list cause :=
  match p, fst c with
  | Da1469x, Por => order Da1469x                       (* "If POR occurs, all bits are set" *)
  | Da1468x, Por => [(Wdt, 0); (Debug, 0)]              (* "Note that it is also set when a POReset has happened" *)
  | S32, Por => [(Bor, 0)]                              (* "POR (including LVD) - 0x82" *)
  | (F4 | L4), Sleep => order p
  | (F4 | F7), Por => [(Bor, 0); (Pin, 0)]
  | (F4 | F7 | L4 | Wb), _ => [(Pin, 0)]                (* "all other internally generated resets are wired to the reset pin" *)
  | U5, (LowP | Soft | Wdt) => [(Pin, 0)]
  | Siwx, Por => [(Pin, 0)]
  | _, _ => []
  end.
(** Causes of resets of each chip. *)
Definition resets (p : port) : list cause :=
  match p with
  | Da14531 | Nrf5 | NrfxPower | NrfxReset | Rw61x | U5 => (Por, 0) :: order p
  | Da1469x => (Sleep, 0) :: order p
  | F4 | L4 => standby :: order p
  | Siwx => (Soft, 0) :: order p
  | _ => order p
  end.
Definition bits_of (p : port) : list cause := if has_standby p then standby :: order p else order p.
(** [f]: the bits that a reset of cause [c] sets. *)
Definition raises (p : port) (h : chip) (c : cause) (f : cause -> bool) : Prop :=
  forall x, In x (bits_of p) ->
    (among x (sets p h c) = true -> f x = true) /\ (f x = true -> among x (sets p h c ++ may_set p c) = true).

(** Registers that keep their bits over a reset, until cleared. *)
Definition sticky (p : port) : bool :=
  match p with Da14531 | Saml1x | S32 | Rw61x | Siwx => false | _ => true end.
Definition all_bits (p : port) (h : chip) : Z := ors h (order p).
Definition bits (p : port) (h : chip) (f : cause -> bool) : Z := ors h (filter f (order p)).
(** A reset: the bits [f] are set; the register's other bits become [x]. *)
Definition reset_chip (p : port) (h : chip) (s : rreg) (f : cause -> bool) (x : Z) : rreg :=
  mk_rr (Z.lor (if sticky p then Z.land (rg s) (all_bits p h) else 0) (Z.lor (bits p h f) x))
        (sb s || (has_standby p && f standby)).
(** Resets, each followed by a boot. *)
Fixpoint boots (p : port) (h : chip) (s : rreg) (l : list ((cause -> bool) * Z)) : list told :=
  match l with
  | [] => []
  | (f, x) :: l => let (t, s) := reason_get p h (reset_chip p h s f x) in t :: boots p h s l
  end.

(** A sane chip: masks are different single bits; "clear" clears the port's bits (on RT1021 all but the
    temperature's, which is not in SRC_SRSR_W1C_BITS_MASK); hwinfo answers and its bits fit into 16. *)
Record chip_ok (p : port) (h : chip) : Prop := {
  ch_bits : exists b : cause -> Z, (forall c, In c (order p) -> 0 <= b c < (match p with Hwinfo => 16 | _ => 32 end) /\ mask h c = 2 ^ b c)
    /\ forall c d, In c (order p) -> In d (order p) -> b c = b d -> c = d;
  ch_flags : forall c, In c (order p) -> Z.land (flags h) (mask h c)
    = match p, fst c with Rt1021, Temp => 0 | _, _ => mask h c end;
  ch_hw : p = Hwinfo -> hw_rv h = 0;
  ch_siwx : p = Siwx -> mask h (Por, 0) = 2 ^ 16 /\ mask h (Pin, 0) = 2 ^ 17;
  ch_net : p = NrfxReset -> has h (Debug, 2) = has h (Soft, 1) }.
(** Bits that the chip has not are not set; other bits are not the port's and, where they would count,
    not set. *)
Definition plain (p : port) : bool := match p with Da1469x | NrfxPower | NrfxReset | Hwinfo => true | _ => false end.
Definition set_ok (p : port) (h : chip) (f : cause -> bool) (x : Z) : Prop :=
  (forall c, In c (order p) -> f c = true -> has h c = true) /\ is_u32 x /\ (plain p = true -> x = 0)
  /\ (forall c, In c (order p) -> Z.land x (mask h c) = 0) /\ (p = Rt1021 -> Z.land x (flags h) = 0).

(** ** The reason *)
(** The first bit set, in the port's order. *)
Definition first (p : port) (g : cause -> bool) (none : Z) : Z :=
  match find g (order p) with Some c => says p c | None => none end.
(** [g]: the bits set. *)
Definition verdict (p : port) (h : chip) (g : cause -> bool) : Z :=
  match p with
  | Da14531 | Da1468x | Nrf5 | Rw61x | NrfxPower | NrfxReset => first p g 7
  | Da1469x => first p g 9
  | Hwinfo => first p g (if no_por_bit h then 7 else 0)
  | S32 => if g (Bor, 0) && g (Por, 0) then 0x8003
           else first p (fun c => g c && negb (ceq c (Bor, 0))) 0
  | U5 => if negb (g (LowP, 0) || g (Soft, 0) || g (Wdt, 0) || g (Wdt, 1)) && g (Pin, 0) && g (Bor, 0) then 7 else first p g 0
  | H7 => match find (fun c => forallb (fun x => Bool.eqb (g x) (among x (sets H7 h c))) (order H7)) (order H7) with
          | Some c => says H7 c | None => 0 end
  | F4 | L4 => if g standby then 9 else first p g 0
  | Rmu => first p (fun c => g c && (negb (ceq c (Sleep, 0)) || has h (Sleep, 1))) 0
  | Siwx => if g (Por, 0) then if g (Pin, 0) then 8 else 10 else 7
  | _ => first p g 0
  end.
(** The bits left after a boot. *)
Definition always_clears (p : port) : bool := match p with Da1468x | Nrf5 | F4 | L4 | U5 => true | _ => false end.
Definition left (p : port) (h : chip) (g : cause -> bool) : cause -> bool := fun c =>
  g c && (ceq c standby || sticky p) && negb (always_clears p || (clr h && negb (match p, fst c with Rt1021, Temp => true | _, _ => false end))).
(** The register's other bits are told as they are, but on the RT1021 (masked). *)
Definition other (p : port) (x : Z) : Z := match p with Rt1021 => 0 | _ => x end.
(** What the boots of a history tell; [g]: the bits set before. *)
Fixpoint expected (p : port) (h : chip) (g : cause -> bool) (l : list ((cause -> bool) * Z)) : list told :=
  match l with
  | [] => []
  | (f, x) :: l =>
      let g := fun c => g c || f c in
      mk_told (verdict p h g) (Z.lor (bits p h g) (other p x)) :: expected p h (left p h g) l
  end.
(** What a register holds. *)
Definition set_now (p : port) (h : chip) (s : rreg) : cause -> bool := fun c =>
  if ceq c standby then sb s else sticky p && hit h (rg s) c.

(** Resets that the ports misreport: see the refutations. *)
Definition misreported (p : port) (h : chip) (c : cause) : bool :=
  match p, fst c with S32, (Por | Bor) => true | Rmu, Sleep => negb (has h (Sleep, 1)) | _, _ => false end.

(** A port that starts each boot with a register that tells of the last reset only. *)
Definition tidy (p : port) (h : chip) : bool := negb (sticky p) || always_clears p || clr h.
Definition stuck (p : port) (c : cause) : bool := match p, fst c with Rt1021, Temp => true | _, _ => false end.

(** ** Ports with a number or an enum *)
Definition tells (q : eport) (c : cause) : Z :=
  match q, fst c with
  | Esp8266, (SwWdt | TaskWdt) => 0x8005 | Esp8266, Wdt => 0 | Esp8266, Panic => 0x9400
  | EspIdf, Panic => 0x8000
  | Psoc6, Debug => 0x8001 | Psoc6, Sleep => 4 | Psoc6, External => 0x8003 | Psoc6, Hard => 0x8000
  | _, k => meaning k
  end.
(** The values that each port knows. *)
Definition known (q : eport) (m33 m7 : bool) : list cause :=
  match q with
  | Esp8266 | EspIdf => [(Por, 0); (Soft, 0); (SwWdt, 0); (TaskWdt, 0); (Wdt, 0); (Sleep, 0); (Bor, 0); (Panic, 0)]
  | Mynewt => [(Por, 0); (Pin, 0); (Wdt, 0); (Soft, 0); (Bor, 0); (User, 0); (Sleep, 0); (Update, 0)]
  | Particle => [(Pin, 0); (Wdt, 0); (User, 0); (Shutdown, 0); (Shutdown, 1); (Bor, 0); (Update, 0); (UpdateTime, 0); (Panic, 0); (Mode, 0); (Mode, 1)]
  | Psoc6 => [(Wdt, 0); (Protect, 0); (Protect, 1); (Soft, 0); (SwWdt, 0); (SwWdt, 1); (SwWdt, 2); (SwWdt, 3); (Clock, 0); (Clock, 1); (Sleep, 0)]
      ++ (if m33 || m7 then [(Debug, 0)] else [])
      ++ (if m7 then [(External, 0); (Bor, 0); (Bor, 1); (Bor, 2); (Hard, 0); (Hard, 1); (Hard, 2); (Hard, 3); (Hard, 4); (Hard, 5);
                      (Hard, 6); (Hard, 7); (Hard, 8); (Por, 0)] else [])
  end.
Definition otherwise (q : eport) (x : Z) : Z := match q with Esp8266 => 0x8000 | Psoc6 => if x =? 0 then 7 else 0 | _ => 0 end.
(** Different names have different values (or the switch would not compile); on PSoC 6 none is 0. *)
Definition enum_ok (q : eport) (m33 m7 : bool) (e : cause -> Z) : Prop :=
  (forall c d, In c (known q m33 m7) -> In d (known q m33 m7) -> e c = e d -> c = d)
  /\ (forall c, In c (known q m33 m7) -> q = Psoc6 -> e c <> 0).
Definition raw (q : eport) (x : Z) : Z := match q with Mynewt => 0 | Esp8266 | EspIdf => x mod 2 ^ 32 | _ => x end.
