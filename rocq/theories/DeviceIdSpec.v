(** Independent specification of device serials. *)
From Coq Require Import String.
From Verif Require Import Base Conc ConcSpec DeviceId.

(** The digits of a byte, from a table. *)
Definition table (upper : bool) : string := if upper then "0123456789ABCDEF" else "0123456789abcdef".
Definition digit (table : string) (v : Z) : Z := match get (str table) v with Some c => c | None => 0 end.
Definition in_hex (table : string) (id : list Z) : list Z :=
  flat_map (fun v => [digit table (v / 16); digit table (v mod 16)]) id.
(** How each port writes an identifier: Zephyr in small letters, Dialog from the last byte. *)
Definition serial_of (p : dport) (id : list Z) : list Z :=
  match p with
  | DZephyr => in_hex (table false) id
  | DDialog => in_hex (table true) (rev id)
  | _ => in_hex (table true) id
  end.
(** The identifiers: a MAC address of six bytes, 64 bits, 96 bits, up to 16 bytes. *)
Definition id_ok (p : dport) (id : list Z) : Prop :=
  bytes id /\ match p with
              | DEsp | DWiced | DDialog => zlen id = 6
              | DNrf5 => zlen id = 8
              | DMbed => zlen id = 12
              | DZephyr => 0 < zlen id <= 16
              end.
(** What the cloud takes as a serial: ^[-a-zA-Z0-9_]+$
    (examples/cypress/CY8CKIT-064S0S2-4343W/src/memfault_platform_port.c:40). *)
Definition serial_char (c : Z) : Prop := 48 <= c <= 57 \/ 65 <= c <= 90 \/ 97 <= c <= 122 \/ c = 45 \/ c = 95.
Definition serial_valid (l : list Z) : Prop := l <> [] /\ Forall serial_char l.

(** Calls one after the other, each to its end. *)
Inductive asked {S Op R} (alone : Op -> S -> option (R * S)) : S -> list Op -> list R -> S -> Prop :=
| as_nil s : asked alone s [] [] s
| as_cons s o l r s1 rs s2 : alone o s = Some (r, s1) -> asked alone s1 l rs s2 -> asked alone s (o :: l) (r :: rs) s2.

(** What calls that have returned gave. *)
Definition results {Op R} (h : list (event Op R)) : list R :=
  flat_map (fun e => match e with Res _ _ r => [r] | Inv _ _ => [] end) h.
(** Tasks that ask at once, and what they are told: always the serial. *)
Definition always_whole (p : dport) (soc id : list Z) (s : did) : Prop :=
  forall sched, Forall (fun i => match i with Start _ o => dc_isr o = false | Step _ => True end) sched ->
  exists m, mach_run (p_serial p soc (Some id)) (start_mach s) sched = Some m /\
    Forall (fun r => r = serial_of p id) (results (m_hist m)).
(** Never anything but a beginning of it, whoever writes meanwhile. *)
Definition always_beginning (p : dport) (soc id : list Z) (s : did) : Prop :=
  forall sched, Forall (fun i => match i with Start _ o => dc_isr o = false | Step _ => True end) sched ->
  exists m, mach_run (p_serial p soc (Some id)) (start_mach s) sched = Some m /\
    Forall (fun r => exists more, serial_of p id = (r ++ more)%list) (results (m_hist m)).
