(** What the ports should put into a coredump. *)
From Verif Require Import Base TaskRegions TaskRegionsSpec PortCapture.

(** An address in a region. *)
Definition inside (g : region) (x : Z) : Prop := fst g <= x < fst g + snd g.
(** The answer of a call: the number of regions and the array, whose first entries are [l]. *)
Definition answers (cap : Z) (o : option (Z * list region)) (l : list region) : Prop :=
  exists rest, o = Some (zlen l, l ++ rest) /\ zlen (l ++ rest) = cap.

(** A region where the address check leaves something. *)
Definition part (sane : Z -> Z -> Z) (a want : Z) : list region := if sane a want =? 0 then [] else [(a, sane a want)].
Definition handles (threads : list (option Z)) : list Z := flat_map (fun t => match t with Some t => [t] | None => [] end) threads.
(** Particle: the stack that was active, then all control blocks, then all stacks, as far as 16 go. *)
Definition particle_wants (sane : Z -> Z -> Z) (top : Z -> Z) (want crash : Z) (threads : list (option Z)) : list region :=
  [(crash, sane crash 512)] ++ flat_map (fun t => part sane t 200) (handles threads) ++
  flat_map (fun t => part sane (top t) want) (handles threads).

(** The memories of the ESP8266 (memfault_platform_coredump_regions.c:42-44). *)
Definition esp8266_ram (iram : Z) : list (Z * Z) := [(0x3FFE8000, 0x18000); (0x40100000, iram)].
(** Linker symbols in order: data, then bss, in the first memory; the others in the second. *)
Definition linked (iram : Z) (l : esp_ld) : Prop :=
  0x3FFE8000 <= ld_data l <= ld_data_end l /\ ld_data_end l <= ld_bss l <= ld_bss_end l /\ ld_bss_end l <= 0x40000000 /\
  0x40100000 <= ld_ibss l <= ld_ibss_end l /\ ld_ibss_end l <= ld_iram_end l <= 0x40100000 + iram.
