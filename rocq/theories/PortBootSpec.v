(** From the reset register to the reboot event: what is read back over resets. *)
From Verif Require Import Base SerializerHelper Reboot PortReset PortResetSpec.

(** Before a reset the firmware may record a reason; then the reset, the boot with what the port tells,
    and the reset information read and consumed. *)
Definition mark : Type := option (Z * Z * Z).
Definition round (e : mark * told) : list rt_op :=
  match fst e with Some (r, pc, lr) => [TMark r (Some (pc, lr))] | None => [] end
  ++ [TReset None; TBoot true None (Some (t_reason (snd e), t_reg (snd e))); TRead; TUnexpected; TClear].
(** The recorded reason is the one in effect, else the port's. *)
Definition effect (e : mark * told) : Z := match fst e with Some (r, _, _) => r | None => t_reason (snd e) end.
Definition unexpected_reason (r : Z) : bool := (r =? 0) || (0x8000 <=? r).
(** The first boot, after which nothing is recorded and no crash is counted. *)
Definition first_boot (t : told) : list rt_op := [TBoot true None (Some (t_reason t, t_reg t)); TClear; TResetCount].
Definition read_back (e : mark * told) : list rt_res :=
  match fst e with Some _ => [TOk] | None => [] end
  ++ [TOk; TOk;
      TInfo (Some (match fst e with Some (r, pc, lr) => mk_ri r pc lr (t_reg (snd e)) 0
                   | None => mk_ri (t_reason (snd e)) 0 0 (t_reg (snd e)) 0 end));
      TBool (unexpected_reason (effect e)); TOk].
Definition marks_ok (l : list mark) : Prop := Forall (fun m => match m with Some (r, _, _) => is_u16 r | None => True end) l.
Definition crashes (l : list (mark * told)) : Z := zlen (filter (fun e => unexpected_reason (effect e)) l).
