(** Specification of what a Particle device reports about itself. *)
From Coq Require Import String.
From Verif Require Import Base BuildIdSpec HttpUtilsSpec HttpRequestSpec ParticleDevice.

(** The string in a buffer *)
Definition holds (buf s : list Z) : Prop := Forall (fun c => c <> 0) s /\ exists rest, buf = s ++ 0 :: rest.
Definition text_ok (s : list Z) : Prop := Forall (fun c => c <> 0) s.

(** A signed number in decimal *)
Definition int_text (v : Z) (ds : list Z) : Prop :=
  if v <? 0 then exists r, ds = 45 :: r /\ decimal_text (- v) r else decimal_text v ds.

(** The version of the hardware in full: as given, or PLATFORM-revN *)
Definition hardware_text (b : board) (c : ctor) (s : list Z) : Prop :=
  match ct_hw c with
  | Some h => s = h
  | None => exists ds, int_text (s32 (match bd_rev b with Some r => r | None => 0 end)) ds /\ s = bd_platform b ++ str "-rev" ++ ds
  end.
(** The version of the software in full: vPRODUCT.osSYSTEM, then + and the metadata or else five digits of the
    build id, if there is one *)
Definition extra_text (id : option (list Z)) (c : ctor) (s : list Z) : Prop :=
  match ct_meta c, id with
  | Some m, _ => s = str "+" ++ m
  | None, Some id => exists h, zlen h = 5 /\ BuildIdSpec.digits h = Some (take 5 (halves id)) /\ s = str "+" ++ h
  | None, None => s = []
  end.
Definition software_text (b : board) (id : option (list Z)) (c : ctor) (s : list Z) : Prop :=
  exists ds x, decimal_text (ct_product c) ds /\ extra_text id c x /\ s = str "v" ++ ds ++ str ".os" ++ bd_system b ++ x.

(** What is given has no NUL in it, and numbers are in range. *)
Definition given_ok (b : board) (c : ctor) : Prop :=
  is_u16 (ct_product c) /\ text_ok (bd_platform b) /\ text_ok (bd_system b) /\
  (forall m, ct_meta c = Some m -> text_ok m) /\ (forall h, ct_hw c = Some h -> text_ok h).
