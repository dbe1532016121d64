(** Independent specification of custom data recordings: serializer_key_ids.h:69-75 and the contract in
    custom_data_recording.h. *)
From Verif Require Import Base CborSpec SerializerHelper SerializerHelperSpec Cdr.

(** What the cloud has to read for a recording. *)
Definition cdr_item (env : senv) (r : cdr_rec) : item :=
  event_item env 5 (cm_time (cr_meta r))
    (IMap [ (IInt 1, IInt (cm_duration (cr_meta r)))
          ; (IInt 2, IArray (map IText (cm_mimes (cr_meta r))))
          ; (IInt 3, IText (cm_reason (cr_meta r)))
          ; (IInt 4, IBytes (cr_data r)) ]).

(** A recording an application may offer. *)
Definition rec_ok (r : cdr_rec) : Prop :=
  let m := cr_meta r in
  is_u32 (cm_duration m) /\ is_u32 (cm_size m) /\ zlen (cr_data r) = cm_size m /\ bytes (cr_data r) /\
  Forall (fun s => bytes s /\ zlen s < 65536) (cm_reason m :: cm_mimes m) /\ zlen (cm_mimes m) < 16384.

(** The state seen from outside: registered sources, oldest first; recordings held; source being read. *)
Record cdr_view := mk_cv { cv_reg : list Z; cv_world : cdr_world; cv_act : option Z }.

(** First registered source with a recording. *)
Fixpoint first_with (w : cdr_world) (reg : list Z) : option Z :=
  match reg with
  | [] => None
  | i :: r => match w i with [] => first_with w r | _ => Some i end
  end.

(** One call; [msg r] is the message for a recording, [n] sources fit the table.  [None]: the caller broke
    the contract (a range that wraps; recordings larger than 4 GiB). *)
Definition cv_step (msg : cdr_rec -> list Z) (n : Z) (v : cdr_view) (o : cdr_op) : option (cdr_res * cdr_view) :=
  match o with
  | CoRegister i =>
      if zlen (cv_reg v) <? n then Some (CrBool true, mk_cv (cv_reg v ++ [i]) (cv_world v) (cv_act v))
      else Some (CrBool false, v)
  | CoHas =>
      match (match cv_act v with Some i => Some i | None => first_with (cv_world v) (cv_reg v) end) with
      | None => Some (CrSize None, v)
      | Some i => match cv_world v i with
                  | r :: _ => Some (CrSize (Some (zlen (msg r))), mk_cv (cv_reg v) (cv_world v) (Some i))
                  | [] => None
                  end
      end
  | CoRead off len =>
      if (off <? 0) || (len <? 0) || (4294967296 <=? off + len) then None
      else match cv_act v with
           | None => Some (CrData None, v)
           | Some i => match cv_world v i with
                       | r :: _ => Some (CrData (if off + len <=? zlen (msg r) then Some (take len (drop off (msg r))) else None), v)
                       | [] => None
                       end
           end
  | CoMark =>
      match cv_act v with
      | None => Some (CrUnit, v)
      | Some i => Some (CrUnit, mk_cv (cv_reg v) (w_set (cv_world v) i (tl (cv_world v i))) None)
      end
  | CoReset => Some (CrUnit, mk_cv [] (cv_world v) None)
  | CoRecord i r => Some (CrUnit, mk_cv (cv_reg v) (w_set (cv_world v) i (cv_world v i ++ [r])) (cv_act v))
  end.
Fixpoint cv_run (msg : cdr_rec -> list Z) (n : Z) (v : cdr_view) (ops : list cdr_op) : option (list cdr_res * cdr_view) :=
  match ops with
  | [] => Some ([], v)
  | o :: r => do x <- cv_step msg n v o;
              let (y, v) := x in
              do z <- cv_run msg n v r;
              let (ys, v) := z in Some (y :: ys, v)
  end.

(** Every recording that is offered satisfies [P]. *)
Definition recs_all (P : cdr_rec -> Prop) (w : cdr_world) : Prop := forall i, Forall P (w i).
Definition op_recs (P : cdr_rec -> Prop) (o : cdr_op) : Prop := match o with CoRecord _ r => P r | _ => True end.
