(** Independent specification of the run-length data source: a queue of messages, each seen
    through an encoding [E]; the caller asks for the size, reads the encoded bytes in order, and
    marks the message read. *)
From Verif Require Import Base RleSpec DataSourceRle.

(** [None]: not in use; [Some None]: no size asked for yet; [Some (Some p)]: [p] bytes read. *)
Definition progress := option (option Z).

(** [None]: the caller breaks the contract (not selected, read before asking for the size or past
    the end, mark with nothing there). *)
Definition dsp_step (E : list Z -> list Z) (q : list (list Z)) (p : progress) (o : ds_op)
  : option (ds_res * list (list Z) * progress) :=
  match o, p, q with
  | DActive true, None, _ => Some (RNone, q, Some None)
  | DActive true, _, _ => Some (RNone, q, p)
  | DActive false, _, _ => Some (RNone, q, None)
  | DHasMore, Some _, [] => Some (RMore None, q, p)
  | DHasMore, Some None, m :: _ => Some (RMore (Some (zlen (E m))), q, Some (Some 0))
  | DHasMore, Some (Some n), m :: _ => Some (RMore (Some (zlen (E m))), q, p)
  | DRead off len, Some (Some n), m :: _ =>
      if negb (off =? n) then Some (RRead false [], q, p)
      else if (0 <=? len) && (n + len <=? zlen (E m))
           then Some (RRead true (take len (drop n (E m))), q, Some (Some (n + len)))
           else None
  | DMark, Some _, _ :: q' => Some (RNone, q', Some None)
  | DPush m, _, _ => Some (RNone, q ++ [m], p)
  | _, _, _ => None
  end.
Fixpoint dsp_run (E : list Z -> list Z) (q : list (list Z)) (p : progress) (ops : list ds_op)
  : option (list ds_res * list (list Z) * progress) :=
  match ops with
  | [] => Some ([], q, p)
  | o :: r => do x <- dsp_step E q p o; let '(res, q, p) := x in
              do y <- dsp_run E q p r; let '(rs, q, p) := y in Some (res :: rs, q, p)
  end.

(** Messages of less than 2 GiB (see C07). *)
Definition ds_op_ok (o : ds_op) : Prop := match o with DPush m => zlen m < 2147483648 | _ => True end.
