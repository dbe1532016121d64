(** Independent specification of the upload message of the RAM log. *)
From Verif Require Import Base Log LogSpec CborSpec SerializerHelper SerializerHelperSpec.

(** What a log contributes: its time (0 when unknown) when the SDK is built with timestamps, its
    level, and its text, or bytes for a compact log (type 1). *)
Definition log_items (tse : bool) (e : hlog) : list item :=
  (if tse then [IInt (match l_ts e with Some t => t | None => 0 end)] else [])
  ++ [IInt (l_level e); if l_type e =? 0 then IText (l_text e) else IBytes (l_text e)].
Definition logs_item (env : senv) (tse : bool) (time : option Z) (l : list hlog) : item :=
  event_item env (if tse then 6 else 4) time (IArray (flat_map (log_items tse) l)).

(** The logs of the upload in progress: the ones neither uploaded nor gone, up to the trigger. *)
Definition uploading (cap : Z) (h : hist) : list hlog :=
  match h_up h with
  | Some n => let a := Z.max (first cap (h_saved h)) (h_sent h) in take (n - a) (drop a (h_saved h))
  | None => []
  end.
(** The time of the trigger that began the upload in progress. *)
Fixpoint upload_time (max cap : Z) (h : hist) (t : option Z) (ops : list log_op) : option Z :=
  match ops with
  | [] => t
  | o :: r => match hist_step max cap h o with
              | Some (_, h') => upload_time max cap h' (match o, h_up h with LTrigger x, None => x | _, _ => t end) r
              | None => t
              end
  end.

(** Logs are stored one after the other in a ring of [cap] bytes.  A log is whole when it has at
    least one byte after its two bytes of header and these do not wrap around the end of the ring. *)
Definition whole (cap before : Z) (e : hlog) : Prop :=
  2 < hroom e /\ (before + 2) mod cap + (hroom e - 2) <= cap.
Fixpoint all_whole (cap before : Z) (l : list hlog) : Prop :=
  match l with [] => True | e :: r => whole cap before e /\ all_whole cap (before + hroom e) r end.
(** All logs of the upload are whole. *)
Definition upload_whole (cap : Z) (h : hist) : Prop :=
  all_whole cap (hrooms (take (Z.max (first cap (h_saved h)) (h_sent h)) (h_saved h))) (uploading cap h).
