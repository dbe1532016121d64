(** Independent specification of the export of saved logs. *)
From Coq Require Import String.
From Verif Require Import Base Base64Spec Log LogSpec LogExport DataExportSpec.

(** A line "ML:", base64, ":" and the bytes it carries (core/log.h:37-42). *)
Definition log_line (s : list Z) : option (list Z) :=
  match s with
  | 77 :: 76 :: 58 :: r =>
      match cut 58 r with
      | Some (enc, []) => b64_decode enc
      | _ => None
      end
  | _ => None
  end.
(** A call of the application's function: a C string of the length given, at the log's level, whose
    line carries [piece]. *)
Definition call_carries (level : Z) (c : log_call) (piece : list Z) : Prop :=
  lc_level c = level /\
  exists s, c_string (lc_mem c) = Some s /\ zlen s = lc_len c /\ log_line s = Some piece.

(** The calls for one log.  A compact log: its bytes in order, in pieces of [max] bytes but for the
    last, which is shorter and not empty.  Any other: its text, once, with a NUL behind. *)
Fixpoint pieces_of (max : Z) (ps : list (list Z)) : Prop :=
  match ps with
  | [] => True
  | [p] => 0 < zlen p <= max
  | p :: r => zlen p = max /\ pieces_of max r
  end.
Definition exports_log (max : Z) (l : rlog) (cs : list log_call) : Prop :=
  if r_type l =? 1
  then exists ps, concat ps = r_text l /\ pieces_of max ps /\ Forall2 (call_carries (r_level l)) cs ps
  else exists rest, cs = [mk_log_call (r_level l) (r_text l ++ 0 :: rest) (zlen (r_text l))].

(** What is still to be read: a notice when logs were lost since the last one, and then every log
    held that was not read. *)
Definition pending (max cap : Z) (h : hist) : list rlog :=
  let lost := wrap32 (h_lost h) in
  (if negb (h_seen h =? lost) && (0 <? lost) then [notice max lost] else []) ++
  map hlog_read (skipn (Z.to_nat (Z.max (first cap (h_saved h)) (h_next h))) (h_saved h)).
