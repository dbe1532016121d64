(** Independent specification of exported chunks: data_export.h:44-45, a NUL terminated string with a
    base64 encoded chunk, "MC:" as a header and ":" as a footer. *)
From Coq Require Import String.
From Verif Require Import Base Base64Spec.

(** The part of a text before the first [c], and the part after it. *)
Fixpoint cut (c : Z) (l : list Z) : option (list Z * list Z) :=
  match l with
  | [] => None
  | x :: r => if x =? c then Some ([], r)
              else match cut c r with Some (a, b) => Some (x :: a, b) | None => None end
  end.
(** The C string an array starts with. *)
Definition c_string (buf : list Z) : option (list Z) :=
  match cut 0 buf with Some (s, _) => Some s | None => None end.
(** What the receiving end makes of a line. *)
Definition read_line (s : list Z) : option (list Z) :=
  match s with
  | 77 :: 67 :: 58 :: r =>                    (* "MC:" *)
      match cut 58 r with                     (* ":" *)
      | Some (enc, []) => b64_decode enc
      | _ => None
      end
  | _ => None
  end.
(** An array handed to the application carries a chunk. *)
Definition carries (buf chunk : list Z) : Prop :=
  exists s, c_string buf = Some s /\ read_line s = Some chunk.
(** The chunk carried by each line of a log into which other lines may have been mixed. *)
Fixpoint extract (log : list (list Z)) : list (list Z) :=
  match log with
  | [] => []
  | s :: r => match read_line s with Some c => c :: extract r | None => extract r end
  end.
(** A log into which lines that are not of the format were mixed. *)
Inductive mixed : list (list Z) -> list (list Z) -> Prop :=
| Mx_nil : mixed [] []
| Mx_line s ls log : mixed ls log -> mixed (s :: ls) (s :: log)
| Mx_other s ls log : read_line s = None -> mixed ls log -> mixed ls (s :: log).
