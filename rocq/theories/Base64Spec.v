(** Independent specification: RFC 4648 section 4 base64 decoding (strict: canonical
    padding bits, '=' only at the very end). *)
From Verif Require Import Base.

(** RFC 4648 Table 1. *)
Definition b64_val (c : Z) : option Z :=
  if (65 <=? c) && (c <=? 90) then Some (c - 65)          (* A-Z *)
  else if (97 <=? c) && (c <=? 122) then Some (c - 97 + 26) (* a-z *)
  else if (48 <=? c) && (c <=? 57) then Some (c - 48 + 52)  (* 0-9 *)
  else if c =? 43 then Some 62                            (* + *)
  else if c =? 47 then Some 63                            (* / *)
  else None.

Fixpoint b64_decode (l : list Z) : option (list Z) :=
  match l with
  | [] => Some []
  | a :: b :: c :: d :: r =>
      match b64_val a, b64_val b with
      | Some va, Some vb =>
          match b64_val c with
          | Some vc =>
              match b64_val d with
              | Some vd =>
                  match b64_decode r with
                  | Some t => Some (va * 4 + vb / 16 :: (vb mod 16) * 16 + vc / 4
                                      :: (vc mod 4) * 64 + vd :: t)
                  | None => None
                  end
              | None =>
                  if (d =? 61) && (vc mod 4 =? 0)
                  then match r with
                       | [] => Some [va * 4 + vb / 16; (vb mod 16) * 16 + vc / 4]
                       | _ => None
                       end
                  else None
              end
          | None =>
              if (c =? 61) && (d =? 61) && (vb mod 16 =? 0)
              then match r with [] => Some [va * 4 + vb / 16] | _ => None end
              else None
          end
      | _, _ => None
      end
  | _ => None
  end.
