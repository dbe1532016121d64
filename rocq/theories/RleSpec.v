(** Independent specification: decoder for the format documented in
    include/memfault/util/rle.h:10-18 (zig-zag varint, then the payload; a positive count means
    the next byte is repeated, a negative one that many literal bytes follow). *)
From Verif Require Import Base VarintSpec.

Fixpoint rle_decode_fuel (fuel : nat) (s : list Z) : option (list Z) :=
  match s with
  | [] => Some []
  | _ =>
      match fuel with
      | O => None
      | S f =>
          match leb_read s with
          | None => None
          | Some (u, rest) =>
              let n := unzigzag u in
              if 0 <? n then
                match rest with
                | [] => None
                | b :: rest' => match rle_decode_fuel f rest' with
                                | Some d => Some (repeat b (Z.to_nat n) ++ d)
                                | None => None end
                end
              else if zlen rest <? - n then None
              else match rle_decode_fuel f (drop (- n) rest) with
                   | Some d => Some (take (- n) rest ++ d)
                   | None => None end
          end
      end
  end.
(** Every step consumes at least one byte, so the length of the stream is enough fuel. *)
Definition rle_decode (s : list Z) : option (list Z) := rle_decode_fuel (length s) s.
