(** Independent specification: receiver for the chunk protocol documented at the top of
    memfault_chunk_transport.c (:8-19) and in the comments of the header byte (:36-53). *)
From Verif Require Import Base VarintSpec.

(** A parsed chunk: continuation flag, more-data flag, total length (first chunk) or offset
    (continuation) if present, data, CRC if present. *)
Record chunk := mk_chunk {
  k_cont : bool; k_md : bool; k_num : option Z; k_data : list Z; k_crc : option Z }.

(** Last two bytes are the CRC, least significant byte first. *)
Definition split_crc (s : list Z) : option (list Z * Z) :=
  if zlen s <? 2 then None
  else match drop (zlen s - 2) s with
       | [lo; hi] => Some (take (zlen s - 2) s, lo + 256 * hi)
       | _ => None
       end.

Definition parse_chunk (s : list Z) : option chunk :=
  match s with
  | [] => None
  | h :: r =>
      let cont := Z.testbit h 7 in
      let md := Z.testbit h 6 in
      let cfg := h / 8 mod 8 in
      let chan := h mod 8 in
      if negb (chan =? 0) || negb (cfg =? if cont then 0 else 1) then None
      else if negb cont && negb md then                                  (* whole message *)
        match split_crc r with
        | Some (d, crc) => Some (mk_chunk false false None d (Some crc))
        | None => None
        end
      else match leb_read r with
           | None => None
           | Some (n, r) =>
               if md then Some (mk_chunk cont true (Some n) r None)
               else match split_crc r with
                    | Some (d, crc) => Some (mk_chunk cont false (Some n) d (Some crc))
                    | None => None
                    end
           end
  end.

(** Continuation chunks after [acc] has been received; the last one (no more data) closes the
    message and carries the CRC. *)
Fixpoint rest_of_message (acc : list Z) (cs : list (list Z)) : option (list Z * Z) :=
  match cs with
  | [] => None
  | s :: r =>
      match parse_chunk s with
      | Some (mk_chunk true true (Some off) d None) =>
          if off =? zlen acc then rest_of_message (acc ++ d) r else None
      | Some (mk_chunk true false (Some off) d (Some crc)) =>
          match r with
          | [] => if off =? zlen acc then Some (acc ++ d, crc) else None
          | _ => None
          end
      | _ => None
      end
  end.

(** A complete message from its chunks: the bytes and the CRC transmitted. *)
Definition receive (cs : list (list Z)) : option (list Z * Z) :=
  match cs with
  | [] => None
  | s :: r =>
      match parse_chunk s with
      | Some (mk_chunk false false None d (Some crc)) =>
          match r with [] => Some (d, crc) | _ => None end
      | Some (mk_chunk false true (Some total) d None) =>
          match rest_of_message d r with
          | Some (m, crc) => if zlen m =? total then Some (m, crc) else None
          | None => None
          end
      | _ => None
      end
  end.

(** Ranges follow each other from [a] to [b] without gap. *)
Fixpoint covers (a b : Z) (l : list (Z * Z)) : Prop :=
  match l with
  | [] => a = b
  | (o, n) :: r => o = a /\ 0 < n /\ covers (a + n) b r
  end.
