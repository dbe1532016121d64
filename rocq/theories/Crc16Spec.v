(** Independent specification of a CRC: remainder of a polynomial division over GF(2).
    A polynomial is a non-negative integer whose bit [i] is the coefficient of [x^i]. *)
From Verif Require Import Base.

(** Carry-less (GF(2)[x]) multiplication. *)
Fixpoint clmul_pos (p : positive) (b : Z) : Z :=
  match p with
  | xH => b
  | xO p => 2 * clmul_pos p b
  | xI p => Z.lxor b (2 * clmul_pos p b)
  end.
Definition clmul (a b : Z) : Z := match a with Zpos p => clmul_pos p b | _ => 0 end.

(** x^16 + x^12 + x^5 + 1 *)
Definition CRC_POLY : Z := 2^16 + 2^12 + 2^5 + 1.

(** [r] is the remainder of [a] on division by [CRC_POLY]. *)
Definition is_rem (a r : Z) : Prop :=
  0 <= r < 2^16 /\ exists q, 0 <= q /\ a = Z.lxor (clmul q CRC_POLY) r.

(** A byte string as a polynomial, first byte most significant. *)
Definition poly_of_bytes (l : list Z) : Z := fold_left (fun a b => a * 256 + b) l 0.

(** CRC-16/XMODEM with initial register [init]. *)
Definition is_crc (init : Z) (data : list Z) (r : Z) : Prop :=
  is_rem (Z.lxor (Z.shiftl init (8 * zlen data)) (Z.shiftl (poly_of_bytes data) 16)) r.

(** A byte string as a string of bits in transmission order (most significant bit first). *)
Definition bits_of_byte (b : Z) : list bool :=
  map (fun i => Z.testbit b i) [7; 6; 5; 4; 3; 2; 1; 0].
Definition bits_of (l : list Z) : list bool := flat_map bits_of_byte l.
