(** Property theorems C01-C06: varint, zig-zag, base64, CRC-16. *)
From Verif Require Import Base Varint VarintSpec VarintProofs Base64 Base64Spec Base64Proofs
  Crc16 Crc16Spec Crc16Proofs.

(** C01: every uint32 encodes to 1..5 bytes that a base-128 reader maps back to the same value
    whatever follows, and no shorter byte string denotes the value. *)
Theorem C01_varint_u32 : forall v, is_u32 v ->
  exists e, varint_u32 v = Some e /\ bytes e /\ 1 <= zlen e <= 5 /\
    (forall rest, leb_read (e ++ rest) = Some (v, rest)) /\
    (forall o, bytes o -> leb_read o = Some (v, []) -> zlen e <= zlen o).
Proof. exact varint_u32_correct. Qed.
Print Assumptions C01_varint_u32.
Example C01_case : is_u32 4294967295 /\ varint_u32 4294967295 = Some [255; 255; 255; 255; 15] /\
  varint_u32 300 = Some [172; 2].
Proof. vm_compute. repeat split; congruence. Qed.

(** C02: every int32 survives zig-zag + varint, small magnitudes take one byte. *)
Theorem C02_varint_si32 : forall v, is_s32 v ->
  exists e, varint_si32 v = Some e /\ bytes e /\ 1 <= zlen e <= 5 /\
    (forall rest, exists u, leb_read (e ++ rest) = Some (u, rest) /\ unzigzag u = v) /\
    (-64 <= v < 64 -> zlen e = 1).
Proof. exact varint_si32_correct. Qed.
Print Assumptions C02_varint_si32.
Example C02_case : is_s32 (-2147483648) /\
  varint_si32 (-2147483648) = Some [255; 255; 255; 255; 15] /\ varint_si32 (-2) = Some [3].
Proof. vm_compute. repeat split; congruence. Qed.

(** C03: encoding writes exactly [4*((n+2)/3)] bytes at the start of the output buffer, leaves
    the rest of it alone, and a strict RFC 4648 decoder recovers the input. *)
Theorem C03_base64_encode : forall data out, bytes data ->
  4 * ((zlen data + 2) / 3) <= zlen out -> 4 * ((zlen data + 2) / 3) <= 2147483647 ->
  exists enc, base64_encode data out = Some (enc ++ drop (zlen enc) out) /\
    zlen enc = 4 * ((zlen data + 2) / 3) /\ bytes enc /\ b64_decode enc = Some data.
Proof. exact base64_encode_correct. Qed.
Print Assumptions C03_base64_encode.
Example C03_case :
  base64_encode [1; 2; 3; 250; 255] [9; 9; 9; 9; 9; 9; 9; 9; 9; 9]
    = Some [65; 81; 73; 68; 43; 118; 56; 61; 9; 9] /\
  b64_decode [65; 81; 73; 68; 43; 118; 56; 61] = Some [1; 2; 3; 250; 255].
Proof. vm_compute. split; reflexivity. Qed.

(** C04: encoding in place gives the bytes encoding out of place gives, and leaves the tail of
    the buffer alone. *)
Theorem C04_base64_inplace : forall buf out n, bytes buf -> 0 <= n ->
  4 * ((n + 2) / 3) <= zlen buf -> 4 * ((n + 2) / 3) <= zlen out -> 4 * ((n + 2) / 3) <= 2147483647 ->
  exists enc, base64_encode (take n buf) out = Some (enc ++ drop (zlen enc) out) /\
    zlen enc = 4 * ((n + 2) / 3) /\
    base64_encode_inplace buf n = Some (enc ++ drop (zlen enc) buf).
Proof. exact base64_inplace_correct. Qed.
Print Assumptions C04_base64_inplace.
Example C04_case :
  base64_encode_inplace [1; 2; 3; 250; 255; 0; 0; 0; 77] 5
    = Some [65; 81; 73; 68; 43; 118; 56; 61; 77] /\
  base64_encode_inplace [] 0 = Some [].
Proof. vm_compute. split; reflexivity. Qed.

(** C05: both build variants return the same value, which is the one and only remainder of the
    GF(2) division the CRC-16/XMODEM definition prescribes. *)
Theorem C05_crc16_is_remainder : forall init data, is_u16 init -> bytes data ->
  exists r, crc16_compute init data = Some r /\ crc16_compute_bitwise init data = r /\
    is_crc init data r /\ (forall s, is_crc init data s -> s = r).
Proof. exact crc16_correct. Qed.
Print Assumptions C05_crc16_is_remainder.
(** C05: feeding a message in any two pieces (hence any number) equals feeding it at once. *)
Theorem C05_crc16_incremental : forall init a b,
  crc16_compute init (a ++ b) = do r <- crc16_compute init a; crc16_compute r b.
Proof. exact crc16_app. Qed.
Print Assumptions C05_crc16_incremental.
Example C05_case : (* "123456789" -> 0x31C3, the catalogue check value of CRC-16/XMODEM *)
  crc16_compute 0 [49; 50; 51; 52; 53; 54; 55; 56; 57] = Some 12739 /\
  crc16_compute_bitwise 0 [49; 50; 51; 52; 53; 54; 55; 56; 57] = 12739.
Proof. vm_compute. split; reflexivity. Qed.

(** C06: two messages that differ only inside one window of at most 16 consecutive bits never
    have the same CRC. *)
Theorem C06_crc16_burst : forall init d1 d2 pre x y post r1 r2,
  is_u16 init -> bytes d1 -> bytes d2 ->
  bits_of d1 = pre ++ x ++ post -> bits_of d2 = pre ++ y ++ post ->
  zlen x = zlen y -> zlen x <= 16 -> x <> y ->
  crc16_compute init d1 = Some r1 -> crc16_compute init d2 = Some r2 -> r1 <> r2.
Proof. exact crc16_burst. Qed.
Print Assumptions C06_crc16_burst.
Example C06_case : (* one flipped bit in the middle of a message meets the hypotheses *)
  bits_of [1; 2; 3] = firstn 9 (bits_of [1; 2; 3]) ++ [false] ++ skipn 10 (bits_of [1; 2; 3]) /\
  bits_of [1; 66; 3] = firstn 9 (bits_of [1; 2; 3]) ++ [true] ++ skipn 10 (bits_of [1; 2; 3]) /\
  crc16_compute 0 [1; 2; 3] = Some 24881 /\ crc16_compute 0 [1; 66; 3] = Some 27901.
Proof. vm_compute. repeat split; reflexivity. Qed.
