(** CRC-32/MPEG-2 (ISO/IEC 13818-1 annex A), bit by bit: polynomial x^32+x^26+x^23+x^22+x^16+x^12+x^11+x^10+x^8+x^7
    +x^5+x^4+x^2+x+1, register initially all ones, most significant bit first, no final inversion. *)
From Verif Require Import Base.Go.

Definition poly : Z :=
  2^26 + 2^23 + 2^22 + 2^16 + 2^12 + 2^11 + 2^10 + 2^8 + 2^7 + 2^5 + 2^4 + 2^2 + 2^1 + 2^0.
(** One input bit: shift the register left; if the bit shifted out differs from the input bit, subtract the
    polynomial. *)
Definition bit_step (r : Z) (b : bool) : Z :=
  let out := Z.testbit r 31 in
  let r' := (2 * r) mod 2 ^ 32 in
  if xorb out b then Z.lxor r' poly else r'.
Definition crc_of_bits (bits : list bool) : Z := fold_left bit_step bits (2 ^ 32 - 1).

(** The bits of a byte string, most significant first. *)
Definition bits_of_byte (b : Z) : list bool :=
  [Z.testbit b 7; Z.testbit b 6; Z.testbit b 5; Z.testbit b 4; Z.testbit b 3; Z.testbit b 2; Z.testbit b 1; Z.testbit b 0].
Definition bits_of (s : bytes) : list bool := flat_map bits_of_byte s.
Definition crc_mpeg2 (s : bytes) : Z := crc_of_bits (bits_of s).
