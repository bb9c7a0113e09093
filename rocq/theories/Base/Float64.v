(** IEEE-754 binary64 as bit patterns (math.Float64bits): rounding of rationals,
    exact value, truncation. Round to nearest, ties to even, as Go prescribes. *)
From Verif Require Import Base.Go.

(** num / (den * 2^e) as a fraction of integers. *)
Definition f64_scale (num den e : Z) : Z * Z :=
  if 0 <=? e then (num, den * 2 ^ e) else (num * 2 ^ (- e), den).

(** The binary64 nearest to (if neg then - else +) num/den, num >= 0, den > 0, as its
    64-bit pattern. Overflow gives infinity. *)
Definition f64_round (neg : bool) (num den : Z) : Z :=
  let sign := if neg then 9223372036854775808 else 0 in
  if num =? 0 then sign else
  let e0 := Z.log2 num - Z.log2 den - 52 in
  let e1 := if let (n, d) := f64_scale num den e0 in n / d <? 4503599627370496 then e0 - 1 else e0 in
  let e := Z.max e1 (-1074) in
  let (n, d) := f64_scale num den e in
  let q := n / d in
  let r := n mod d in
  let q' := if (d <? 2 * r) || ((2 * r =? d) && Z.odd q) then q + 1 else q in
  let mag := (e + 1074) * 4503599627370496 + q' in
  sign + Z.min mag 9218868437227405312.

(** Fields of a bit pattern. *)
Definition f64_neg (b : Z) : bool := 9223372036854775808 <=? b.
Definition f64_expf (b : Z) : Z := (b / 4503599627370496) mod 2048.
Definition f64_frac (b : Z) : Z := b mod 4503599627370496.

(** Exact magnitude of a finite number as a fraction (numerator, positive denominator);
    None for infinities and NaNs. *)
Definition f64_mag (b : Z) : option (Z * Z) :=
  if f64_expf b =? 2047 then None else
  let m := if f64_expf b =? 0 then f64_frac b else f64_frac b + 4503599627370496 in
  let e := if f64_expf b =? 0 then -1074 else f64_expf b - 1075 in
  Some (if 0 <=? e then (m * 2 ^ e, 1) else (m, 2 ^ (- e))).

(** float64(i) for an integer i. *)
Definition f64_of_Z (z : Z) : Z := f64_round (z <? 0) (Z.abs z) 1.

(** x * c and x / c for a small positive integer constant c; infinities and NaNs unchanged. *)
Definition f64_mul_c (b c : Z) : Z :=
  match f64_mag b with
  | None => b
  | Some (n, d) => f64_round (f64_neg b) (n * c) d
  end.
Definition f64_div_c (b c : Z) : Z :=
  match f64_mag b with
  | None => b
  | Some (n, d) => f64_round (f64_neg b) n (d * c)
  end.

(** int64(x): truncation towards zero; for values out of range and NaN the amd64 result -2^63
    (the Go specification leaves it implementation-defined). *)
Definition f64_to_i64 (b : Z) : Z :=
  match f64_mag b with
  | None => -9223372036854775808
  | Some (n, d) =>
      let m := n / d in
      let z := if f64_neg b then - m else m in
      if (-9223372036854775808 <=? z) && (z <? 9223372036854775808) then z
      else -9223372036854775808
  end.

(** "the pattern b denotes exactly the integer z". *)
Definition f64_is_int (b z : Z) : Prop :=
  0 <= b < 18446744073709551616 /\
  exists n d, f64_mag b = Some (n, d) /\ d > 0 /\ n = Z.abs z * d /\
              (z < 0 -> f64_neg b = true) /\ (z > 0 -> f64_neg b = false).
