(** reflect.Value.Float of a float32 (amf0.go:316-317, amf3.go:587-588): the conversion float64(x) on bit patterns, as IEEE-754
    hardware does it. Signalling NaNs become quiet ones. *)
From Verif Require Import Base.Go Model.AmfTypes.
Definition f64_of_f32 (b : Z) : Z :=
  let s := b / 2147483648 in
  let e := (b / 8388608) mod 256 in
  let f := b mod 8388608 in
  s * 9223372036854775808 +
  if e =? 255 then 2047 * 4503599627370496 + (if f =? 0 then 0 else Z.lor (f * 536870912) 2251799813685248)
  else if e =? 0 then
    if f =? 0 then 0 else let k := Z.log2 f in (k + 874) * 4503599627370496 + (f - 2 ^ k) * 2 ^ (52 - k)
  else (e + 896) * 4503599627370496 + f * 536870912.
(** Encode of a float32 with the bits [b]. *)
Definition tfloat32 (b : Z) : tree := TFloat (f64_of_f32 b).
