(** The binary64 number nearest to a fraction, ties to even, and the whole part of a binary64 number as an int64.
    A pattern stands for what Spec/Float32.v says. *)
From Verif Require Import Base.Go Spec.Float32.

(** How far num/den is from n/d, times den * d. *)
Definition gap (num den n d : Z) : Z := Z.abs (num * d - n * den).
(** The pattern [b] stands for the number nearest to num/den (to -num/den with [neg]). No finite number is nearer,
    and of two that are equally near it is the one whose last bit is 0. From half a unit above the greatest finite
    number upwards it is an infinity. *)
Definition nearest (neg : bool) (num den b : Z) : Prop :=
  0 <= b < 2 ^ 64 /\ fneg 11 52 b = neg /\
  match magnitude 11 52 b with
  | Finite n d =>
      num < (2 ^ 54 - 1) * 2 ^ 970 * den /\
      forall c n' d', 0 <= c < 2 ^ 64 -> magnitude 11 52 c = Finite n' d' ->
        gap num den n d * d' <= gap num den n' d' * d /\
        (gap num den n d * d' = gap num den n' d' * d -> n * d' = n' * d \/ Z.even b = true)
  | Infinite => (2 ^ 54 - 1) * 2 ^ 970 * den <= num
  | Nan => False
  end.

(** [z] is the whole part of the number [b] stands for. *)
Definition whole_part (b z : Z) : Prop :=
  exists n d m, magnitude 11 52 b = Finite n d /\ m * d <= n < (m + 1) * d /\ z = if fneg 11 52 b then - m else m.
(** int64(x) on amd64: the whole part, or -2^63 if there is none within range. *)
Definition to_int64 (b z : Z) : Prop :=
  (whole_part b z /\ - 2 ^ 63 <= z < 2 ^ 63) \/ (z = - 2 ^ 63 /\ forall z', whole_part b z' -> ~ (- 2 ^ 63 <= z' < 2 ^ 63)).
(** The pattern stands for the integer [z]. *)
Definition stands_for (b z : Z) : Prop :=
  exists n d, magnitude 11 52 b = Finite n d /\ n = Z.abs z * d /\ (z < 0 -> fneg 11 52 b = true) /\ (0 < z -> fneg 11 52 b = false).
