(** What a binary32 pattern and a binary64 pattern stand for, and when they stand for the same thing. *)
From Verif Require Import Base.Go.
(** sign, exponent and fraction fields of patterns with [w] exponent bits and [p] fraction bits *)
Definition fneg (w p b : Z) : bool := 2 ^ (w + p) <=? b.
Definition fexp (w p b : Z) : Z := (b / 2 ^ p) mod 2 ^ w.
Definition ffrac (p b : Z) : Z := b mod 2 ^ p.
Inductive number := Finite (n d : Z) | Infinite | Nan.
(** The magnitude. Exponents are biased by 2^(w-1)-1; exponent field 0 stands for subnormal numbers, all ones for infinity and NaN. *)
Definition magnitude (w p b : Z) : number :=
  let bias := 2 ^ (w - 1) - 1 in
  if fexp w p b =? 2 ^ w - 1 then (if ffrac p b =? 0 then Infinite else Nan)
  else
    let '(m, e) := if fexp w p b =? 0 then (ffrac p b, 1 - bias - p) else (ffrac p b + 2 ^ p, fexp w p b - bias - p) in
    if 0 <=? e then Finite (m * 2 ^ e) 1 else Finite m (2 ^ (- e)).
Definition same_magnitude (x y : number) : Prop :=
  match x, y with
  | Finite n d, Finite n' d' => 0 < d /\ 0 < d' /\ n * d' = n' * d
  | Infinite, Infinite | Nan, Nan => True
  | _, _ => False
  end.
Definition same_number (b32 b64 : Z) : Prop :=
  fneg 8 23 b32 = fneg 11 52 b64 /\ same_magnitude (magnitude 8 23 b32) (magnitude 11 52 b64).
