(** Property C160: float32 values through AMF0 and AMF3. *)
From Verif Require Import Base.Go Base.GoFacts Base.IO Model.AmfTypes Model.Amf3 Model.Amf0 Model.Float32
  Spec.Amf Spec.Float32 Proofs.Float32 Props.Amf0 Props.Amf3.

(** ** C160 *)
Theorem C160_amf0 : forall b w, 0 <= b < 2 ^ 32 -> never_fails w ->
  exists w' enc, encode0 (tfloat32 b) w = (w', Ok (len enc)) /\ w_out w' = w_out w ++ enc /\
  forall d rest e, d_r d = cont (enc ++ rest) e ->
    exists d' x, decode0 d = (d', Ok (VNum x)) /\ d_r d' = cont rest e /\ same_number b x.
Proof.
  intros b w Hb Hw. destruct (widen b Hb) as [S R]. destruct (C52_amf0_round_trip (tfloat32 b) w R Hw) as (w' & enc & H1 & H2 & H3).
  exists w', enc. split; [exact H1|]. split; [exact H2|]. intros d rest e Hr. destruct (H3 d rest e Hr) as (d' & v & E & Hr' & U & _); [right; right; reflexivity|].
  inversion U; subst. eexists d', _. split; [exact E|]. split; [exact Hr'|exact S].
Qed.
Print Assumptions C160_amf0.
Theorem C160_amf3 : forall b w, 0 <= b < 2 ^ 32 -> never_fails w ->
  exists w' enc, encode3 (tfloat32 b) w = (w', Ok (len enc)) /\ w_out w' = w_out w ++ enc /\
  forall d rest e, d_r d = cont (enc ++ rest) e ->
    exists d' x, decode3 d = (d', Ok (VNum x)) /\ d_r d' = cont rest e /\ same_number b x.
Proof.
  intros b w Hb Hw. destruct (widen b Hb) as [S R]. destruct (C65_amf3_round_trip (tfloat32 b) w R Hw) as (w' & enc & H1 & H2 & H3).
  exists w', enc. split; [exact H1|]. split; [exact H2|]. intros d rest e Hr. destruct (H3 d rest e Hr) as (d' & v & E & Hr' & U & _).
  inversion U; subst. eexists d', _. split; [exact E|]. split; [exact Hr'|exact S].
Qed.
Print Assumptions C160_amf3.
(** 0.1f is 13421773 / 2^27; the least subnormal float32 is 1 / 2^149, a normal float64; minus infinity stays. *)
Example C160_example : magnitude 8 23 1036831949 = Finite 13421773 (2 ^ 27) /\
  magnitude 11 52 (f64_of_f32 1036831949) = Finite (13421773 * 2 ^ 29) (2 ^ 56) /\
  f64_of_f32 1 = (1023 - 149) * 2 ^ 52 /\ f64_of_f32 4286578688 = 2 ^ 63 + 2047 * 2 ^ 52 /\ magnitude 8 23 4286578688 = Infinite.
Proof. repeat split. Qed.
