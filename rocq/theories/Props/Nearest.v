(** Property C193: numbers that are not exact in AMF, and dates. *)
From Verif Require Import Base.Go Base.GoFacts Base.IO Base.Float64 Model.AmfTypes Model.Amf3 Model.Amf0
  Spec.Amf Spec.Float32 Spec.Nearest Proofs.IOFacts Proofs.Float64 Proofs.Amf0Enc Proofs.Amf0RT Proofs.Amf3Enc Proofs.Amf3RT Proofs.Amf0More Proofs.Amf3More Proofs.Nearest Proofs.AmfFacts.

Lemma of_Z_nearest z : nearest (z <? 0) (Z.abs z) 1 (f64_of_Z z).
Proof. apply round_nearest; lia. Qed.
(** ** C193 *)
(** The nearest number exists and there is only one. *)
Theorem C193_one_nearest : forall neg num den, 0 <= num -> 0 < den -> exists b, nearest neg num den b /\ forall c, nearest neg num den c -> c = b.
Proof.
  intros neg num den Hn Hd. exists (f64_round neg num den). pose proof (round_nearest neg num den Hn Hd) as H. split; [exact H|].
  intros c Hc. eapply nearest_unique; eassumption.
Qed.
Print Assumptions C193_one_nearest.
Theorem C193_amf0_integers : forall signed wide z w,
  (if signed : bool then - 2 ^ 63 <= z < 2 ^ 63 else 0 <= z < 2 ^ 64) -> never_fails w ->
  exists w' enc, encode0 (if signed then TInt wide z else TUint wide z) w = (w', Ok (len enc)) /\ w_out w' = w_out w ++ enc /\
  forall d rest e, d_r d = cont (enc ++ rest) e ->
    exists d' b, decode0 d = (d', Ok (VNum b)) /\ d_r d' = cont rest e /\ nearest (z <? 0) (Z.abs z) 1 b.
Proof.
  intros signed wide z w _ Hw. destruct (emits_run _ _ _ w (encode_number_emits (f64_of_Z z)) Hw) as [n E].
  eexists _, (0 :: be64 (f64_of_Z z)). split; [destruct signed; exact E|]. split; [reflexivity|]. intros d rest e Hr. rewrite cont_contr in *.
  eexists _, (f64_of_Z z). split; [|split; [|apply of_Z_nearest]].
  - unfold decode0. rewrite (fuel_for_contr _ _ _ Hr). apply dec0_number; [apply f64_of_Z_range|exact Hr].
  - reflexivity.
Qed.
Print Assumptions C193_amf0_integers.
(** int, int64, uint, uint64 and uintptr always, the shorter types from 2^29-1 in magnitude. *)
Theorem C193_amf3_integers : forall signed wide z w,
  (if signed : bool then - 2 ^ 63 <= z < 2 ^ 63 else 0 <= z < 2 ^ 64) -> (wide = true \/ 2 ^ 29 - 1 <= z \/ z < - (2 ^ 29 - 1)) -> never_fails w ->
  exists w' enc, encode3 (if signed then TInt wide z else TUint wide z) w = (w', Ok (len enc)) /\ w_out w' = w_out w ++ enc /\
  forall d rest e, d_r d = cont (enc ++ rest) e ->
    exists d' b, decode3 d = (d', Ok (VNum b)) /\ d_r d' = cont rest e /\ nearest (z <? 0) (Z.abs z) 1 b.
Proof.
  intros signed wide z w Hz Hwide Hw. destruct (emits_run _ _ _ w (encode_double_emits (f64_of_Z z)) Hw) as [n E].
  change (2 ^ 29 - 1) with 536870911 in Hwide.
  exists (mkW (w_out w ++ 5 :: be64 (f64_of_Z z)) n (w_script w)), (5 :: be64 (f64_of_Z z)). split; [|split; [reflexivity|]].
  - destruct wide; [destruct signed; exact E|]. destruct Hwide as [Hwide|Hwide]; [discriminate|]. destruct signed; cbn [encode3].
    + replace ((-536870911 <=? z) && (z <? 536870911)) with false by lia. exact E.
    + replace (z <? 536870911) with false by lia. exact E.
  - intros d rest e Hr. rewrite cont_contr in *. eexists _, (f64_of_Z z). split; [|split; [|apply of_Z_nearest]].
    + unfold decode3. rewrite (fuel_for_contr _ _ _ Hr). apply dec3_double; [apply f64_of_Z_range|exact Hr].
    + reflexivity.
Qed.
Print Assumptions C193_amf3_integers.
(** A date is written as the nearest number of milliseconds: seconds to the nearest float64, that times 1000 to the nearest. *)
Theorem C193_dates_written : forall sec w, - 2 ^ 63 <= sec < 2 ^ 63 -> never_fails w ->
  exists w' s n d b, encode3 (TTime sec) w = (w', Ok 10) /\ w_out w' = w_out w ++ 8 :: 1 :: be64 b /\
  nearest (sec <? 0) (Z.abs sec) 1 s /\ magnitude 11 52 s = Finite n d /\ nearest (sec <? 0) (n * 1000) d b.
Proof.
  intros sec w Hs Hw. pose proof (of_Z_nearest sec) as N1. pose proof N1 as (R1 & S1 & F1).
  assert (FM : exists n d, magnitude 11 52 (f64_of_Z sec) = Finite n d).
  { destruct (magnitude 11 52 (f64_of_Z sec)) as [n d| |]; [eauto| |contradiction]. exfalso.
    assert (2 ^ 20 <= 2 ^ 970) by (apply Z.pow_le_mono_r; lia). set (h := 2 ^ 970) in *. clearbody h. lia. }
  destruct FM as (n & d & E). pose proof (f64_mag_magnitude (f64_of_Z sec)) as M.
  assert (B : nearest (sec <? 0) (n * 1000) d (f64_mul_c (f64_of_Z sec) 1000)).
  { unfold f64_mul_c. destruct (f64_mag (f64_of_Z sec)) as [[n' d']|]; [|exfalso; exact (M n d E)]. rewrite M in E. inversion E; subst n' d'. clear E.
    change (f64_neg (f64_of_Z sec)) with (fneg 11 52 (f64_of_Z sec)). rewrite S1. destruct (mag_W _ _ _ R1 M) as (Hd & Hn & _).
    apply round_nearest; lia. }
  assert (EM : emits (encode3 (TTime sec)) (8 :: 1 :: be64 (f64_mul_c (f64_of_Z sec) 1000)) 10).
  { cbn [encode3]. unfold encode_date3. change (8 :: 1 :: be64 (f64_mul_c (f64_of_Z sec) 1000)) with ([8] ++ [1] ++ be64 (f64_mul_c (f64_of_Z sec) 1000)).
    eapply emits_bind; [apply emits_write|]. eapply emits_bind; [apply emits_write|].
    rewrite <- (app_nil_r (be64 _)). eapply emits_bind; [apply emits_write|]. apply emits_ret. }
  destruct (emits_run _ _ _ w EM Hw) as [k EK]. eexists _, (f64_of_Z sec), n, d, _. split; [exact EK|]. split; [reflexivity|]. split; [exact N1|]. split; [exact E|exact B].
Qed.
Print Assumptions C193_dates_written.
(** Any ten bytes of a date decode to the whole part of a thousandth of the number, -2^63 seconds if that is no int64. *)
Theorem C193_dates_read : forall bits d rest e, 0 <= bits < 2 ^ 64 -> d_r d = cont (8 :: 1 :: be64 bits ++ rest) e ->
  exists d' sec, decode3 d = (d', Ok (VTime sec)) /\ d_r d' = cont rest e /\
  match magnitude 11 52 bits with
  | Finite n m => exists q, nearest (fneg 11 52 bits) n (m * 1000) q /\ to_int64 q sec
  | _ => sec = - 2 ^ 63
  end.
Proof.
  intros bits d rest e Hb Hr. rewrite cont_contr in Hr. destruct (date_pushed d bits rest e Hb Hr) as (t & E & Et).
  eexists _, t. split; [exact E|]. split; [reflexivity|]. subst t.
  pose proof (f64_mag_magnitude bits) as M. unfold f64_div_c. destruct (f64_mag bits) as [[n m]|] eqn:FM.
  - rewrite M. destruct (mag_W _ _ _ Hb M) as (Hd & Hn & _). eexists. split; [apply round_nearest; lia|]. apply to_i64. apply f64_round_range; lia.
  - assert (X : f64_to_i64 bits = - 2 ^ 63) by (unfold f64_to_i64; rewrite FM; reflexivity).
    destruct (magnitude 11 52 bits) as [n m| |]; [exfalso; exact (M n m eq_refl)|exact X|exact X].
Qed.
Print Assumptions C193_dates_read.
(** A whole number of milliseconds, up to 2^53 either way, decodes to the whole seconds in it. *)
Theorem C193_milliseconds : forall bits ms d rest e, 0 <= bits < 2 ^ 64 -> stands_for bits ms -> Z.abs ms <= 2 ^ 53 ->
  d_r d = cont (8 :: 1 :: be64 bits ++ rest) e ->
  exists d', decode3 d = (d', Ok (VTime (Z.quot ms 1000))) /\ d_r d' = cont rest e.
Proof.
  intros bits ms d rest e Hb Hst Hms Hr. destruct (C193_dates_read bits d rest e Hb Hr) as (d' & sec & E & Hr' & H).
  exists d'. split; [|exact Hr']. rewrite E. do 3 f_equal. pose proof Hst as (n & m & EM & _). rewrite EM in H. destruct H as (q & Nq & T).
  pose proof (quotient_1000 bits ms n m q Hb Hms Hst EM Nq) as WP. pose proof Nq as (Rq & _).
  assert (- 2 ^ 63 <= Z.quot ms 1000 < 2 ^ 63). { pose proof (Z.quot_abs ms 1000 ltac:(lia)) as QA. rewrite Z.quot_div_nonneg in QA by lia.
    assert (Z.abs ms / Z.abs 1000 <= 2 ^ 53) by (apply Z.div_le_upper_bound; lia). lia. }
  destruct T as [[T _]|[_ T]]; [exact (whole_part_unique q _ _ Rq T WP)|exfalso; exact (T _ WP H)].
Qed.
Print Assumptions C193_milliseconds.
(** 2^53+1 lies half way and becomes 2^53, 2^53+3 becomes 2^53+4; -1.5 s is -1 s; 10^308 ms is out of range. *)
Example C193_example : f64_of_Z (2 ^ 53 + 1) = f64_of_Z (2 ^ 53) /\ magnitude 11 52 (f64_of_Z (2 ^ 53 + 3)) = Finite (2 ^ 53 + 4) 1 /\
  magnitude 11 52 (f64_of_Z (- 1500)) = Finite (1500 * 2 ^ 42) (2 ^ 42) /\ fneg 11 52 (f64_of_Z (- 1500)) = true /\ stands_for (f64_of_Z (-1500)) (-1500) /\
  snd (decode3 (fresh (bytes_reader (8 :: 1 :: be64 (f64_of_Z (-1500)))))) = Ok (VTime (-1)) /\
  snd (decode3 (fresh (bytes_reader (8 :: 1 :: be64 (f64_of_Z (10 ^ 308)))))) = Ok (VTime (- 2 ^ 63)).
Proof.
  repeat (split; [vm_compute; reflexivity|]). split; [|split; vm_compute; reflexivity].
  exists (1500 * 2 ^ 42), (2 ^ 42). split; [vm_compute; reflexivity|]. split; [reflexivity|]. split; [intros _; vm_compute; reflexivity|lia].
Qed.
