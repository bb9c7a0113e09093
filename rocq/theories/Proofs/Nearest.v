(** Correct rounding: [f64_round] gives the nearest binary64. *)
From Verif Require Import Base.Go Base.GoFacts Base.Float64 Spec.Float32 Spec.Nearest Proofs.Float64.
Local Ltac Zify.zify_post_hook ::= Z.div_mod_to_equations.

(** Magnitudes as multiples of 2^-1074. *)
Definition W (M : Z) : Z :=
  if M / 2 ^ 52 =? 0 then M mod 2 ^ 52 else (M mod 2 ^ 52 + 2 ^ 52) * 2 ^ (M / 2 ^ 52 - 1).
Notation INF := 9218868437227405312.

Lemma W_at x q : 0 <= x -> 0 <= q <= 2 ^ 53 -> (2 ^ 52 <= q \/ x = 0) -> W (x * 2 ^ 52 + q) = q * 2 ^ x.
Proof.
  intros Hx Hq Hn. unfold W. change (2 ^ 53) with (2 * 2 ^ 52) in Hq.
  assert (P : 0 < 2 ^ 52) by lia. set (P52 := 2 ^ 52) in *. clearbody P52.
  destruct (Z.lt_ge_cases q P52) as [L|L].
  - destruct Hn as [Hn| ->]; [lia|]. rewrite Z.mul_0_l, Z.add_0_l, Z.div_small, Z.mod_small by lia. cbn [Z.eqb]. rewrite Z.pow_0_r. lia.
  - destruct (Z.eq_dec q (2 * P52)) as [-> |N].
    + replace (x * P52 + 2 * P52) with ((x + 2) * P52) by ring. rewrite Z.div_mul, Z.mod_mul by lia.
      destruct (x + 2 =? 0) eqn:E; [lia|]. replace (x + 2 - 1) with (Z.succ x) by lia. rewrite Z.pow_succ_r by lia. ring.
    + replace (x * P52 + q) with ((q - P52) + (x + 1) * P52) by ring. rewrite Z.div_add, Z.mod_add by lia.
      rewrite (Z.div_small (q - P52)), (Z.mod_small (q - P52)) by lia.
      destruct (0 + (x + 1) =? 0) eqn:E; [lia|]. replace (0 + (x + 1) - 1) with x by lia. ring.
Qed.
Lemma W_split M : 0 <= M -> exists x q, M = x * 2 ^ 52 + q /\ 0 <= x /\ 0 <= q < 2 ^ 53 /\ (2 ^ 52 <= q \/ x = 0).
Proof.
  intros H. assert (P : 0 < 2 ^ 52) by lia. change (2 ^ 53) with (2 * 2 ^ 52). set (P52 := 2 ^ 52) in *. clearbody P52.
  pose proof (Z.div_mod M P52 ltac:(lia)) as D. pose proof (Z.mod_pos_bound M P52 P). pose proof (Z.div_pos M P52 H P).
  destruct (Z.eq_dec (M / P52) 0) as [E|E].
  - exists 0, (M mod P52). rewrite E in D. lia.
  - exists (M / P52 - 1), (M mod P52 + P52). split; [rewrite D at 1; ring|]. lia.
Qed.
Lemma W_step M : 0 <= M -> W M < W (M + 1).
Proof.
  intros H. destruct (W_split M H) as (x & q & -> & Hx & Hq & Hn). rewrite <- Z.add_assoc.
  rewrite !W_at by lia. pose proof (pow2_pos x Hx). nia.
Qed.
Lemma W_mono M M' : 0 <= M -> M < M' -> W M < W M'.
Proof.
  intros H L. replace M' with (M + Z.of_nat (Z.to_nat (M' - M))) by lia. assert (K : (0 < Z.to_nat (M' - M))%nat) by lia.
  induction (Z.to_nat (M' - M)) as [|k IH]; [lia|]. replace (M + Z.of_nat (S k)) with (M + Z.of_nat k + 1) by lia.
  pose proof (W_step (M + Z.of_nat k) ltac:(lia)). destruct k; [rewrite Z.add_0_r in *; lia|]. specialize (IH ltac:(lia)). lia.
Qed.
Lemma W_le M M' : 0 <= M -> M <= M' -> W M <= W M'.
Proof. intros H L. destruct (Z.eq_dec M M') as [-> |N]; [lia|]. pose proof (W_mono M M' H). lia. Qed.
Lemma W_nonneg M : 0 <= M -> 0 <= W M.
Proof. intros H. pose proof (W_le 0 M ltac:(lia) H). change (W 0) with 0 in *. lia. Qed.

(** What a pattern stands for. *)
Lemma fneg_iff b : fneg 11 52 b = (2 ^ 63 <=? b).
Proof. reflexivity. Qed.
Lemma mag_W b n d : 0 <= b < 2 ^ 64 -> magnitude 11 52 b = Finite n d ->
  0 < d /\ 0 <= n /\ n * 2 ^ 1074 = W (b mod 2 ^ 63) * d /\ 0 <= b mod 2 ^ 63 < INF.
Proof.
  intros Hb. unfold magnitude, fexp, ffrac. change (2 ^ (11 - 1) - 1) with 1023. change (2 ^ 11) with 2048. change (2048 - 1) with 2047.
  assert (E : (b / 2 ^ 52) mod 2048 = (b mod 2 ^ 63) / 2 ^ 52).
  { change (2 ^ 63) with (2 ^ 52 * 2048). change (2 ^ 64) with (2 ^ 52 * 4096) in Hb. set (P := 2 ^ 52) in *. assert (0 < P) by (subst P; lia). clearbody P.
    rewrite Z.rem_mul_r, (Z.mul_comm P), Z.div_add by lia. rewrite (Z.div_small (b mod P)); [lia|apply Z.mod_pos_bound; lia]. }
  assert (F : b mod 2 ^ 52 = (b mod 2 ^ 63) mod 2 ^ 52).
  { change (2 ^ 63) with (2 ^ 52 * 2048). set (P := 2 ^ 52) in *. assert (0 < P) by (subst P; lia). clearbody P.
    rewrite Z.rem_mul_r, (Z.mul_comm P), Z.mod_add by lia. rewrite Z.mod_mod by lia. reflexivity. }
  rewrite E, F. pose proof (Z.mod_pos_bound b (2 ^ 63) ltac:(lia)) as Hm. set (M := b mod 2 ^ 63) in *. clearbody M. clear E F.
  unfold W. assert (X : 0 <= M / 2 ^ 52 <= 2047) by (change (2 ^ 63) with (2 ^ 52 * 2048) in Hm; set (P := 2 ^ 52) in *; assert (0 < P) by (subst P; lia); clearbody P; split; [apply Z.div_pos; lia|apply Z.lt_succ_r, Z.div_lt_upper_bound; lia]).
  assert (Y : 0 <= M mod 2 ^ 52) by (apply Z.mod_pos_bound; lia).
  assert (Z0 : M / 2 ^ 52 <> 2047 -> M < INF).
  { intros N. replace INF with (2 ^ 52 * 2047) by reflexivity. set (P := 2 ^ 52) in *. assert (0 < P) by (subst P; lia). clearbody P.
    pose proof (Z.div_mod M P ltac:(lia)). pose proof (Z.mod_pos_bound M P ltac:(lia)). nia. }
  set (x := M / 2 ^ 52) in *. set (f := M mod 2 ^ 52) in *. clearbody x f.
  destruct (x =? 2047) eqn:E1; [destruct (f =? 0); discriminate|].
  destruct (x =? 0) eqn:E2.
  - change (0 <=? 1 - 1023 - 52) with false. cbv iota. change (- (1 - 1023 - 52)) with 1074. intros G. inversion G; subst.
    repeat split; lia.
  - destruct (0 <=? x - 1023 - 52) eqn:E3; intros G; inversion G; subst.
    + pose proof (pow2_pos (x - 1023 - 52) ltac:(lia)). repeat split; try lia.
      rewrite <- Z.mul_assoc, <- Z.pow_add_r by lia. rewrite Z.mul_1_r. do 2 f_equal. lia.
    + pose proof (pow2_pos (- (x - 1023 - 52)) ltac:(lia)). repeat split; try lia.
      rewrite <- Z.mul_assoc, <- Z.pow_add_r by lia. do 2 f_equal. lia.
Qed.
Lemma mag_finite b : 0 <= b < 2 ^ 64 -> b mod 2 ^ 63 < INF -> exists n d, magnitude 11 52 b = Finite n d.
Proof.
  intros Hb L. unfold magnitude. change (2 ^ 11 - 1) with 2047.
  assert (E : fexp 11 52 b <> 2047).
  { unfold fexp. change (2 ^ 11) with 2048. lia. }
  destruct (fexp 11 52 b =? 2047) eqn:E1; [lia|]. cbv zeta. destruct (fexp 11 52 b =? 0); destruct (0 <=? _); eauto.
Qed.
Lemma mag_inf neg : magnitude 11 52 ((if neg : bool then 2 ^ 63 else 0) + INF) = Infinite.
Proof. destruct neg; reflexivity. Qed.
Lemma f64_mag_magnitude b : match f64_mag b with Some (n, d) => magnitude 11 52 b = Finite n d | None => forall n d, magnitude 11 52 b <> Finite n d end.
Proof.
  unfold f64_mag, magnitude, f64_expf, f64_frac, fexp, ffrac. change (2 ^ (11 - 1) - 1) with 1023. change (2 ^ 11) with 2048.
  change (2 ^ 52) with 4503599627370496. change (2048 - 1) with 2047.
  destruct ((b / 4503599627370496) mod 2048 =? 2047); [intros n d; destruct (_ =? 0); discriminate|].
  destruct ((b / 4503599627370496) mod 2048 =? 0); [reflexivity|].
  replace (b / 4503599627370496 mod 2048 - 1023 - 52) with (b / 4503599627370496 mod 2048 - 1075) by ring.
  destruct (0 <=? _); reflexivity.
Qed.

(** Scaling. *)
Lemma scale_eq num den e A n d : 0 <= num -> 0 < den -> 0 <= A -> 0 <= e + A -> f64_scale num den e = (n, d) ->
  0 <= n /\ 0 < d /\ n * 2 ^ (e + A) * den = num * 2 ^ A * d.
Proof.
  intros Hn Hd HA He. unfold f64_scale. destruct (0 <=? e) eqn:E; intros G; inversion G; subst.
  - pose proof (pow2_pos e ltac:(lia)). repeat split; [lia|nia|]. rewrite Z.pow_add_r by lia. ring.
  - pose proof (pow2_pos (- e) ltac:(lia)). repeat split; [nia|lia|].
    replace (2 ^ A) with (2 ^ (- e) * 2 ^ (e + A)) by (rewrite <- Z.pow_add_r by lia; f_equal; lia). ring.
Qed.
Lemma quot_lt n d s den X t : 0 < d -> 0 < s -> 0 < den -> n * s * den = X * d -> (n / d < t <-> X < t * s * den).
Proof.
  intros Hd Hs Hden E. split; intros H.
  - assert (n < t * d) by (pose proof (Z.mul_succ_div_gt n d Hd); nia).
    assert (n * (s * den) < t * d * (s * den)) by (apply Z.mul_lt_mono_pos_r; nia). nia.
  - apply Z.div_lt_upper_bound; [lia|]. assert (n * (s * den) < d * t * (s * den)); [nia|].
    apply (Z.mul_lt_mono_pos_r (s * den)); [nia|assumption].
Qed.

(** The exponent and the integer quotient the rounding works with. *)
Lemma round_parts neg num den : 0 < num -> 0 < den -> exists e n d,
  -1074 <= e /\ f64_scale num den e = (n, d) /\ 0 <= n / d < 2 ^ 53 /\ (2 ^ 52 <= n / d \/ e = -1074) /\
  f64_round neg num den = (if neg then 2 ^ 63 else 0) +
    Z.min ((e + 1074) * 2 ^ 52 + (if (d <? 2 * (n mod d)) || ((2 * (n mod d) =? d) && Z.odd (n / d)) then n / d + 1 else n / d)) INF.
Proof.
  intros Hn Hd. unfold f64_round. destruct (num =? 0) eqn:E0; [lia|]. clear E0.
  set (k := Z.log2 num - Z.log2 den). set (A := Z.abs k + 2000).
  pose proof (log2_bounds num Hn) as Bn. pose proof (log2_bounds den Hd) as Bd.
  pose proof (Z.log2_nonneg num) as Ln. pose proof (Z.log2_nonneg den) as Ld.
  assert (PA : 0 < 2 ^ A) by (apply pow2_pos; lia).
  (* 2^(k-1) < num/den < 2^(k+1) *)
  assert (LO : 2 ^ (k - 1 + A) * den <= num * 2 ^ A).
  { assert (2 ^ (k - 1 + A) * (2 * 2 ^ Z.log2 den) = 2 ^ Z.log2 num * 2 ^ A).
    { change 2 with (2 ^ 1) at 2. rewrite <- !Z.pow_add_r by lia. f_equal. lia. }
    pose proof (pow2_pos (k - 1 + A) ltac:(lia)). nia. }
  assert (HI : num * 2 ^ A < 2 ^ (k + 1 + A) * den).
  { assert (2 ^ (k + 1 + A) * 2 ^ Z.log2 den = 2 * 2 ^ Z.log2 num * 2 ^ A).
    { change 2 with (2 ^ 1) at 3. rewrite <- !Z.pow_add_r by lia. f_equal. lia. }
    pose proof (pow2_pos (k + 1 + A) ltac:(lia)). nia. }
  destruct (f64_scale num den (k - 52)) as [n0 d0] eqn:E0.
  destruct (scale_eq num den (k - 52) A n0 d0 ltac:(lia) Hd ltac:(lia) ltac:(lia) E0) as (Hn0 & Hd0 & S0).
  pose proof (quot_lt n0 d0 (2 ^ (k - 52 + A)) den (num * 2 ^ A) (2 ^ 52) Hd0 ltac:(apply pow2_pos; lia) Hd S0) as Q0.
  rewrite <- Z.pow_add_r in Q0 by lia. replace (52 + (k - 52 + A)) with (k + A) in Q0 by lia.
  set (e1 := if n0 / d0 <? 4503599627370496 then k - 52 - 1 else k - 52).
  assert (B1 : 2 ^ (52 + (e1 + A)) * den <= num * 2 ^ A < 2 ^ (53 + (e1 + A)) * den).
  { unfold e1. destruct (n0 / d0 <? 4503599627370496) eqn:E.
    - replace (52 + (k - 52 - 1 + A)) with (k - 1 + A) by lia. replace (53 + (k - 52 - 1 + A)) with (k + A) by lia.
      split; [lia|]. apply Q0. change (2 ^ 52) with 4503599627370496. lia.
    - replace (52 + (k - 52 + A)) with (k + A) by lia. replace (53 + (k - 52 + A)) with (k + 1 + A) by lia.
      split; [|lia]. apply Z.nlt_ge. intros L. apply Q0 in L. change (2 ^ 52) with 4503599627370496 in L. lia. }
  assert (He1 : k - 53 <= e1 <= k - 52) by (unfold e1; destruct (_ <? _); lia).
  set (e := Z.max e1 (-1074)). destruct (f64_scale num den e) as [n d] eqn:E.
  destruct (scale_eq num den e A n d ltac:(lia) Hd ltac:(lia) ltac:(lia) E) as (Hn' & Hd' & S').
  pose proof (pow2_pos (e + A) ltac:(lia)) as PE.
  exists e, n, d. split; [lia|]. split; [exact E|]. split; [|split; [|reflexivity]].
  - split; [apply Z.div_pos; lia|]. apply (quot_lt n d (2 ^ (e + A)) den (num * 2 ^ A) (2 ^ 53) Hd' PE Hd S').
    rewrite <- Z.pow_add_r by lia. assert (LE : 2 ^ (53 + (e1 + A)) <= 2 ^ (53 + (e + A))) by (apply Z.pow_le_mono_r; lia).
    eapply Z.lt_le_trans; [apply B1|]. apply Z.mul_le_mono_nonneg_r; [lia|exact LE].
  - destruct (Z.eq_dec e (-1074)) as [|N]; [right; assumption|left]. assert (EQ : e = e1) by lia.
    apply Z.nlt_ge. intros L. apply (quot_lt n d (2 ^ (e + A)) den (num * 2 ^ A) (2 ^ 52) Hd' PE Hd S') in L.
    rewrite <- Z.pow_add_r in L by lia. rewrite EQ in L. lia.
Qed.

(** num/den lies between two neighbours; the result is the nearer one. *)
Lemma round_between neg num den : 0 < num -> 0 < den -> exists M up,
  0 <= M /\ W M * den <= num * 2 ^ 1074 < W (M + 1) * den /\
  (up = true -> W (M + 1) * den - num * 2 ^ 1074 <= num * 2 ^ 1074 - W M * den) /\
  (up = false -> num * 2 ^ 1074 - W M * den <= W (M + 1) * den - num * 2 ^ 1074) /\
  (W (M + 1) * den - num * 2 ^ 1074 = num * 2 ^ 1074 - W M * den -> Z.even (if up then M + 1 else M) = true) /\
  f64_round neg num den = (if neg then 2 ^ 63 else 0) + Z.min (if up : bool then M + 1 else M) INF.
Proof.
  intros Hn Hd. destruct (round_parts neg num den Hn Hd) as (e & n & d & He & Es & Hq & Hnorm & R).
  destruct (scale_eq num den e 1074 n d ltac:(lia) Hd ltac:(lia) ltac:(lia) Es) as (Hn' & Hd' & S).
  set (up := (d <? 2 * (n mod d)) || ((2 * (n mod d) =? d) && Z.odd (n / d))) in *.
  exists ((e + 1074) * 2 ^ 52 + n / d), up.
  assert (W1 : W ((e + 1074) * 2 ^ 52 + n / d) = n / d * 2 ^ (e + 1074)) by (apply W_at; lia).
  assert (W2 : W ((e + 1074) * 2 ^ 52 + n / d + 1) = (n / d + 1) * 2 ^ (e + 1074)) by (rewrite <- Z.add_assoc; apply W_at; lia).
  rewrite W1, W2. pose proof (pow2_pos (e + 1074) ltac:(lia)) as PE.
  pose proof (Z.div_mod n d ltac:(lia)) as D. pose proof (Z.mod_pos_bound n d Hd') as MB.
  set (q := n / d) in *. set (r := n mod d) in *. set (s := 2 ^ (e + 1074)) in *. set (X := num * 2 ^ 1074) in *.
  clearbody s X q r. clear W1 W2 Es.
  (* X * d = (q * d + r) * s * den *)
  assert (XD : (X - q * s * den) * d = r * (s * den)) by nia.
  assert (YD : ((q + 1) * s * den - X) * d = (d - r) * (s * den)) by nia.
  assert (SD : 0 < s * den) by nia.
  assert (CMP1 : 2 * r <= d -> X - q * s * den <= (q + 1) * s * den - X).
  { intros L. apply (Z.mul_le_mono_pos_r _ _ d); [lia|]. rewrite XD, YD. apply Z.mul_le_mono_nonneg_r; lia. }
  assert (CMP2 : d <= 2 * r -> (q + 1) * s * den - X <= X - q * s * den).
  { intros L. apply (Z.mul_le_mono_pos_r _ _ d); [lia|]. rewrite XD, YD. apply Z.mul_le_mono_nonneg_r; lia. }
  assert (CMP3 : (q + 1) * s * den - X = X - q * s * den -> 2 * r = d).
  { intros L. assert (G : (d - r) * (s * den) = r * (s * den)) by (rewrite <- XD, <- YD, L; reflexivity).
    apply Z.mul_cancel_r in G; lia. }
  split; [lia|]. split; [|split; [|split; [|split; [|]]]].
  - split; [apply Z.le_0_sub, (Z.mul_le_mono_pos_r _ _ d); [lia|]; rewrite XD; nia|].
    apply Z.lt_0_sub, (Z.mul_lt_mono_pos_r d); [lia|]. rewrite YD. nia.
  - intros U. apply CMP2. unfold up in U. apply orb_true_iff in U. destruct U as [U|U]; [lia|]. apply andb_true_iff in U. lia.
  - intros U. apply CMP1. unfold up in U. apply orb_false_iff in U. lia.
  - intros L. apply CMP3 in L. unfold up. destruct (d <? 2 * r) eqn:E1; [lia|]. destruct (2 * r =? d) eqn:E2; [|lia]. cbn [orb andb].
    assert (EV : forall v, Z.even ((e + 1074) * 2 ^ 52 + v) = Z.even v).
    { intros v. rewrite Z.even_add, Z.even_mul. change (Z.even (2 ^ 52)) with true. rewrite orb_true_r. destruct (Z.even v); reflexivity. }
    destruct (Z.odd q) eqn:O.
    + rewrite <- Z.add_assoc, EV, Z.even_add, <- Z.negb_odd, O. reflexivity.
    + rewrite EV, <- Z.negb_odd, O. reflexivity.
  - rewrite R. destruct up; f_equal; f_equal; lia.
Qed.

(** Distances in multiples of 2^-1074. *)
Definition away (num den M : Z) : Z := Z.abs (num * 2 ^ 1074 - W M * den).
Lemma gap_away num den b n d : 0 <= b < 2 ^ 64 -> magnitude 11 52 b = Finite n d ->
  gap num den n d * 2 ^ 1074 = away num den (b mod 2 ^ 63) * d.
Proof.
  intros Hb E. destruct (mag_W b n d Hb E) as (Hd & Hn & HW & _). unfold gap, away.
  assert (P : 0 < 2 ^ 1074) by (apply pow2_pos; lia). set (p := 2 ^ 1074) in *. clearbody p.
  rewrite <- (Z.abs_eq p) at 1 by lia. rewrite <- (Z.abs_eq d) at 2 by lia. rewrite <- !Z.abs_mul. f_equal.
  set (w := W _) in *. clearbody w. apply Z.sub_move_0_r. replace (_ - _) with (- den * (n * p - w * d)) by ring. rewrite HW. ring.
Qed.
Lemma gap_cmp num den b n d c n' d' : 0 <= b < 2 ^ 64 -> magnitude 11 52 b = Finite n d -> 0 <= c < 2 ^ 64 -> magnitude 11 52 c = Finite n' d' ->
  (gap num den n d * d' <= gap num den n' d' * d <-> away num den (b mod 2 ^ 63) <= away num den (c mod 2 ^ 63)) /\
  (gap num den n d * d' = gap num den n' d' * d <-> away num den (b mod 2 ^ 63) = away num den (c mod 2 ^ 63)).
Proof.
  intros Hb E Hc E'. pose proof (gap_away num den b n d Hb E) as G. pose proof (gap_away num den c n' d' Hc E') as G'.
  destruct (mag_W b n d Hb E) as (Hd & _). destruct (mag_W c n' d' Hc E') as (Hd' & _).
  set (x := away _ _ _) in *. set (y := away num den (c mod 2 ^ 63)) in *. set (g := gap _ _ _ _) in *. set (g' := gap num den n' d') in *.
  assert (P : 0 < 2 ^ 1074) by (apply pow2_pos; lia). set (p := 2 ^ 1074) in *. clearbody p x y g g'.
  assert (E1 : g * d' * p = x * (d * d')) by nia. assert (E2 : g' * d * p = y * (d * d')) by nia. assert (DD : 0 < d * d') by nia.
  split; split; intros H.
  - apply (Z.mul_le_mono_pos_r _ _ (d * d')); [exact DD|]. rewrite <- E1, <- E2. apply Z.mul_le_mono_nonneg_r; lia.
  - apply (Z.mul_le_mono_pos_r _ _ p); [exact P|]. rewrite E1, E2. apply Z.mul_le_mono_nonneg_r; lia.
  - apply (Z.mul_cancel_r _ _ (d * d')); [lia|]. rewrite <- E1, <- E2, H. reflexivity.
  - apply (Z.mul_cancel_r _ _ p); [lia|]. rewrite E1, E2, H. reflexivity.
Qed.
Lemma same_W b n d c n' d' : 0 <= b < 2 ^ 64 -> magnitude 11 52 b = Finite n d -> 0 <= c < 2 ^ 64 -> magnitude 11 52 c = Finite n' d' ->
  W (b mod 2 ^ 63) = W (c mod 2 ^ 63) <-> n * d' = n' * d.
Proof.
  intros Hb E Hc E'. destruct (mag_W b n d Hb E) as (Hd & _ & H & _). destruct (mag_W c n' d' Hc E') as (Hd' & _ & H' & _).
  assert (P : 0 < 2 ^ 1074) by (apply pow2_pos; lia). set (p := 2 ^ 1074) in *. set (x := W _) in *. set (y := W (c mod 2 ^ 63)) in *. clearbody p x y.
  split; intros G.
  - apply (Z.mul_cancel_r _ _ p); [lia|]. subst y. nia.
  - apply (Z.mul_cancel_r _ _ (d * d')); [nia|]. replace (x * (d * d')) with (n * d' * p) by nia. replace (y * (d * d')) with (n' * d * p) by nia. congruence.
Qed.
Lemma sign_parts (neg : bool) R : 0 <= R < INF -> let b := (if neg then 2 ^ 63 else 0) + R in
  0 <= b < 2 ^ 64 /\ fneg 11 52 b = neg /\ b mod 2 ^ 63 = R /\ Z.even b = Z.even R.
Proof.
  intros HR b. subst b. unfold fneg. change (2 ^ (11 + 52)) with 9223372036854775808. change (2 ^ 63) with 9223372036854775808. change (2 ^ 64) with 18446744073709551616.
  destruct neg; (split; [lia|]); (split; [lia|]); (split; [lia|]); [rewrite Z.even_add; change (Z.even 9223372036854775808) with true; destruct (Z.even R); reflexivity|reflexivity].
Qed.
Lemma W_inf : W INF = 2 ^ 54 * 2 ^ 2044 /\ W (INF - 1) = (2 ^ 54 - 2) * 2 ^ 2044.
Proof.
  split.
  - change INF with (2046 * 2 ^ 52 + 2 ^ 52). rewrite W_at by lia. rewrite <- !Z.pow_add_r by lia. reflexivity.
  - change (INF - 1) with (2045 * 2 ^ 52 + (2 ^ 53 - 1)). rewrite W_at by lia. change (2 ^ 2045) with (2 * 2 ^ 2044). ring.
Qed.
Theorem round_nearest neg num den : 0 <= num -> 0 < den -> nearest neg num den (f64_round neg num den).
Proof.
  intros Hn0 Hd. destruct (Z.eq_dec num 0) as [-> |N0].
  - unfold f64_round. change (0 =? 0) with true. cbv iota. destruct (sign_parts neg 0 ltac:(lia)) as (B1 & B2 & B3 & B4). cbv zeta in *. rewrite Z.add_0_r in *.
    change 9223372036854775808 with (2 ^ 63). set (b := if neg then 2 ^ 63 else 0) in *. clearbody b.
    split; [exact B1|]. split; [exact B2|]. destruct (mag_finite b B1 ltac:(lia)) as (n & d & E). rewrite E.
    split; [assert (0 < (2 ^ 54 - 1) * 2 ^ 970) by (apply Z.mul_pos_pos; [lia|apply pow2_pos; lia]); nia|].
    intros c n' d' Hc E'. destruct (gap_cmp 0 den b n d c n' d' B1 E Hc E') as [G _]. split; [|right; exact B4].
    apply G. rewrite B3. unfold away at 1. change (W 0) with 0. rewrite !Z.mul_0_l. unfold away. lia.
  - destruct (round_between neg num den ltac:(lia) Hd) as (M & up & HM & HX & U1 & U2 & U3 & R).
    rewrite R. clear R. destruct W_inf as [WI WJ].
    assert (PQ : 0 < 2 ^ 2044) by (apply pow2_pos; lia).
    assert (BB : forall x, x * (2 ^ 54 - 1) * 2 ^ 2044 = x * ((2 ^ 54 - 1) * 2 ^ 970) * 2 ^ 1074).
    { intros x. replace (2 ^ 2044) with (2 ^ 970 * 2 ^ 1074) by (rewrite <- Z.pow_add_r by lia; reflexivity). ring. }
    assert (PP : 0 < 2 ^ 1074) by (apply pow2_pos; lia).
    set (p := 2 ^ 1074) in *. set (q := 2 ^ 2044) in *. clearbody q.
    set (R := if up then M + 1 else M) in *. destruct (Z.le_gt_cases INF R) as [L|L].
    + (* infinity *)
      rewrite Z.min_r by lia. split; [destruct neg; lia|]. split; [destruct neg; reflexivity|]. rewrite mag_inf.
      apply (Z.mul_le_mono_pos_r _ _ (p)); [exact PP|].
      replace ((2 ^ 54 - 1) * 2 ^ 970 * den * p) with (den * (2 ^ 54 - 1) * q) by (rewrite BB; ring).
      destruct (Z.le_gt_cases INF M) as [LM|LM].
      * pose proof (W_le INF M ltac:(lia) LM) as WM. rewrite WI in WM. clear - WM HX PQ Hd. set (X := num * p) in *.
        set (t := 2 ^ 54) in *. set (w := W M) in *. clearbody X t w. assert (t * q * den <= w * den) by (apply Z.mul_le_mono_nonneg_r; lia). nia.
      * unfold R in L. destruct up; [|lia]. assert (M = INF - 1) by lia. subst M. specialize (U1 eq_refl). replace (INF - 1 + 1) with INF in * by reflexivity.
        rewrite WI, WJ in U1. clear - U1 PQ Hd. set (X := num * p) in *. set (t := 2 ^ 54) in *. clearbody X t. nia.
    + rewrite Z.min_l by lia. assert (HR : 0 <= R < INF) by (unfold R in *; destruct up; lia).
      destruct (sign_parts neg R HR) as (B1 & B2 & B3 & B4). cbv zeta in *. set (b := (if neg then 2 ^ 63 else 0) + R) in *. clearbody b.
      split; [exact B1|]. split; [exact B2|]. destruct (mag_finite b B1 ltac:(lia)) as (n & d & E). rewrite E. split.
      * apply (Z.mul_lt_mono_pos_r (p)); [exact PP|].
        replace ((2 ^ 54 - 1) * 2 ^ 970 * den * p) with (den * (2 ^ 54 - 1) * q) by (rewrite BB; ring).
        destruct (Z.eq_dec M (INF - 1)) as [-> |NM].
        -- unfold R in *. destruct up; [lia|]. specialize (U2 eq_refl). replace (INF - 1 + 1) with INF in * by reflexivity. rewrite WI, WJ in U2, U3.
           assert (NE : 2 ^ 54 * q * den - num * p <> num * p - (2 ^ 54 - 2) * q * den) by (intros Q; specialize (U3 Q); discriminate).
           clear - U2 NE PQ Hd. set (X := num * p) in *. set (t := 2 ^ 54) in *. clearbody X t. nia.
        -- assert (LM : M + 1 <= INF - 1) by (unfold R in *; destruct up; lia). pose proof (W_le (M + 1) (INF - 1) ltac:(lia) LM) as WM. rewrite WJ in WM.
           clear - WM HX PQ Hd. set (X := num * p) in *. set (t := 2 ^ 54) in *. set (w := W (M + 1)) in *. clearbody X t w.
           assert (w * den <= (t - 2) * q * den) by (apply Z.mul_le_mono_nonneg_r; lia). nia.
      * intros c n' d' Hc E'. destruct (gap_cmp num den b n d c n' d' B1 E Hc E') as [G1 G2]. rewrite G1, G2, <- (same_W b n d c n' d' B1 E Hc E'), B3, B4.
        destruct (mag_W c n' d' Hc E') as (_ & _ & _ & HC). set (C := c mod 2 ^ 63) in *. clearbody C. clear G1 G2 E E' Hc PQ BB WI WJ B1 B2 B3 B4.
        unfold away. fold p. set (X := num * p) in *. clearbody X.
        assert (Side : (C <= M /\ W C * den <= W M * den) \/ (M + 1 <= C /\ W (M + 1) * den <= W C * den)).
        { destruct (Z.le_gt_cases C M) as [Q|Q]; [left|right]; (split; [lia|]); apply Z.mul_le_mono_nonneg_r; try lia; apply W_le; lia. }
        assert (Can : forall y z, y * den = z * den -> y = z) by (intros y z Q; apply Z.mul_cancel_r in Q; lia).
        unfold R in *. destruct up.
        -- specialize (U1 eq_refl). split; [lia|]. intros Q. destruct Side as [[S1 S2]|[S1 S2]]; [right; apply U3; lia|left; apply Can; lia].
        -- specialize (U2 eq_refl). split; [lia|]. intros Q. destruct Side as [[S1 S2]|[S1 S2]]; [left; apply Can; lia|right; apply U3; lia].
Qed.

(** There is only one. *)
Theorem nearest_unique neg num den b c : 0 <= num -> 0 < den -> nearest neg num den b -> nearest neg num den c -> b = c.
Proof.
  intros Hnum Hden (Hb & Sb & Nb) (Hc & Sc & Nc).
  assert (Same : b mod 2 ^ 63 = c mod 2 ^ 63 -> b = c).
  { intros Q. unfold fneg in *. change (2 ^ (11 + 52)) with 9223372036854775808 in *. change (2 ^ 63) with 9223372036854775808 in *. change (2 ^ 64) with 18446744073709551616 in *.
    destruct (9223372036854775808 <=? b) eqn:E1; destruct (9223372036854775808 <=? c) eqn:E2; try congruence; lia. }
  apply Same. destruct (magnitude 11 52 b) as [n d| |] eqn:E; [| |contradiction].
  - destruct (magnitude 11 52 c) as [n' d'| |] eqn:E'; [| |contradiction]; [|lia].
    destruct Nb as [_ Nb]. destruct Nc as [_ Nc]. destruct (Nb c n' d' Hc E') as [D1 T1]. destruct (Nc b n d Hb E) as [D2 T2].
    assert (EQ : gap num den n d * d' = gap num den n' d' * d) by lia.
    destruct (mag_W b n d Hb E) as (_ & _ & _ & Rb). destruct (mag_W c n' d' Hc E') as (_ & _ & _ & Rc).
    destruct (Z.eq_dec (n * d') (n' * d)) as [Q|Q].
    + apply (same_W b n d c n' d' Hb E Hc E') in Q. destruct (Z.lt_trichotomy (b mod 2 ^ 63) (c mod 2 ^ 63)) as [L|[L|L]]; [|exact L|]; apply W_mono in L; lia.
    + exfalso. specialize (T1 EQ). specialize (T2 (eq_sym EQ)). assert (EB : Z.even b = true) by (destruct T1; [lia|assumption]).
      assert (EC : Z.even c = true) by (destruct T2; [lia|assumption]).
      assert (NW : W (b mod 2 ^ 63) <> W (c mod 2 ^ 63)) by (intros Z; apply (same_W b n d c n' d' Hb E Hc E') in Z; contradiction).
      apply (gap_cmp num den b n d c n' d' Hb E Hc E') in EQ.
      assert (PM : forall x, Z.even (x mod 2 ^ 63) = Z.even x).
      { intros x. rewrite (Z.div_mod x (2 ^ 63)) at 2 by lia. rewrite Z.even_add, Z.even_mul. change (Z.even (2 ^ 63)) with true. cbn [orb]. destruct (Z.even (x mod 2 ^ 63)); reflexivity. }
      rewrite <- PM in EB, EC.
      (* the pattern just above the smaller one lies strictly between *)
      assert (Mid : forall B C, 0 <= B < INF -> 0 <= C < INF -> B < C -> Z.even B = true -> Z.even C = true -> away num den B = away num den C ->
        0 <= B + 1 < INF /\ away num den (B + 1) < away num den B).
      { intros B C HB HC L1 V1 V2 A. assert (L2 : B + 1 < C).
        { destruct (Z.eq_dec (B + 1) C) as [<- |]; [|lia]. rewrite Z.even_add, V1 in V2. discriminate. }
        split; [lia|]. pose proof (W_mono B (B + 1) ltac:(lia) ltac:(lia)) as M1. pose proof (W_mono (B + 1) C ltac:(lia) L2) as M2.
        unfold away in *. set (X := num * 2 ^ 1074) in *. clearbody X.
        assert (W B * den < W (B + 1) * den) by (apply Z.mul_lt_mono_pos_r; lia). assert (W (B + 1) * den < W C * den) by (apply Z.mul_lt_mono_pos_r; lia). lia. }
      assert (Use : forall B, 0 <= B < INF -> away num den (b mod 2 ^ 63) <= away num den B).
      { intros B HB. destruct (sign_parts false B HB) as (P1 & _ & P2 & _). cbv zeta in *. destruct (mag_finite _ P1 ltac:(lia)) as (n1 & d1 & E1).
        destruct (Nb _ n1 d1 P1 E1) as [G _]. apply (gap_cmp num den b n d _ n1 d1 Hb E P1 E1) in G. rewrite P2 in G. exact G. }
      destruct (Z.lt_trichotomy (b mod 2 ^ 63) (c mod 2 ^ 63)) as [L|[L|L]]; [| rewrite L in NW; contradiction|].
      * destruct (Mid _ _ Rb Rc L EB EC EQ) as [M1 M2]. specialize (Use _ M1). lia.
      * destruct (Mid _ _ Rc Rb L EC EB (eq_sym EQ)) as [M1 M2]. specialize (Use _ M1). lia.
  - destruct (magnitude 11 52 c) as [n' d'| |] eqn:E'; [lia| |contradiction].
    assert (I : forall x, 0 <= x < 2 ^ 64 -> magnitude 11 52 x = Infinite -> x mod 2 ^ 63 = INF).
    { clear. intros x Hx. unfold magnitude, fexp, ffrac. change (2 ^ 11) with 2048. change (2048 - 1) with 2047. change (2 ^ 52) with 4503599627370496. change (2 ^ 63) with 9223372036854775808.
      change (2 ^ 64) with 18446744073709551616 in Hx.
      destruct (_ =? 2047) eqn:E1; [|cbv zeta; destruct (_ =? 0); destruct (0 <=? _); discriminate]. destruct (x mod 4503599627370496 =? 0) eqn:E2; [|discriminate]. intros _. lia. }
    rewrite (I b Hb E), (I c Hc E'). reflexivity.
Qed.

(** int64(x). *)
Lemma whole_part_unique b z z' : 0 <= b < 2 ^ 64 -> whole_part b z -> whole_part b z' -> z = z'.
Proof.
  intros Hb (n & d & m & E & Hm & ->) (n' & d' & m' & E' & Hm' & ->). rewrite E in E'. inversion E'; subst.
  destruct (mag_W b n' d' Hb E) as (Hd & _). assert (m = m') by nia. subst. reflexivity.
Qed.
Lemma to_i64 b : 0 <= b < 2 ^ 64 -> to_int64 b (f64_to_i64 b).
Proof.
  intros Hb. unfold f64_to_i64. pose proof (f64_mag_magnitude b) as E. destruct (f64_mag b) as [[n d]|].
  - destruct (mag_W b n d Hb E) as (Hd & Hn & _). cbv zeta. change (f64_neg b) with (fneg 11 52 b).
    assert (WP : whole_part b (if fneg 11 52 b then - (n / d) else n / d)).
    { exists n, d, (n / d). split; [exact E|]. split; [|reflexivity]. pose proof (Z.div_mod n d ltac:(lia)). pose proof (Z.mod_pos_bound n d Hd). nia. }
    set (z := if fneg 11 52 b then _ else _) in *. clearbody z. change 9223372036854775808 with (2 ^ 63). change (-9223372036854775808) with (- 2 ^ 63).
    destruct ((- 2 ^ 63 <=? z) && (z <? 2 ^ 63)) eqn:R.
    + left. split; [exact WP|]. apply andb_true_iff in R. lia.
    + right. split; [reflexivity|]. intros z' W' R'. pose proof (whole_part_unique b z z' Hb WP W'). subst z'. apply andb_false_iff in R. lia.
  - right. split; [reflexivity|]. intros z' (n & d & m & E' & _) _. exact (E n d E').
Qed.

(** Multiples of powers of two. *)
Lemma W_dyadic j x : 0 <= j < 2 ^ 53 -> 52 <= x <= 1074 -> exists M, 0 <= M < INF /\ W M = j * 2 ^ x.
Proof.
  intros Hj Hx. destruct (Z.eq_dec j 0) as [-> |N]; [exists 0; split; [lia|reflexivity]|].
  pose proof (log2_bounds j ltac:(lia)) as B. pose proof (Z.log2_nonneg j) as L.
  assert (L2 : Z.log2 j <= 52). { apply Z.lt_succ_r. change (Z.succ 52) with 53. apply Z.log2_lt_pow2; lia. }
  set (s := 52 - Z.log2 j). pose proof (pow2_pos s ltac:(lia)) as Ps.
  assert (E : 2 ^ Z.log2 j * 2 ^ s = 2 ^ 52) by (rewrite <- Z.pow_add_r by lia; f_equal; lia).
  assert (Q : 2 ^ 52 <= j * 2 ^ s < 2 ^ 53) by (change (2 ^ 53) with (2 * 2 ^ 52); rewrite <- E; nia).
  exists ((x - s) * 2 ^ 52 + j * 2 ^ s). split; [change INF with (2047 * 2 ^ 52); change (2 ^ 53) with (2 * 2 ^ 52) in Q; lia|].
  rewrite W_at by lia. rewrite <- Z.mul_assoc, <- Z.pow_add_r by lia. do 2 f_equal. lia.
Qed.

(** A whole number of milliseconds divided by 1000, rounded, truncated: the rounding does not change the whole part. *)
Lemma quotient_1000 bits ms n d q : 0 <= bits < 2 ^ 64 -> Z.abs ms <= 2 ^ 53 -> stands_for bits ms -> magnitude 11 52 bits = Finite n d ->
  nearest (fneg 11 52 bits) n (d * 1000) q -> whole_part q (Z.quot ms 1000).
Proof.
  intros Hb Hms (n1 & d1 & E1 & EN & SN & SP) E (Hq & Sq & Nq). rewrite E in E1. inversion E1; subst n1 d1. clear E1.
  destruct (mag_W bits n d Hb E) as (Hd & _ & _ & _). set (y := Z.abs ms) in *. set (m := y / 1000).
  assert (Hm : m * 1000 <= y < (m + 1) * 1000) by (subst m; lia).
  assert (QT : Z.quot ms 1000 = if ms <? 0 then - m else m).
  { subst m y. destruct (ms <? 0) eqn:L.
    - rewrite <- (Z.opp_involutive ms) at 1. rewrite Z.quot_opp_l, Z.quot_div_nonneg by lia. do 2 f_equal. lia.
    - rewrite Z.quot_div_nonneg by lia. f_equal. lia. }
  destruct (magnitude 11 52 q) as [a b| |] eqn:EQ; [| |contradiction].
  - destruct Nq as [_ Nq]. destruct (mag_W q a b Hq EQ) as (Hb' & Ha & WQ & RQ).
    assert (Use : forall M, 0 <= M < INF -> away n (d * 1000) (q mod 2 ^ 63) <= away n (d * 1000) M).
    { intros M HM. destruct (sign_parts false M HM) as (P1 & _ & P2 & _). cbv zeta in *. destruct (mag_finite _ P1 ltac:(lia)) as (n1 & d1 & E1).
      destruct (Nq _ n1 d1 P1 E1) as [G _]. apply (gap_cmp n (d * 1000) q a b _ n1 d1 Hq EQ P1 E1) in G. rewrite P2 in G. exact G. }
    destruct (W_dyadic (512 * m) 1065 ltac:(lia) ltac:(lia)) as (M1 & H1 & W1).
    destruct (W_dyadic (512 * (m + 1) - 1) 1065 ltac:(lia) ltac:(lia)) as (M2 & H2 & W2).
    pose proof (Use M1 H1) as U1. pose proof (Use M2 H2) as U2. unfold away in U1, U2. rewrite W1 in U1. rewrite W2 in U2. clear Use Nq W1 W2 H1 H2.
    assert (PP : 2 ^ 1074 = 512 * 2 ^ 1065) by (change 512 with (2 ^ 9); rewrite <- Z.pow_add_r by lia; reflexivity). rewrite PP in *.
    assert (P0 : 0 < 2 ^ 1065) by (apply pow2_pos; lia). set (P := 2 ^ 1065) in *. clearbody P. set (V := W (q mod 2 ^ 63)) in *. clearbody V.
    subst n.
    assert (F : forall w, Z.abs (y * d * (512 * P) - w * (d * 1000)) = d * Z.abs (y * (512 * P) - w * 1000)).
    { intros w. rewrite <- (Z.abs_eq d) at 3 by lia. rewrite <- Z.abs_mul. f_equal. ring. }
    rewrite !F in U1, U2. apply Z.mul_le_mono_pos_l in U1; [|exact Hd]. apply Z.mul_le_mono_pos_l in U2; [|exact Hd].
    assert (VB : m * (512 * P) <= V < (m + 1) * (512 * P)).
    { clear - U1 U2 Hm P0. split.
      - apply Z.nlt_ge. intros L. assert (m * 1000 * P <= y * P) by (apply Z.mul_le_mono_nonneg_r; lia). lia.
      - apply Z.nle_gt. intros L. assert (y * P <= ((m + 1) * 1000 - 1) * P) by (apply Z.mul_le_mono_nonneg_r; lia). lia. }
    exists a, b, m. split; [exact EQ|]. split.
    + split.
      * apply (Z.mul_le_mono_pos_r _ _ (512 * P)); [lia|]. rewrite WQ. replace (m * b * (512 * P)) with (m * (512 * P) * b) by ring. apply Z.mul_le_mono_nonneg_r; lia.
      * apply (Z.mul_lt_mono_pos_r (512 * P)); [lia|]. rewrite WQ. replace ((m + 1) * b * (512 * P)) with ((m + 1) * (512 * P) * b) by ring. apply Z.mul_lt_mono_pos_r; lia.
    + rewrite QT, Sq. destruct (ms <? 0) eqn:L; [rewrite SN by lia; reflexivity|]. destruct (Z.eq_dec ms 0) as [-> |N]; [|rewrite SP by lia; reflexivity].
      assert (m = 0) by (subst m y; reflexivity). destruct (fneg 11 52 bits); lia.
  - exfalso. subst n. assert (1 <= 2 ^ 970) by (pose proof (pow2_pos 970 ltac:(lia)); lia). set (h := 2 ^ 970) in *. clearbody h.
    assert ((2 ^ 54 - 1) * (d * 1000) <= (2 ^ 54 - 1) * h * (d * 1000)) by (apply Z.mul_le_mono_nonneg_r; lia).
    assert (y * d <= 2 ^ 53 * d) by (apply Z.mul_le_mono_nonneg_r; lia). lia.
Qed.
