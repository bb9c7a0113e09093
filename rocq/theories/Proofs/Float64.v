From Verif Require Import Base.Go Base.GoFacts Base.Float64.

Lemma log2_bounds a : 0 < a -> 2 ^ Z.log2 a <= a < 2 * 2 ^ Z.log2 a.
Proof.
  intros H. pose proof (Z.log2_spec a H) as Hs. rewrite Z.pow_succ_r in Hs by apply Z.log2_nonneg. lia.
Qed.

Lemma pow2_pos n : 0 <= n -> 0 < 2 ^ n.
Proof. intros; apply Z.pow_pos_nonneg; lia. Qed.

(** Rounding of a quotient that is exactly the integer z, 0 < z <= 2^53. *)
Lemma f64_round_exact neg z den :
  0 < z <= 9007199254740992 -> 0 < den ->
  exists e q, -54 <= e <= 1 /\ 4503599627370496 <= q < 9007199254740992 /\
    (e < 1 -> q = z * 2 ^ (- e)) /\ (e = 1 -> z = 9007199254740992 /\ q = 4503599627370496) /\
    f64_round neg (z * den) den
      = (if neg then 9223372036854775808 else 0) + ((e + 1074) * 4503599627370496 + q).
Proof.
  intros Hz Hd.
  unfold f64_round. cbv zeta.
  destruct (z * den =? 0) eqn:E0; [apply Z.eqb_eq in E0; nia|]. clear E0.
  set (num := z * den).
  assert (Hnum : 0 < num) by (unfold num; nia).
  set (k := Z.log2 num - Z.log2 den).
  pose proof (log2_bounds num Hnum) as Bn. pose proof (log2_bounds den Hd) as Bd.
  pose proof (log2_bounds z (proj1 Hz)) as Bz.
  pose proof (Z.log2_nonneg z) as Lz. pose proof (Z.log2_nonneg den) as Ld. pose proof (Z.log2_nonneg num) as Ln.
  assert (HL53 : Z.log2 z <= 53).
  { destruct (Z.le_gt_cases (Z.log2 z) 53) as [?|Hg]; [assumption|].
    assert (2 ^ 54 <= 2 ^ Z.log2 z) by (apply Z.pow_le_mono_r; lia).
    change (2 ^ 54) with 18014398509481984 in *. lia. }
  (* k is log2 z or log2 z + 1 *)
  assert (Hk : k = Z.log2 z \/ k = Z.log2 z + 1).
  { assert (Z.log2 z + Z.log2 den <= Z.log2 num).
    { apply Z.log2_le_pow2; [assumption|]. rewrite Z.pow_add_r by assumption. unfold num. nia. }
    assert (Z.log2 num < Z.log2 z + Z.log2 den + 2).
    { apply Z.log2_lt_pow2; [assumption|].
      replace (Z.log2 z + Z.log2 den + 2) with (2 + Z.log2 z + Z.log2 den) by lia.
      rewrite !Z.pow_add_r by lia. change (2 ^ 2) with 4. unfold num. nia. }
    unfold k. lia. }
  set (scale := f64_scale num den). fold k.
  (* the value of scale for e <= 0 *)
  assert (Hsc : forall e, e <= 0 -> (let (n, d) := scale e in n / d) = z * 2 ^ (- e)
                          /\ (let (n, d) := scale e in n mod d) = 0).
  { intros e He. unfold scale, f64_scale. destruct (0 <=? e) eqn:Ee.
    - assert (e = 0) by lia. subst e. change (2 ^ 0) with 1. change (- 0) with 0. change (2 ^ 0) with 1.
      rewrite Z.mul_1_r, Z.mul_1_r. unfold num. rewrite Z.div_mul, Z.mod_mul by lia. split; reflexivity.
    - unfold num. replace (z * den * 2 ^ (- e)) with (z * 2 ^ (- e) * den) by lia.
      rewrite Z.div_mul, Z.mod_mul by lia. split; reflexivity. }
  set (e1 := if let (n, d) := scale (k - 52) in n / d <? 4503599627370496 then k - 52 - 1 else k - 52).
  assert (He1 : e1 = Z.log2 z - 52).
  { unfold e1. destruct (Z.le_gt_cases (k - 52) 0) as [Hle|Hgt].
    - destruct (Hsc (k - 52) Hle) as [Hq _]. destruct (scale (k - 52)) as [n d]. rewrite Hq.
      assert (Hp : 0 < 2 ^ (- (k - 52))) by (apply pow2_pos; lia).
      destruct Hk as [Hk|Hk].
      + assert (H52 : 2 ^ Z.log2 z * 2 ^ (- (k - 52)) = 4503599627370496).
        { rewrite <- Z.pow_add_r by lia. replace (Z.log2 z + - (k - 52)) with 52 by lia. reflexivity. }
        destruct (z * 2 ^ (- (k - 52)) <? 4503599627370496) eqn:E; [nia|lia].
      + assert (H52 : 2 ^ Z.log2 z * 2 ^ (- (k - 52)) = 2251799813685248).
        { rewrite <- Z.pow_add_r by lia. replace (Z.log2 z + - (k - 52)) with 51 by lia. reflexivity. }
        destruct (z * 2 ^ (- (k - 52)) <? 4503599627370496) eqn:E; [lia|nia].
    - unfold scale, f64_scale. destruct (0 <=? k - 52) eqn:Ee; [|lia].
      assert (Hkk : k = 53 \/ k = 54) by lia.
      destruct Hk as [Hk|Hk].
      + (* k = log2 z = 53, z = 2^53 *)
        assert (k = 53) by lia. assert (Z.log2 z = 53) by lia.
        assert (z = 9007199254740992).
        { replace (Z.log2 z) with 53 in Bz by lia. change (2 ^ 53) with 9007199254740992 in Bz. lia. }
        replace (k - 52) with 1 by lia. change (2 ^ 1) with 2.
        replace num with (4503599627370496 * (den * 2)) by (unfold num; lia).
        rewrite Z.div_mul by lia. destruct (_ <? _) eqn:E; lia.
      + destruct Hkk as [Hkk|Hkk].
        * replace (k - 52) with 1 by lia. change (2 ^ 1) with 2.
          assert (num / (den * 2) < 4503599627370496).
          { apply Z.div_lt_upper_bound; [lia|]. unfold num.
            replace (Z.log2 z) with 52 in Bz by lia. change (2 * 2 ^ 52) with 9007199254740992 in Bz. nia. }
          destruct (_ <? _) eqn:E; lia.
        * replace (k - 52) with 2 by lia. change (2 ^ 2) with 4.
          assert (num / (den * 4) < 4503599627370496).
          { apply Z.div_lt_upper_bound; [lia|]. unfold num. nia. }
          destruct (_ <? _) eqn:E; lia. }
  assert (Hmax : Z.max e1 (-1074) = e1) by lia.
  rewrite Hmax.
  destruct (Z.le_gt_cases e1 0) as [Hle|Hgt].
  - destruct (Hsc e1 Hle) as [Hq Hr]. destruct (scale e1) as [n d] eqn:Esc.
    rewrite Hq, Hr.
    assert (Hd0 : 0 < d).
    { unfold scale, f64_scale in Esc. destruct (0 <=? e1) eqn:E.
      - inversion Esc; subst. assert (0 < 2 ^ e1) by (apply pow2_pos; lia). nia.
      - inversion Esc; subst. assumption. }
    replace ((d <? 2 * 0) || ((2 * 0 =? d) && Z.odd (z * 2 ^ (- e1)))) with false.
    2:{ destruct (d <? 2 * 0) eqn:E; [lia|]. destruct (2 * 0 =? d) eqn:E2; [lia|reflexivity]. }
    exists e1, (z * 2 ^ (- e1)).
    assert (Hlo : 2 ^ Z.log2 z * 2 ^ (- e1) = 4503599627370496).
    { rewrite <- Z.pow_add_r by lia. replace (Z.log2 z + - e1) with 52 by lia. reflexivity. }
    assert (0 < 2 ^ (- e1)) by (apply pow2_pos; lia).
    split; [lia|]. split; [nia|]. split; [reflexivity|]. split; [lia|].
    f_equal. rewrite Z.min_l; [reflexivity|]. nia.
  - assert (e1 = 1) by lia.
    assert (Hz53 : z = 9007199254740992).
    { replace (Z.log2 z) with 53 in Bz by lia. change (2 ^ 53) with 9007199254740992 in Bz. lia. }
    exists 1, 4503599627370496. repeat split; try lia.
    replace e1 with 1 by lia. unfold scale, f64_scale. change (0 <=? 1) with true. cbv iota.
    change (2 ^ 1) with 2. replace num with (4503599627370496 * (den * 2)) by (unfold num; lia).
    rewrite Z.div_mul, Z.mod_mul by lia.
    replace ((den * 2 <? 2 * 0) || ((2 * 0 =? den * 2) && Z.odd 4503599627370496)) with false.
    2:{ destruct (den * 2 <? 2 * 0) eqn:E; [lia|]. destruct (2 * 0 =? den * 2) eqn:E2; [lia|reflexivity]. }
    f_equal.
Qed.

(** The bit pattern built by [f64_round_exact] denotes z. *)
Lemma f64_round_is_int neg z den :
  0 <= z <= 9007199254740992 -> 0 < den ->
  f64_is_int (f64_round neg (z * den) den) (if neg then - z else z).
Proof.
  intros Hz Hd. destruct (Z.eq_dec z 0) as [->|Hnz].
  { rewrite Z.mul_0_l. unfold f64_round. cbn [Z.eqb]. unfold f64_is_int.
    destruct neg; (split; [lia|]); [exists 0, (2 ^ 1074)|exists 0, (2 ^ 1074)]; repeat split; try reflexivity; intros; lia. }
  destruct (f64_round_exact neg z den ltac:(lia) Hd) as (e & q & He & Hq & Hlt & Heq & Hr).
  set (b := f64_round neg (z * den) den) in *.
  set (s := if neg then 9223372036854775808 else 0) in *.
  assert (Hs : s = 2048 * 4503599627370496 \/ s = 0) by (unfold s; destruct neg; lia).
  assert (Hb : b = (s / 4503599627370496 + (e + 1075)) * 4503599627370496 + (q - 4503599627370496))
    by (rewrite Hr; destruct Hs as [->| ->]; [change (2048 * 4503599627370496 / 4503599627370496) with 2048|change (0 / 4503599627370496) with 0]; lia).
  assert (Hfrac : f64_frac b = q - 4503599627370496).
  { unfold f64_frac. rewrite Hb, Z.add_comm, Z.mod_add by lia. apply Z.mod_small. lia. }
  assert (Hdiv : b / 4503599627370496 = s / 4503599627370496 + (e + 1075)).
  { rewrite Hb, Z.div_add_l by lia. rewrite (Z.div_small (q - _)) by lia. lia. }
  assert (Hexp : f64_expf b = e + 1075).
  { unfold f64_expf. rewrite Hdiv. destruct Hs as [->| ->].
    - change (2048 * 4503599627370496 / 4503599627370496) with 2048.
      replace (2048 + (e + 1075)) with (e + 1075 + 1 * 2048) by lia.
      rewrite Z.mod_add by lia. apply Z.mod_small. lia.
    - change (0 / 4503599627370496) with 0. apply Z.mod_small. lia. }
  assert (Hneg : f64_neg b = neg).
  { unfold f64_neg. rewrite Hr. unfold s. destruct neg; lia. }
  assert (Hmag : f64_mag b = Some (if 0 <=? e then (q * 2 ^ e, 1) else (q, 2 ^ (- e)))).
  { unfold f64_mag. rewrite Hexp, Hfrac.
    destruct (e + 1075 =? 2047) eqn:E1; [lia|]. destruct (e + 1075 =? 0) eqn:E2; [lia|].
    replace (q - 4503599627370496 + 4503599627370496) with q by lia.
    replace (e + 1075 - 1075) with e by lia. reflexivity. }
  split.
  { rewrite Hr. unfold s. destruct neg; lia. }
  assert (Habs : Z.abs (if neg then - z else z) = z) by (destruct neg; lia).
  rewrite Habs. destruct (0 <=? e) eqn:E.
  - exists (q * 2 ^ e), 1. split; [assumption|]. split; [lia|]. split.
    + rewrite Z.mul_1_r. assert (Hc : e = 0 \/ e = 1) by lia. destruct Hc as [Hc|Hc].
      * rewrite (Hlt ltac:(lia)), Hc. change (2 ^ - 0) with 1. change (2 ^ 0) with 1. lia.
      * destruct (Heq Hc) as [H1 H2]. rewrite H1, H2, Hc. reflexivity.
    + split; intros; rewrite Hneg; destruct neg; lia || reflexivity.
  - exists q, (2 ^ (- e)). split; [assumption|].
    assert (0 < 2 ^ (- e)) by (apply pow2_pos; lia). split; [lia|]. split.
    + apply Hlt. lia.
    + split; intros; rewrite Hneg; destruct neg; lia || reflexivity.
Qed.

(** float64(z) is exact for |z| <= 2^53. *)
Lemma f64_of_Z_exact z : -9007199254740992 <= z <= 9007199254740992 -> f64_is_int (f64_of_Z z) z.
Proof.
  intros Hz. unfold f64_of_Z.
  pose proof (f64_round_is_int (z <? 0) (Z.abs z) 1 ltac:(lia) ltac:(lia)) as H.
  rewrite Z.mul_1_r in H. destruct (z <? 0) eqn:E.
  - replace (- Z.abs z) with z in H by lia. assumption.
  - replace (Z.abs z) with z in H at 2 by lia. assumption.
Qed.

(** Multiplication by a constant of an exact integer. *)
Lemma f64_round_scale_int b z c :
  f64_is_int b z -> z <> 0 -> 0 < c -> Z.abs z * c <= 9007199254740992 ->
  f64_is_int (f64_mul_c b c) (z * c).
Proof.
  intros (Hr & n & d & Hm & Hd & Hn & Hneg & Hpos) Hz Hc Hb.
  unfold f64_mul_c. rewrite Hm, Hn.
  replace (Z.abs z * d * c) with ((Z.abs z * c) * d) by lia.
  pose proof (f64_round_is_int (f64_neg b) (Z.abs z * c) d ltac:(nia) ltac:(lia)) as H.
  destruct (Z.lt_ge_cases z 0) as [Hl|Hl].
  - rewrite (Hneg Hl) in *. replace (- (Z.abs z * c)) with (z * c) in H by nia. assumption.
  - rewrite (Hpos ltac:(lia)) in *. replace (Z.abs z * c) with (z * c) in H at 2 by nia. assumption.
Qed.

(** Division by a constant of an exact multiple. *)
Lemma f64_div_int b z c :
  f64_is_int b (z * c) -> 0 < c -> Z.abs z <= 9007199254740992 -> z <> 0 ->
  f64_is_int (f64_div_c b c) z.
Proof.
  intros (Hr & n & d & Hm & Hd & Hn & Hneg & Hpos) Hc Hb Hz.
  unfold f64_div_c. rewrite Hm, Hn.
  replace (Z.abs (z * c) * d) with (Z.abs z * (d * c)) by nia.
  pose proof (f64_round_is_int (f64_neg b) (Z.abs z) (d * c) ltac:(lia) ltac:(nia)) as H.
  destruct (Z.lt_ge_cases z 0) as [Hl|Hl].
  - rewrite (Hneg ltac:(nia)) in *. replace (- Z.abs z) with z in H by lia. assumption.
  - rewrite (Hpos ltac:(nia)) in *. replace (Z.abs z) with z in H at 2 by lia. assumption.
Qed.

Lemma f64_to_i64_int b z : f64_is_int b z -> -9223372036854775808 <= z < 9223372036854775808 -> z <> 0 ->
  f64_to_i64 b = z.
Proof.
  intros (Hr & n & d & Hm & Hd & Hn & Hneg & Hpos) Hz Hz0.
  unfold f64_to_i64. rewrite Hm, Hn, Z.div_mul by lia.
  destruct (Z.lt_ge_cases z 0) as [Hl|Hl].
  - rewrite (Hneg Hl). replace (- Z.abs z) with z by lia.
    destruct ((_ <=? z) && _) eqn:E; [reflexivity|lia].
  - rewrite (Hpos ltac:(lia)). replace (Z.abs z) with z by lia.
    destruct ((_ <=? z) && _) eqn:E; [reflexivity|lia].
Qed.

Lemma f64_round_range neg num den : 0 <= num -> 0 < den ->
  0 <= f64_round neg num den < 18446744073709551616.
Proof.
  intros Hn Hd. unfold f64_round.
  assert (Hs : 0 <= (if neg then 9223372036854775808 else 0) <= 9223372036854775808) by (destruct neg; lia).
  destruct (num =? 0); [lia|].
  set (e := Z.max _ (-1074)).
  destruct (f64_scale num den e) as [n d] eqn:E. unfold f64_scale in E.
  assert (0 <= n /\ 0 < d).
  { destruct (0 <=? e) eqn:E0; inversion E; subst.
    - split; [assumption|]. assert (0 < 2 ^ e) by (apply pow2_pos; lia). nia.
    - split; [|assumption]. assert (0 < 2 ^ (- e)) by (apply pow2_pos; lia). nia. }
  assert (0 <= n / d) by (apply Z.div_pos; lia).
  assert (-1074 <= e) by lia.
  destruct (_ || _); lia.
Qed.

Lemma f64_mag_pos b n d : f64_mag b = Some (n, d) -> 0 <= n /\ 0 < d.
Proof.
  unfold f64_mag. destruct (f64_expf b =? 2047); [discriminate|].
  assert (Hf : 0 <= f64_frac b) by (unfold f64_frac; apply Z.mod_pos_bound; lia).
  cbv zeta. set (m := if f64_expf b =? 0 then f64_frac b else f64_frac b + 4503599627370496).
  set (e := if f64_expf b =? 0 then -1074 else f64_expf b - 1075).
  assert (Hm : 0 <= m) by (subst m; destruct (f64_expf b =? 0); lia).
  destruct (0 <=? e) eqn:E; intros H; inversion H; subst.
  - pose proof (pow2_pos e ltac:(lia)). split; [apply Z.mul_nonneg_nonneg; lia|lia].
  - pose proof (pow2_pos (- e) ltac:(lia)). lia.
Qed.
Lemma f64_mul_c_range b c : 0 <= b < 18446744073709551616 -> 0 <= c -> 0 <= f64_mul_c b c < 18446744073709551616.
Proof.
  intros Hb Hc. unfold f64_mul_c. destruct (f64_mag b) as [[n d]|] eqn:E; [|exact Hb].
  apply f64_mag_pos in E. apply f64_round_range; [apply Z.mul_nonneg_nonneg|]; lia.
Qed.
