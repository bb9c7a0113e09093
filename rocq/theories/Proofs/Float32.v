From Verif Require Import Base.Go Base.GoFacts Model.AmfTypes Model.Float32 Spec.Float32.
Local Ltac Zify.zify_post_hook ::= Z.div_mod_to_equations.
(** The fields of a pattern put together from fields. *)
Lemma fields64 s e f : 0 <= s < 2 -> 0 <= e < 2048 -> 0 <= f < 4503599627370496 ->
  let b := s * 9223372036854775808 + (e * 4503599627370496 + f) in
  fneg 11 52 b = (1 <=? s) /\ fexp 11 52 b = e /\ ffrac 52 b = f /\ 0 <= b < 18446744073709551616.
Proof.
  intros Hs He Hf b. unfold fneg, fexp, ffrac. change (2 ^ (11 + 52)) with 9223372036854775808. change (2 ^ 52) with 4503599627370496. change (2 ^ 11) with 2048. subst b.
  split; [|split; [|split]].
  - destruct (Z.leb_spec 1 s); destruct (Z.leb_spec 9223372036854775808 (s * 9223372036854775808 + (e * 4503599627370496 + f))); lia.
  - replace (s * 9223372036854775808 + (e * 4503599627370496 + f)) with ((s * 2048 + e) * 4503599627370496 + f) by lia.
    rewrite Z.div_add_l, (Z.div_small f) by lia. rewrite Z.add_0_r, Z.add_comm, Z.mod_add, Z.mod_small by lia. reflexivity.
  - replace (s * 9223372036854775808 + (e * 4503599627370496 + f)) with (f + (s * 2048 + e) * 4503599627370496) by lia. rewrite Z.mod_add, Z.mod_small by lia. reflexivity.
  - lia.
Qed.
Lemma lor_nan f : 0 < f < 8388608 -> 0 < Z.lor (f * 536870912) 2251799813685248 < 4503599627370496.
Proof.
  intros Hf. assert (B : 0 <= Z.lor (f * 536870912) 2251799813685248) by (apply Z.lor_nonneg; lia).
  assert (NZ : Z.lor (f * 536870912) 2251799813685248 <> 0) by (intros E; apply Z.lor_eq_0_iff in E; lia).
  split; [lia|]. change 4503599627370496 with (2 ^ 52). apply Z.log2_lt_pow2; [lia|]. rewrite Z.log2_lor by lia.
  apply Z.max_lub_lt; [|reflexivity]. apply Z.log2_lt_pow2; [lia|]. change (2 ^ 52) with 4503599627370496. lia.
Qed.
Lemma widen b : 0 <= b < 4294967296 -> same_number b (f64_of_f32 b) /\ 0 <= f64_of_f32 b < 18446744073709551616.
Proof.
  intros Hb. unfold f64_of_f32. cbv zeta. set (s := b / 2147483648). set (e := (b / 8388608) mod 256). set (f := b mod 8388608).
  assert (Hs : 0 <= s < 2) by (subst s; lia). assert (He : 0 <= e < 256) by (subst e; lia). assert (Hf : 0 <= f < 8388608) by (subst f; lia).
  assert (N : fneg 8 23 b = (1 <=? s)). { unfold fneg. change (2 ^ (8 + 23)) with 2147483648. subst s. destruct (Z.leb_spec 2147483648 b); destruct (Z.leb_spec 1 (b / 2147483648)); lia. }
  unfold same_number. rewrite N. unfold magnitude at 1. change (fexp 8 23 b) with e. change (ffrac 23 b) with f. change (2 ^ 8 - 1) with 255. change (2 ^ (8 - 1) - 1) with 127. change (2 ^ 23) with 8388608.
  clearbody s e f. clear N Hb b. destruct (Z.eqb_spec e 255) as [->|E255].
  - assert (F : 0 <= (if f =? 0 then 0 else Z.lor (f * 536870912) 2251799813685248) < 4503599627370496) by (destruct (Z.eqb_spec f 0); [lia|]; pose proof (lor_nan f); lia).
    destruct (fields64 s 2047 _ Hs ltac:(lia) F) as (F1 & F2 & F3 & F4). split; [|exact F4]. split; [symmetry; exact F1|].
    unfold magnitude. rewrite F2, F3. change (2047 =? 2 ^ 11 - 1) with true. cbv iota. destruct (Z.eqb_spec f 0) as [->|]; cbn [same_magnitude]; [exact I|].
    pose proof (lor_nan f ltac:(lia)). replace (Z.lor (f * 536870912) 2251799813685248 =? 0) with false by lia. exact I.
  - destruct (Z.eqb_spec e 0) as [->|E0].
    + destruct (Z.eqb_spec f 0) as [->|F0].
      * destruct (fields64 s 0 0 Hs ltac:(lia) ltac:(lia)) as (F1 & F2 & F3 & F4). change (0 * 4503599627370496 + 0) with 0 in *. split; [|exact F4]. split; [symmetry; exact F1|].
        unfold magnitude. rewrite F2, F3. split; [reflexivity|split; reflexivity].
      * set (k := Z.log2 f). assert (K : 2 ^ k <= f < 2 ^ (k + 1)) by (subst k; pose proof (Z.log2_spec f ltac:(lia)); lia).
        assert (K0 : 0 <= k < 23) by (subst k; split; [apply Z.log2_nonneg|apply Z.log2_lt_pow2; [lia|change (2 ^ 23) with 8388608; lia]]).
        assert (P : 0 < 2 ^ k) by (apply Z.pow_pos_nonneg; lia). rewrite Z.pow_add_r in K by lia. change (2 ^ 1) with 2 in K.
        assert (PS : 2 ^ k * 2 ^ (52 - k) = 4503599627370496) by (rewrite <- Z.pow_add_r by lia; replace (k + (52 - k)) with 52 by lia; reflexivity).
        assert (P2 : 0 < 2 ^ (52 - k)) by (apply Z.pow_pos_nonneg; lia).
        assert (F : 0 <= (f - 2 ^ k) * 2 ^ (52 - k) < 4503599627370496).
        { split; [apply Z.mul_nonneg_nonneg; lia|]. rewrite <- PS. apply Z.mul_lt_mono_pos_r; lia. }
        destruct (fields64 s (k + 874) _ Hs ltac:(lia) F) as (F1 & F2 & F3 & F4). split; [|exact F4]. split; [symmetry; exact F1|].
        unfold magnitude. rewrite F2, F3. change (2 ^ 11 - 1) with 2047. change (2 ^ (11 - 1) - 1) with 1023. change (2 ^ 52) with 4503599627370496.
        replace (k + 874 =? 2047) with false by lia. replace (k + 874 =? 0) with false by lia. change (0 <=? 1 - 127 - 23) with false. cbv iota.
        replace (0 <=? k + 874 - 1023 - 52) with false by lia. cbn [same_magnitude].
        split; [apply Z.pow_pos_nonneg; lia|]. split; [apply Z.pow_pos_nonneg; lia|].
        replace (2 ^ (- (k + 874 - 1023 - 52))) with (2 ^ (52 - k) * 2 ^ 149) by (rewrite <- Z.pow_add_r by lia; f_equal; lia). change (- (1 - 127 - 23)) with 149.
        rewrite <- PS. rewrite Z.mul_sub_distr_r. rewrite Z.sub_add, Z.mul_assoc. reflexivity.
    + assert (F : 0 <= f * 536870912 < 4503599627370496) by lia.
      destruct (fields64 s (e + 896) _ Hs ltac:(lia) F) as (F1 & F2 & F3 & F4). split; [|exact F4]. split; [symmetry; exact F1|].
      unfold magnitude. rewrite F2, F3. change (2 ^ 11 - 1) with 2047. change (2 ^ (11 - 1) - 1) with 1023. change (2 ^ 52) with 4503599627370496.
      replace (e + 896 =? 2047) with false by lia. replace (e + 896 =? 0) with false by lia. cbv iota.
      replace (e + 896 - 1023 - 52) with (e - 127 - 23 - 29) by lia.
      assert (P29 : 2 ^ 29 = 536870912) by reflexivity.
      replace (f * 536870912 + 4503599627370496) with ((f + 8388608) * 2 ^ 29) by lia.
      set (x := e - 127 - 23). set (m := f + 8388608).
      destruct (Z.leb_spec 0 x) as [X|X]; destruct (Z.leb_spec 0 (x - 29)) as [Y|Y]; try lia; cbn [same_magnitude].
      * split; [lia|]. split; [lia|]. rewrite !Z.mul_1_r, <- Z.mul_assoc, <- Z.pow_add_r by lia. do 2 f_equal. lia.
      * split; [lia|]. split; [apply Z.pow_pos_nonneg; lia|]. rewrite Z.mul_1_r, <- Z.mul_assoc, <- Z.pow_add_r by lia. do 2 f_equal. lia.
      * split; [apply Z.pow_pos_nonneg; lia|]. split; [apply Z.pow_pos_nonneg; lia|]. rewrite <- Z.mul_assoc, <- Z.pow_add_r by lia. do 2 f_equal. lia.
Qed.
