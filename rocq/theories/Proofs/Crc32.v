(** Lemmas about crc32.go. *)
From Verif Require Import Base.Go Base.GoFacts Model.Crc32 Spec.Crc32.
Local Ltac Zify.zify_post_hook ::= Z.div_mod_to_equations.

(** The register without input. *)
Definition sh (r : Z) : Z := Z.lxor ((2 * r) mod 2 ^ 32) (if Z.testbit r 31 then poly else 0).
Fixpoint shn (n : nat) (r : Z) : Z := match n with O => r | S n => sh (shn n r) end.
Definition reg (r : Z) : Prop := 0 <= r < 2 ^ 32.

Lemma testbit_double r n : Z.testbit (2 * r) n = Z.testbit r (n - 1).
Proof.
  destruct (Z.lt_trichotomy n 0) as [H|[->|H]].
  - rewrite !Z.testbit_neg_r by lia. reflexivity.
  - rewrite Z.testbit_even_0, Z.testbit_neg_r by lia. reflexivity.
  - replace n with (Z.succ (n - 1)) at 1 by lia. apply Z.testbit_even_succ. lia.
Qed.
Lemma testbit_mod r n : Z.testbit (r mod 2 ^ 32) n = if n <? 32 then Z.testbit r n else false.
Proof.
  destruct (Z.ltb_spec n 32) as [H|H].
  - apply Z.mod_pow2_bits_low. lia.
  - apply Z.mod_pow2_bits_high. lia.
Qed.
Lemma sh_lin a b : sh (Z.lxor a b) = Z.lxor (sh a) (sh b).
Proof.
  apply Z.bits_inj'. intros n Hn. unfold sh. rewrite !Z.lxor_spec, !testbit_mod, !testbit_double, !Z.lxor_spec.
  destruct (n <? 32); destruct (Z.testbit a 31), (Z.testbit b 31); cbn [xorb]; rewrite ?Z.bits_0;
    destruct (Z.testbit a (n - 1)), (Z.testbit b (n - 1)), (Z.testbit poly n); reflexivity.
Qed.
Lemma shn_lin n : forall a b, shn n (Z.lxor a b) = Z.lxor (shn n a) (shn n b).
Proof. induction n as [|n IH]; intros a b; cbn [shn]; [reflexivity|]. rewrite IH. apply sh_lin. Qed.

Lemma reg_bits r : 0 <= r -> (forall n, 32 <= n -> Z.testbit r n = false) -> reg r.
Proof.
  intros H0 H. split; [exact H0|]. destruct (Z.eq_dec r 0) as [->|Hr]; [reflexivity|].
  apply Z.log2_lt_pow2; [lia|]. destruct (Z_lt_dec (Z.log2 r) 32) as [|HL]; [assumption|].
  assert (Z.testbit r (Z.log2 r) = true) by (apply Z.bit_log2; lia). rewrite H in *; [discriminate|lia].
Qed.
Lemma reg_testbit r n : reg r -> 32 <= n -> Z.testbit r n = false.
Proof. intros H Hn. apply (testbit_small r 32); [exact H|exact Hn]. Qed.
Lemma reg_lxor a b : reg a -> reg b -> reg (Z.lxor a b).
Proof.
  intros Ha Hb. apply reg_bits; [apply Z.lxor_nonneg; unfold reg in *; lia|]. intros n Hn. rewrite Z.lxor_spec, !(reg_testbit _ n) by assumption. reflexivity.
Qed.
Lemma reg_poly : reg poly. Proof. split; [vm_compute; discriminate|vm_compute; reflexivity]. Qed.
Lemma reg_sh r : reg (sh r).
Proof. unfold sh. apply reg_lxor; [unfold reg; lia|]. destruct (Z.testbit r 31); [exact reg_poly|unfold reg; lia]. Qed.
Lemma reg_shn n r : reg r -> reg (shn n r).
Proof. destruct n; [auto|]. intros _. cbn [shn]. apply reg_sh. Qed.

(** An input bit is xored into the top of the register. *)
Lemma bit_step_sh r b : bit_step r b = sh (Z.lxor r (if b then 2 ^ 31 else 0)).
Proof.
  destruct b.
  - rewrite sh_lin. change (sh (2 ^ 31)) with poly. unfold bit_step, sh. rewrite xorb_true_r.
    destruct (Z.testbit r 31); cbn [negb]; [|rewrite Z.lxor_0_r; reflexivity].
    rewrite Z.lxor_assoc, Z.lxor_nilpotent, Z.lxor_0_r. reflexivity.
  - rewrite Z.lxor_0_r. unfold bit_step, sh. rewrite xorb_false_r. destruct (Z.testbit r 31); [reflexivity|]. rewrite Z.lxor_0_r. reflexivity.
Qed.
Lemma reg_bit_step r b : reg (bit_step r b). Proof. rewrite bit_step_sh. apply reg_sh. Qed.
Lemma reg_fold bits : forall r, reg r -> reg (fold_left bit_step bits r).
Proof. induction bits as [|b bits IH]; intros r Hr; cbn [fold_left]; [exact Hr|]. apply IH, reg_bit_step. Qed.

(** Shifting without overflow. *)
Lemma sh_small x : 0 <= x < 2 ^ 31 -> sh x = 2 * x.
Proof.
  intros H. unfold sh. rewrite (testbit_small x 31 31) by lia. rewrite Z.lxor_0_r. apply Z.mod_small.
  change (2 ^ 31) with 2147483648 in H. change (2 ^ 32) with 4294967296. lia.
Qed.
Lemma shn_small n : forall x, 0 <= x -> x * 2 ^ Z.of_nat n < 2 ^ 32 -> shn n x = x * 2 ^ Z.of_nat n.
Proof.
  induction n as [|n IH]; intros x H0 H; [cbn; rewrite Z.mul_1_r; reflexivity|].
  cbn [shn]. rewrite Nat2Z.inj_succ, Z.pow_succ_r in * by lia.
  rewrite IH; [|lia|lia]. rewrite sh_small; [lia|]. change (2 ^ 32) with (2 * 2 ^ 31) in H. lia.
Qed.

(** The value of a bit string. *)
Definition bval (bits : list bool) : Z := fold_left (fun a b => 2 * a + Z.b2z b) bits 0.
Lemma bval_snoc l b : bval (l ++ [b]) = 2 * bval l + Z.b2z b.
Proof. unfold bval. rewrite fold_left_app. reflexivity. Qed.
Lemma bval_bound l : 0 <= bval l < 2 ^ len l.
Proof.
  induction l as [|b l IH] using rev_ind; [split; [discriminate|reflexivity]|]. rewrite bval_snoc, len_app. change (len [b]) with 1.
  rewrite Z.pow_add_r by (pose proof (len_nonneg l); lia). destruct b; cbn [Z.b2z]; lia.
Qed.
Lemma lxor_disj a b n : 0 <= n -> 0 <= b < 2 ^ n -> Z.lxor (a * 2 ^ n) b = a * 2 ^ n + b.
Proof.
  intros Hn Hb. symmetry. apply Z.add_nocarry_lxor. apply Z.bits_inj'. intros m Hm. rewrite Z.land_spec, Z.bits_0, <- Z.shiftl_mul_pow2, Z.shiftl_spec by lia.
  destruct (Z_lt_dec m n) as [H|H].
  - rewrite Z.testbit_neg_r by lia. reflexivity.
  - rewrite (testbit_small b n m) by lia. apply andb_false_r.
Qed.

(** Up to 32 input bits at once. *)
Lemma fold_bits bits : forall r, (length bits <= 32)%nat ->
  fold_left bit_step bits r = shn (length bits) (Z.lxor r (bval bits * 2 ^ (32 - len bits))).
Proof.
  induction bits as [|b l IH] using rev_ind; intros r HL.
  - cbn [fold_left length shn]. change (bval []) with 0. rewrite Z.mul_0_l, Z.lxor_0_r. reflexivity.
  - rewrite app_length in *. cbn [length] in *. rewrite fold_left_app. cbn [fold_left]. rewrite IH by lia. rewrite bit_step_sh.
    rewrite Nat.add_1_r. cbn [shn]. f_equal.
    assert (E : (if b then 2 ^ 31 else 0) = shn (length l) (Z.b2z b * 2 ^ (31 - len l))).
    { unfold len. assert (E2 : Z.b2z b * 2 ^ (31 - Z.of_nat (length l)) * 2 ^ Z.of_nat (length l) = Z.b2z b * 2 ^ 31).
      { rewrite <- Z.mul_assoc, <- Z.pow_add_r by lia. f_equal. f_equal. lia. }
      rewrite shn_small.
      - rewrite E2. destruct b; reflexivity.
      - apply Z.mul_nonneg_nonneg; [destruct b; cbn; lia|apply Z.pow_nonneg; lia].
      - rewrite E2. destruct b; cbn; lia. }
    rewrite E, <- shn_lin. f_equal. rewrite Z.lxor_assoc. f_equal. rewrite bval_snoc, len_app. change (len [b]) with 1.
    replace (32 - (len l + 1)) with (31 - len l) by lia. unfold len in *.
    replace (32 - Z.of_nat (length l)) with (1 + (31 - Z.of_nat (length l))) by lia. rewrite Z.pow_add_r by lia. change (2 ^ 1) with 2.
    rewrite Z.mul_assoc. set (k := 31 - Z.of_nat (length l)).
    replace (bval l * 2 * 2 ^ k) with (bval l * 2 ^ (k + 1)) by (rewrite Z.pow_add_r by lia; change (2 ^ 1) with 2; lia).
    rewrite lxor_disj; [|lia|]. { rewrite Z.pow_add_r by lia. change (2 ^ 1) with 2. lia. }
    assert (0 < 2 ^ k) by (apply Z.pow_pos_nonneg; lia). rewrite Z.pow_add_r by lia. change (2 ^ 1) with 2. destruct b; cbn [Z.b2z]; lia.
Qed.

(** ** The table *)
Lemma table_sweep : forallb (fun j => shn 8 (Z.of_nat j * 2 ^ 24) =? nth j crc_table 0) (seq 0 256) = true.
Proof. vm_compute. reflexivity. Qed.
Lemma table_entry j : byte j -> nth (Z.to_nat j) crc_table 0 = shn 8 (j * 2 ^ 24).
Proof.
  intros H. pose proof table_sweep as HS. rewrite forallb_forall in HS. specialize (HS (Z.to_nat j)).
  rewrite in_seq in HS. unfold byte in H. specialize (HS ltac:(lia)). rewrite Z2Nat.id in HS by lia. lia.
Qed.
Lemma bval_byte b : byte b -> bval (bits_of_byte b) = b.
Proof.
  intros H. assert (HS : forallb (fun j => bval (bits_of_byte (Z.of_nat j)) =? Z.of_nat j) (seq 0 256) = true) by (vm_compute; reflexivity).
  rewrite forallb_forall in HS. specialize (HS (Z.to_nat b)). rewrite in_seq in HS. unfold byte in H. specialize (HS ltac:(lia)). rewrite Z2Nat.id in HS by lia. lia.
Qed.
Lemma byte_testbit b n : byte b -> 8 <= n -> Z.testbit b n = false.
Proof. intros H Hn. apply (testbit_small b 8); [exact H|exact Hn]. Qed.
Lemma byte_lxor a b : byte a -> byte b -> byte (Z.lxor a b).
Proof.
  intros Ha Hb. unfold byte. change 256 with (2 ^ 8). pose proof Ha as Ha'. pose proof Hb as Hb'. unfold byte in Ha', Hb'.
  assert (H0 : 0 <= Z.lxor a b) by (apply Z.lxor_nonneg; lia). split; [exact H0|].
  destruct (Z.eq_dec (Z.lxor a b) 0) as [->|Hr]; [reflexivity|]. apply Z.log2_lt_pow2; [lia|].
  destruct (Z_lt_dec (Z.log2 (Z.lxor a b)) 8) as [|HL]; [assumption|].
  assert (HT : Z.testbit (Z.lxor a b) (Z.log2 (Z.lxor a b)) = true) by (apply Z.bit_log2; lia).
  rewrite Z.lxor_spec, !byte_testbit in HT by (assumption || lia). discriminate.
Qed.

Lemma crc_step_bits r b : reg r -> byte b -> crc_step r b = fold_left bit_step (bits_of_byte b) r.
Proof.
  intros Hr Hb. rewrite fold_bits by (cbn; lia). change (length (bits_of_byte b)) with 8%nat. change (32 - len (bits_of_byte b)) with 24.
  rewrite bval_byte by exact Hb. unfold crc_step. unfold reg in Hr. change (2 ^ 32) with 4294967296 in Hr.
  rewrite shiftr_div, shiftl_mul by lia. change (2 ^ 24) with 16777216. change (2 ^ 8) with 256. unfold u8, u32.
  assert (Hq : byte (r / 16777216)) by (unfold byte; lia). rewrite (Z.mod_small (r / 16777216)) by (unfold byte in Hq; lia).
  assert (Hj : byte (Z.lxor (r / 16777216) b)) by (apply byte_lxor; assumption).
  change 255 with (2 ^ 8 - 1). rewrite land_ones by lia. change (2 ^ 8) with 256. rewrite (Z.mod_small (Z.lxor _ b)) by exact Hj.
  rewrite table_entry by exact Hj.
  assert (E : Z.lxor r (b * 16777216) = Z.lxor (r mod 16777216) (Z.lxor (r / 16777216) b * 2 ^ 24)).
  { rewrite (Z.div_mod r 16777216) at 1 by lia. rewrite (Z.mul_comm 16777216). change 16777216 with (2 ^ 24).
    rewrite <- lxor_disj by lia. rewrite <- !Z.shiftl_mul_pow2 by lia.
    rewrite Z.shiftl_lxor. rewrite (Z.lxor_comm (Z.shiftl (r / 2 ^ 24) 24)), Z.lxor_assoc. reflexivity. }
  rewrite E, shn_lin. f_equal. rewrite shn_small; change (Z.of_nat 8) with 8; change (2 ^ 8) with 256; change (2 ^ 32) with 4294967296; lia.
Qed.
Lemma crc_fold s : forall r, reg r -> is_bytes s -> fold_left crc_step s r = fold_left bit_step (bits_of s) r.
Proof.
  induction s as [|b s IH]; intros r Hr HB; [reflexivity|]. inversion HB as [|? ? B1 B2]; subst. unfold bits_of. cbn [fold_left flat_map].
  rewrite fold_left_app, <- crc_step_bits by assumption. apply IH; [|exact B2]. rewrite crc_step_bits by assumption. apply reg_fold, Hr.
Qed.

(** ** Injectivity *)
Lemma sh_inj a b : reg a -> reg b -> sh a = sh b -> a = b.
Proof.
  intros Ha Hb E.
  assert (H31 : Z.testbit a 31 = Z.testbit b 31).
  { apply (f_equal (fun x => Z.testbit x 0)) in E. unfold sh in E. rewrite !Z.lxor_spec, !testbit_mod, !testbit_double in E.
    change (0 <? 32) with true in E. cbv iota in E. rewrite !(Z.testbit_neg_r _ (0 - 1)) in E by lia.
    destruct (Z.testbit a 31), (Z.testbit b 31); cbn in E; try reflexivity; discriminate. }
  unfold sh in E. rewrite H31 in E. set (c := if Z.testbit b 31 then poly else 0) in E.
  assert (E2 : (2 * a) mod 2 ^ 32 = (2 * b) mod 2 ^ 32).
  { rewrite <- (Z.lxor_0_r ((2 * a) mod _)), <- (Z.lxor_nilpotent c), <- Z.lxor_assoc, E, Z.lxor_assoc, Z.lxor_nilpotent, Z.lxor_0_r. reflexivity. }
  apply Z.bits_inj'. intros n Hn. destruct (Z_lt_dec n 31) as [H|H].
  - apply (f_equal (fun x => Z.testbit x (n + 1))) in E2. rewrite !testbit_mod, !testbit_double in E2. replace (n + 1 <? 32) with true in E2 by lia.
    replace (n + 1 - 1) with n in E2 by lia. exact E2.
  - destruct (Z.eq_dec n 31) as [->|H']; [exact H31|]. rewrite !reg_testbit by (assumption || lia). reflexivity.
Qed.
Lemma shn_inj n : forall a b, reg a -> reg b -> shn n a = shn n b -> a = b.
Proof.
  induction n as [|n IH]; intros a b Ha Hb E; [exact E|]. cbn [shn] in E. apply IH; [exact Ha|exact Hb|].
  apply sh_inj; [apply reg_shn, Ha|apply reg_shn, Hb|exact E].
Qed.
Lemma bval_inj l1 : forall l2, length l1 = length l2 -> bval l1 = bval l2 -> l1 = l2.
Proof.
  induction l1 as [|a l1 IH] using rev_ind; intros l2 HL E; [destruct l2; [reflexivity|discriminate]|].
  destruct (exists_last (l := l2)) as (l2' & b & ->); [intros ->; rewrite app_length in HL; cbn in HL; lia|].
  rewrite !app_length in HL. cbn in HL. rewrite !bval_snoc in E. assert (a = b) as -> by (destruct a, b; cbn in E; try reflexivity; lia).
  f_equal. apply IH; lia.
Qed.
Lemma lxor_cancel r x y : Z.lxor r x = Z.lxor r y -> x = y.
Proof. intros E. rewrite <- (Z.lxor_0_l x), <- (Z.lxor_nilpotent r), Z.lxor_assoc, E, <- Z.lxor_assoc, Z.lxor_nilpotent, Z.lxor_0_l. reflexivity. Qed.
Lemma reg_window w : (length w <= 32)%nat -> reg (bval w * 2 ^ (32 - len w)).
Proof.
  intros H. pose proof (bval_bound w) as HB. unfold reg. unfold len in *. assert (HP : 0 < 2 ^ (32 - Z.of_nat (length w))) by (apply Z.pow_pos_nonneg; lia).
  assert (EP : 2 ^ Z.of_nat (length w) * 2 ^ (32 - Z.of_nat (length w)) = 2 ^ 32) by (rewrite <- Z.pow_add_r by lia; f_equal; lia).
  split; [apply Z.mul_nonneg_nonneg; lia|]. rewrite <- EP. apply Z.mul_lt_mono_pos_r; lia.
Qed.
Lemma window_inj r w1 w2 : reg r -> length w1 = length w2 -> (length w1 <= 32)%nat ->
  fold_left bit_step w1 r = fold_left bit_step w2 r -> w1 = w2.
Proof.
  intros Hr HL H32 E. rewrite !fold_bits in E by lia. rewrite <- HL in E. unfold len in E. rewrite <- HL in E.
  apply shn_inj in E.
  - apply lxor_cancel in E. apply bval_inj; [exact HL|]. apply Z.mul_cancel_r in E; [exact E|]. apply Z.pow_nonzero; lia.
  - apply reg_lxor; [exact Hr|]. apply reg_window. lia.
  - apply reg_lxor; [exact Hr|]. rewrite HL. apply (reg_window w2). lia.
Qed.
Lemma post_inj post : forall r1 r2, reg r1 -> reg r2 -> fold_left bit_step post r1 = fold_left bit_step post r2 -> r1 = r2.
Proof.
  induction post as [|b post IH]; intros r1 r2 H1 H2 E; [exact E|]. cbn [fold_left] in E.
  apply IH in E; [|apply reg_bit_step|apply reg_bit_step]. rewrite !bit_step_sh in E.
  assert (HT : reg (if b then 2 ^ 31 else 0)) by (destruct b; unfold reg; cbn; lia).
  apply sh_inj in E; [|apply reg_lxor; assumption|apply reg_lxor; assumption].
  rewrite (Z.lxor_comm r1), (Z.lxor_comm r2) in E. apply lxor_cancel in E. exact E.
Qed.
Lemma reg_crc s : is_bytes s -> reg (generate_crc32 s).
Proof.
  intros H. unfold generate_crc32. assert (H0 : reg 4294967295) by (unfold reg; cbn; lia). rewrite crc_fold by assumption. apply reg_fold, H0.
Qed.

(** ** Residue *)
Lemma crc_step_top r : reg r -> crc_step r (u8 (r / 16777216)) = u32 (r * 256).
Proof.
  intros Hr. unfold crc_step. rewrite shiftr_div, shiftl_mul by lia. change (2 ^ 24) with 16777216. change (2 ^ 8) with 256.
  rewrite Z.lxor_nilpotent, Z.land_0_l. change (nth (Z.to_nat 0) crc_table 0) with 0. apply Z.lxor_0_r.
Qed.
Lemma residue r : reg r -> fold_left crc_step (be32 r) r = 0.
Proof.
  intros Hr. pose proof Hr as H. unfold reg in H. change (2 ^ 32) with 4294967296 in H. unfold be32. cbn [fold_left].
  assert (R : forall x, reg (u32 x)) by (intros x; unfold reg, u32; change (2 ^ 32) with 4294967296; lia).
  rewrite crc_step_top by exact Hr.
  replace (u8 (r / 65536)) with (u8 (u32 (r * 256) / 16777216)) by (unfold u8, u32; lia). rewrite crc_step_top by apply R.
  replace (u8 (r / 256)) with (u8 (u32 (u32 (r * 256) * 256) / 16777216)) by (unfold u8, u32; lia). rewrite crc_step_top by apply R.
  replace (u8 r) with (u8 (u32 (u32 (u32 (r * 256) * 256) * 256) / 16777216)) by (unfold u8, u32; lia). rewrite crc_step_top by apply R.
  unfold u32. lia.
Qed.
