(** Facts about Base/Go.v. *)
From Verif Require Import Base.Go.
Ltac Zify.zify_post_hook ::= Z.div_mod_to_equations.

Lemma len_nil {A} : len (@nil A) = 0. Proof. reflexivity. Qed.
Lemma len_cons {A} (a : A) s : len (a :: s) = 1 + len s.
Proof. unfold len; cbn [length]; lia. Qed.
Lemma len_app {A} (a b : list A) : len (a ++ b) = len a + len b.
Proof. unfold len; rewrite app_length; lia. Qed.
Lemma len_nonneg {A} (s : list A) : 0 <= len s.
Proof. unfold len; lia. Qed.
Lemma len_zero {A} (s : list A) : len s = 0 -> s = [].
Proof. destruct s; [reflexivity | rewrite len_cons; pose proof (len_nonneg s); lia]. Qed.
Lemma len_repeat {A} (a : A) n : len (repeat a n) = Z.of_nat n.
Proof. unfold len; rewrite repeat_length; reflexivity. Qed.
Lemma len_map {A B} (f : A -> B) l : len (map f l) = len l.
Proof. unfold len; rewrite map_length; reflexivity. Qed.
Lemma len_rev {A} (l : list A) : len (rev l) = len l.
Proof. unfold len; rewrite rev_length; reflexivity. Qed.

Lemma u8_byte z : byte (u8 z).
Proof. unfold byte, u8; apply Z.mod_pos_bound; lia. Qed.
Lemma u8_id z : byte z -> u8 z = z.
Proof. unfold byte, u8; intros; apply Z.mod_small; lia. Qed.
Lemma u16_id z : 0 <= z < 65536 -> u16 z = z.
Proof. unfold u16; intros; apply Z.mod_small; lia. Qed.
Lemma u32_id z : 0 <= z < 4294967296 -> u32 z = z.
Proof. unfold u32; intros; apply Z.mod_small; lia. Qed.
Lemma u64_id z : 0 <= z < 18446744073709551616 -> u64 z = z.
Proof. unfold u64; intros; apply Z.mod_small; lia. Qed.
Lemma u8_range z : 0 <= u8 z < 256.
Proof. unfold u8; lia. Qed.
Lemma u32_range z : 0 <= u32 z < 4294967296.
Proof. unfold u32; lia. Qed.

Lemma is_bytes_app a b : is_bytes (a ++ b) <-> is_bytes a /\ is_bytes b.
Proof. unfold is_bytes; apply Forall_app. Qed.
Lemma is_bytes_be16 z : is_bytes (be16 z).
Proof. repeat constructor; apply u8_byte. Qed.
Lemma is_bytes_be24 z : is_bytes (be24 z).
Proof. repeat constructor; apply u8_byte. Qed.
Lemma is_bytes_be32 z : is_bytes (be32 z).
Proof. repeat constructor; apply u8_byte. Qed.
Lemma is_bytes_be64 z : is_bytes (be64 z).
Proof. unfold be64; apply is_bytes_app; split; apply is_bytes_be32. Qed.

Lemma be_val_16 a b : be_val [a; b] = a * 256 + b.
Proof. unfold be_val; cbn [fold_left]; lia. Qed.
Lemma be_val_24 a b c : be_val [a; b; c] = a * 65536 + b * 256 + c.
Proof. unfold be_val; cbn [fold_left]; lia. Qed.
Lemma be_val_32 a b c d : be_val [a; b; c; d] = a * 16777216 + b * 65536 + c * 256 + d.
Proof. unfold be_val; cbn [fold_left]; lia. Qed.

Lemma be_val_be16 z : be_val (be16 z) = z mod 65536.
Proof. unfold be16, u8; rewrite be_val_16; lia. Qed.
Lemma be_val_be24 z : be_val (be24 z) = z mod 16777216.
Proof. unfold be24, u8; rewrite be_val_24; lia. Qed.
Lemma be_val_be32 z : be_val (be32 z) = z mod 4294967296.
Proof. unfold be32, u8; rewrite be_val_32; lia. Qed.

Lemma be_val_app a b : be_val (a ++ b) = be_val a * 256 ^ len b + be_val b.
Proof.
  unfold be_val. rewrite fold_left_app. generalize (fold_left (fun a b => a * 256 + b) a 0).
  intros z. revert z. induction b as [|x b IH] using rev_ind; intros z.
  - cbn [fold_left]. rewrite len_nil. change (256 ^ 0) with 1. lia.
  - rewrite !fold_left_app. cbn [fold_left]. rewrite IH.
    rewrite len_app. change (len [x]) with 1. rewrite Z.pow_add_r; [|apply len_nonneg|lia].
    change (256 ^ 1) with 256. lia.
Qed.
Lemma be_val_be64 z : be_val (be64 z) = z mod 18446744073709551616.
Proof.
  unfold be64. rewrite be_val_app, !be_val_be32. change (256 ^ len (be32 z)) with 4294967296. lia.
Qed.
Lemma be_val_bound s : is_bytes s -> 0 <= be_val s < 256 ^ len s.
Proof.
  induction s as [|x s IH] using rev_ind; intros H.
  - cbv. split; congruence || reflexivity.
  - apply is_bytes_app in H. destruct H as [H1 H2]. inversion H2 as [|? ? Hx ?]; subst.
    specialize (IH H1). rewrite be_val_app, len_app. change (len [x]) with 1.
    rewrite Z.pow_add_r; [|apply len_nonneg|lia]. change (256 ^ 1) with 256.
    change (be_val [x]) with (0 * 256 + x). unfold byte in Hx. nia.
Qed.
Lemma len_be16 z : len (be16 z) = 2. Proof. reflexivity. Qed.
Lemma len_be24 z : len (be24 z) = 3. Proof. reflexivity. Qed.
Lemma len_be32 z : len (be32 z) = 4. Proof. reflexivity. Qed.
Lemma len_be64 z : len (be64 z) = 8. Proof. reflexivity. Qed.

(** Decoded big-endian values re-encode to the same bytes. *)
Lemma be16_val a b : byte a -> byte b -> be16 (a * 256 + b) = [a; b].
Proof. unfold byte, be16, u8; intros. repeat f_equal; lia. Qed.
Lemma be32_val a b c d : byte a -> byte b -> byte c -> byte d ->
  be32 (be_val [a; b; c; d]) = [a; b; c; d].
Proof. rewrite be_val_32. unfold byte, be32, u8; intros. repeat f_equal; lia. Qed.

(** Lists. *)
Lemma firstn_app_len {A} (a b : list A) : firstn (length a) (a ++ b) = a.
Proof. rewrite firstn_app, Nat.sub_diag, firstn_all. cbn. apply app_nil_r. Qed.
Lemma skipn_app_len {A} (a b : list A) : skipn (length a) (a ++ b) = b.
Proof. rewrite skipn_app, Nat.sub_diag, skipn_all. reflexivity. Qed.
Lemma drop_app (a b : bytes) : drop (a ++ b) (len a) = b.
Proof. unfold drop, len. rewrite Nat2Z.id. apply skipn_app_len. Qed.
Lemma take_app (a b : bytes) : take (a ++ b) (len a) = a.
Proof. unfold take, len. rewrite Nat2Z.id. apply firstn_app_len. Qed.
Lemma drop_0 s : drop s 0 = s. Proof. reflexivity. Qed.
Lemma take_drop s n : take s n ++ drop s n = s.
Proof. unfold take, drop. apply firstn_skipn. Qed.
Lemma len_drop s n : 0 <= n <= len s -> len (drop s n) = len s - n.
Proof. unfold len, drop. intros. rewrite skipn_length. lia. Qed.
Lemma len_take s n : 0 <= n <= len s -> len (take s n) = n.
Proof. unfold len, take. intros. rewrite firstn_length. lia. Qed.
Lemma is_bytes_drop s n : is_bytes s -> is_bytes (drop s n).
Proof.
  unfold is_bytes, drop. intros H. rewrite <- (firstn_skipn (Z.to_nat n) s) in H.
  apply Forall_app in H. tauto.
Qed.
Lemma is_bytes_take s n : is_bytes s -> is_bytes (take s n).
Proof.
  unfold is_bytes, take. intros H. rewrite <- (firstn_skipn (Z.to_nat n) s) in H.
  apply Forall_app in H. tauto.
Qed.

Lemma bytes_eqb_eq a b : bytes_eqb a b = true <-> a = b.
Proof.
  revert b; induction a as [|x a IH]; intros [|y b]; cbn [bytes_eqb]; split; intros H; try congruence.
  - apply andb_true_iff in H. destruct H as [H1 H2]. apply Z.eqb_eq in H1. apply IH in H2. congruence.
  - inversion H; subst. rewrite Z.eqb_refl. cbn. apply IH. reflexivity.
Qed.
Lemma bytes_eqb_refl a : bytes_eqb a a = true.
Proof. apply bytes_eqb_eq; reflexivity. Qed.
Lemma bytes_eqb_neq a b : bytes_eqb a b = false <-> a <> b.
Proof.
  split; intros H.
  - intros ->. rewrite bytes_eqb_refl in H. discriminate.
  - destruct (bytes_eqb a b) eqn:E; [apply bytes_eqb_eq in E; contradiction | reflexivity].
Qed.

(** Bit operations as arithmetic. *)
Lemma shiftr_div a n : 0 <= n -> Z.shiftr a n = a / 2 ^ n.
Proof. apply Z.shiftr_div_pow2. Qed.
Lemma shiftl_mul a n : 0 <= n -> Z.shiftl a n = a * 2 ^ n.
Proof. apply Z.shiftl_mul_pow2. Qed.
Lemma land_ones a n : 0 <= n -> Z.land a (2 ^ n - 1) = a mod 2 ^ n.
Proof. intros. rewrite <- Z.land_ones by assumption. f_equal. rewrite Z.ones_equiv. lia. Qed.

Lemma testbit_small a n m : 0 <= a < 2 ^ n -> n <= m -> Z.testbit a m = false.
Proof.
  intros H Hm. destruct (Z.eq_dec a 0) as [->|Ha]; [apply Z.bits_0|].
  apply Z.bits_above_log2; [lia|]. assert (Z.log2 a < n) by (apply Z.log2_lt_pow2; lia). lia.
Qed.
Lemma lor_disj a b n : 0 <= n -> 0 <= b < 2 ^ n -> Z.lor (a * 2 ^ n) b = a * 2 ^ n + b.
Proof.
  intros Hn Hb. rewrite <- Z.shiftl_mul_pow2 by assumption.
  assert (Hd : Z.land (Z.shiftl a n) b = 0).
  { apply Z.bits_inj'. intros m Hm. rewrite Z.land_spec, Z.bits_0.
    destruct (Z.lt_ge_cases m n) as [Hl|Hl].
    - rewrite Z.shiftl_spec_low by assumption. reflexivity.
    - rewrite (testbit_small b n m) by lia. apply andb_false_r. }
  rewrite <- Z.lxor_lor by assumption. symmetry. apply Z.add_nocarry_lxor. exact Hd.
Qed.
