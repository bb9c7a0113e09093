(** Facts about the Go string functions of Base/Text.v. *)
From Coq Require Import Permutation.
From Verif Require Import Base.Go Base.GoFacts Base.Text.
Local Ltac Zify.zify_post_hook ::= Z.div_mod_to_equations.

Definition ascii (c : Z) : Prop := 0 <= c < 128.

Lemma btw_spec a x b : btw a x b = true <-> a <= x <= b.
Proof. unfold btw. lia. Qed.
Lemma btw_false a x b : btw a x b = false <-> ~ (a <= x <= b).
Proof. unfold btw. lia. Qed.

(** * Decoding *)
Lemma decode_ascii_app a b : Forall ascii a -> decode_runes (a ++ b) = map (fun c => (c, [c])) a ++ decode_runes b.
Proof.
  induction 1 as [|c a Hc Ha IH]; [reflexivity|]. cbn [app decode_runes map]. unfold ascii in Hc.
  replace (c <? 128) with true by lia. now rewrite IH.
Qed.
Lemma decode_ascii a : Forall ascii a -> decode_runes a = map (fun c => (c, [c])) a.
Proof. intros H. rewrite <- (app_nil_r a) at 1. rewrite decode_ascii_app by assumption. apply app_nil_r. Qed.
Lemma runes_ascii_app a b : Forall ascii a -> runes (a ++ b) = a ++ runes b.
Proof.
  intros H. unfold runes. rewrite decode_ascii_app by assumption. rewrite map_app, map_map. cbn [fst]. now rewrite map_id.
Qed.
Lemma runes_ascii a : Forall ascii a -> runes a = a.
Proof. intros H. rewrite <- (app_nil_r a) at 1. rewrite runes_ascii_app by assumption. apply app_nil_r. Qed.
Lemma encode_ascii a : Forall ascii a -> encode_runes a = a.
Proof.
  unfold encode_runes. induction 1 as [|c a Hc Ha IH]; [reflexivity|]. cbn [flat_map]. rewrite IH.
  unfold encode_rune. unfold ascii in Hc. replace (c <? 128) with true by lia. reflexivity.
Qed.

(** Strong induction along the decoder. *)
Lemma decode_ind (P : bytes -> Prop) :
  (forall s, (forall t, (length t < length s)%nat -> P t) -> P s) -> forall s, P s.
Proof.
  intros H s. assert (G : forall n t, (length t < n)%nat -> P t).
  { induction n as [|n IH]; intros t Ht; [lia|]. apply H. intros u Hu. apply IH. lia. }
  apply (G (S (length s))). lia.
Qed.

Inductive decoded : bytes -> list (Z * bytes) -> Prop :=
| D_nil : decoded [] []
| D_ascii b t l : b < 128 -> decoded t l -> decoded (b :: t) ((b, [b]) :: l)
| D_bad b t l : 128 <= b -> decoded t l -> decoded (b :: t) ((rune_error, [b]) :: l)
| D_2 b0 b1 t l : 194 <= b0 <= 223 -> 128 <= b1 <= 191 -> decoded t l ->
    decoded (b0 :: b1 :: t) (((b0 - 192) * 64 + (b1 - 128), [b0; b1]) :: l)
| D_3 b0 b1 b2 t l : 224 <= b0 <= 239 -> second_ok b0 b1 = true -> 128 <= b2 <= 191 -> decoded t l ->
    decoded (b0 :: b1 :: b2 :: t) (((b0 - 224) * 4096 + (b1 - 128) * 64 + (b2 - 128), [b0; b1; b2]) :: l)
| D_4 b0 b1 b2 b3 t l : 240 <= b0 <= 244 -> second_ok b0 b1 = true -> 128 <= b2 <= 191 -> 128 <= b3 <= 191 -> decoded t l ->
    decoded (b0 :: b1 :: b2 :: b3 :: t)
      (((b0 - 240) * 262144 + (b1 - 128) * 4096 + (b2 - 128) * 64 + (b3 - 128), [b0; b1; b2; b3]) :: l).

Lemma second_ok_range b0 b1 : second_ok b0 b1 = true -> 128 <= b1 <= 191.
Proof.
  unfold second_ok. destruct (b0 =? 224); [|destruct (b0 =? 237); [|destruct (b0 =? 240); [|destruct (b0 =? 244)]]]; intros H; apply btw_spec in H; lia.
Qed.

Lemma decode_decoded s : decoded s (decode_runes s).
Proof.
  induction s as [s IH] using decode_ind. destruct s as [|b0 t]; [constructor|].
  cbn [decode_runes]. destruct (b0 <? 128) eqn:E0.
  { constructor; [lia|]. apply IH. cbn; lia. }
  destruct (btw 194 b0 223) eqn:E1.
  { apply btw_spec in E1. destruct t as [|b1 t1]; [apply D_bad; [lia|constructor]|].
    destruct (btw 128 b1 191) eqn:E2; [apply btw_spec in E2; apply D_2; auto; apply IH; cbn; lia|].
    apply D_bad; [lia|]. apply IH. cbn; lia. }
  destruct (btw 224 b0 239) eqn:E3.
  { apply btw_spec in E3. destruct t as [|b1 [|b2 t2]].
    - apply D_bad; [lia|]. apply IH. cbn; lia.
    - apply D_bad; [lia|]. apply IH. cbn; lia.
    - destruct (second_ok b0 b1) eqn:E4; cbn [andb].
      + destruct (btw 128 b2 191) eqn:E5; [apply btw_spec in E5; apply D_3; auto; apply IH; cbn; lia|].
        apply D_bad; [lia|]. apply IH. cbn; lia.
      + apply D_bad; [lia|]. apply IH. cbn; lia. }
  destruct (btw 240 b0 244) eqn:E6.
  { apply btw_spec in E6. destruct t as [|b1 [|b2 [|b3 t3]]].
    1-3: apply D_bad; [lia|]; apply IH; cbn; lia.
    destruct (second_ok b0 b1) eqn:E4; cbn [andb].
    - destruct (btw 128 b2 191) eqn:E5; cbn [andb].
      + destruct (btw 128 b3 191) eqn:E7.
        * apply btw_spec in E5, E7. apply D_4; auto. apply IH. cbn; lia.
        * apply D_bad; [lia|]. apply IH. cbn; lia.
      + apply D_bad; [lia|]. apply IH. cbn; lia.
    - apply D_bad; [lia|]. apply IH. cbn; lia. }
  apply D_bad; [lia|]. apply IH. cbn; lia.
Qed.

Lemma decode_source s : flat_map snd (decode_runes s) = s.
Proof. induction (decode_decoded s); cbn [flat_map snd app]; try rewrite IHd; reflexivity. Qed.

(** ASCII letters may change case without changing how the rest is decoded. *)
Definition fold_byte (x : Z) : Z := if btw 65 x 90 then x + 32 else x.
Lemma fold_high x : 128 <= x -> fold_byte x = x.
Proof. intros H. unfold fold_byte. replace (btw 65 x 90) with false; [reflexivity|]. symmetry. apply btw_false. lia. Qed.
Lemma fold_low x : x < 128 <-> fold_byte x < 128.
Proof. unfold fold_byte, btw. destruct (_ && _) eqn:E; lia. Qed.
Lemma btw_fold a x b : 128 <= a -> btw a (fold_byte x) b = btw a x b.
Proof.
  intros H. unfold fold_byte. destruct (btw 65 x 90) eqn:E; [|reflexivity]. unfold btw in *. lia.
Qed.
Lemma eqb_fold a x : 128 <= a -> (fold_byte x =? a) = (x =? a).
Proof. intros H. unfold fold_byte. destruct (btw 65 x 90) eqn:E; [|reflexivity]. unfold btw in *. lia. Qed.
Lemma second_ok_fold b0 b1 : second_ok (fold_byte b0) (fold_byte b1) = second_ok b0 b1.
Proof. unfold second_ok. rewrite !eqb_fold, !btw_fold by lia. reflexivity. Qed.
Lemma fold_lt x : (fold_byte x <? 128) = (x <? 128).
Proof. pose proof (fold_low x). lia. Qed.

Lemma decode_fold s : decode_runes (map fold_byte s) = map (fun p => (fold_byte (fst p), map fold_byte (snd p))) (decode_runes s).
Proof.
  assert (Hre : fold_byte rune_error = rune_error) by reflexivity.
  induction s as [s IH] using decode_ind. destruct s as [|b0 t]; [reflexivity|].
  assert (Hbad : (rune_error, [fold_byte b0]) :: decode_runes (map fold_byte t)
    = map (fun p => (fold_byte (fst p), map fold_byte (snd p))) ((rune_error, [b0]) :: decode_runes t)).
  { cbn [map fst snd]. rewrite Hre, (IH t) by (cbn; lia). reflexivity. }
  cbn [map decode_runes]. rewrite fold_lt, !(btw_fold 194), !(btw_fold 224), !(btw_fold 240) by lia.
  destruct (b0 <? 128) eqn:E0; [cbn [map fst snd]; rewrite (IH t) by (cbn; lia); reflexivity|].
  destruct (btw 194 b0 223) eqn:E1.
  { destruct t as [|b1 t1]; [reflexivity|]. cbn [map]. rewrite (btw_fold 128) by lia.
    destruct (btw 128 b1 191) eqn:E2; [|exact Hbad].
    apply btw_spec in E1, E2. cbn [map fst snd]. rewrite (IH t1) by (cbn; lia). rewrite !fold_high by lia. reflexivity. }
  destruct (btw 224 b0 239) eqn:E3.
  { destruct t as [|b1 [|b2 t2]]; [exact Hbad|exact Hbad|]. cbn [map]. rewrite second_ok_fold, (btw_fold 128) by lia.
    destruct (second_ok b0 b1 && btw 128 b2 191) eqn:E4; [|exact Hbad].
    apply andb_prop in E4. destruct E4 as [E4 E5]. pose proof (second_ok_range _ _ E4) as R. apply btw_spec in E3, E5.
    cbn [map fst snd]. rewrite (IH t2) by (cbn; lia). rewrite !(fold_high b0), !(fold_high b1), !(fold_high b2) by lia. rewrite fold_high; [reflexivity|].
    unfold second_ok in E4. destruct (b0 =? 224) eqn:Q; unfold btw in E4; lia. }
  destruct (btw 240 b0 244) eqn:E6.
  { destruct t as [|b1 [|b2 [|b3 t3]]]; [exact Hbad|exact Hbad|exact Hbad|]. cbn [map]. rewrite second_ok_fold, !(btw_fold 128) by lia.
    destruct (second_ok b0 b1 && btw 128 b2 191 && btw 128 b3 191) eqn:E4; [|exact Hbad].
    apply andb_prop in E4. destruct E4 as [E4 E7]. apply andb_prop in E4. destruct E4 as [E4 E5]. pose proof (second_ok_range _ _ E4) as R. apply btw_spec in E6, E5, E7.
    cbn [map fst snd]. rewrite (IH t3) by (cbn; lia). rewrite !(fold_high b0), !(fold_high b1), !(fold_high b2), !(fold_high b3) by lia. rewrite fold_high; [reflexivity|].
    unfold second_ok in E4. destruct (b0 =? 240) eqn:Q; [|lia]. apply Z.eqb_eq in Q. subst b0. cbn in E4. unfold btw in E4. lia. }
  exact Hbad.
Qed.

Lemma lower_fold r : lower_rune (fold_byte r) = lower_rune r.
Proof.
  unfold lower_rune, fold_byte. destruct (btw 65 r 90) eqn:E; [|rewrite E; reflexivity].
  apply btw_spec in E. replace (btw 65 (r + 32) 90) with false by (symmetry; apply btw_false; lia).
  replace (r + 32 =? 304) with false by lia. replace (r + 32 =? 8490) with false by lia. reflexivity.
Qed.
Lemma to_lower_fold s : to_lower (map fold_byte s) = to_lower s.
Proof.
  unfold to_lower, runes. rewrite decode_fold, !map_map. f_equal. apply map_ext. intros [r b]. cbn [fst]. apply lower_fold.
Qed.
Lemma upper_fold r : upper_rune (fold_byte r) = upper_rune r.
Proof.
  unfold upper_rune, fold_byte. destruct (btw 65 r 90) eqn:E; [|reflexivity].
  apply btw_spec in E. replace (btw 97 (r + 32) 122) with true by (symmetry; apply btw_spec; lia).
  replace (btw 97 r 122) with false by (symmetry; apply btw_false; lia).
  replace (r =? 305) with false by lia. replace (r =? 383) with false by lia. lia.
Qed.
Lemma to_upper_fold s : to_upper (map fold_byte s) = to_upper s.
Proof.
  unfold to_upper, runes. rewrite decode_fold, !map_map. f_equal. apply map_ext. intros [r b]. cbn [fst]. apply upper_fold.
Qed.
Lemma to_lower_ascii s : Forall ascii s -> to_lower s = map lower_rune s.
Proof.
  intros H. unfold to_lower. rewrite runes_ascii by assumption. apply encode_ascii. rewrite Forall_map. eapply Forall_impl; [|exact H].
  intros c Hc. unfold ascii in *. unfold lower_rune. destruct (btw 65 c 90) eqn:E; [apply btw_spec in E; lia|]. destruct (c =? 304); [lia|]. destruct (c =? 8490); lia.
Qed.
Lemma to_upper_ascii s : Forall ascii s -> to_upper s = map upper_rune s.
Proof.
  intros H. unfold to_upper. rewrite runes_ascii by assumption. apply encode_ascii. rewrite Forall_map. eapply Forall_impl; [|exact H].
  intros c Hc. unfold ascii in *. unfold upper_rune. destruct (btw 97 c 122) eqn:E; [apply btw_spec in E; lia|]. destruct (c =? 305); [lia|]. destruct (c =? 383); lia.
Qed.

(** * Trimming *)
Lemma drop_while_app {A} (p : A -> bool) l r : Forall (fun x => p x = true) l -> drop_while p (l ++ r) = drop_while p r.
Proof. induction 1 as [|x l Hx Hl IH]; [reflexivity|]. cbn [app drop_while]. now rewrite Hx. Qed.
Lemma drop_while_head {A} (p : A -> bool) x l : p x = false -> drop_while p (x :: l) = x :: l.
Proof. intros H. cbn. now rewrite H. Qed.
(** A list whose ends are not trimmed. *)
Definition solid {A} (p : A -> bool) (l : list A) : Prop :=
  match l with [] => True | x :: _ => p x = false /\ p (last l x) = false end.
Lemma last_rev_head {A} (x : A) l d : exists t, rev (x :: l) = last (x :: l) d :: t.
Proof.
  assert (G : x :: l <> []) by discriminate. destruct (exists_last G) as [t [y E]]. rewrite E. rewrite rev_app_distr, last_last. cbn. eauto.
Qed.
Lemma trim_by_wrap {A} (p : A -> bool) a l b :
  Forall (fun x => p x = true) a -> Forall (fun x => p x = true) b -> solid p l -> trim_by p (a ++ l ++ b) = l.
Proof.
  intros Ha Hb Hs. unfold trim_by. rewrite drop_while_app by assumption.
  destruct l as [|x l].
  - cbn [app]. replace (drop_while p b) with (@nil A); [reflexivity|]. rewrite <- (app_nil_r b), drop_while_app by assumption. reflexivity.
  - destruct Hs as [Hx Hl]. cbn [app]. rewrite drop_while_head by assumption. change (x :: l ++ b) with ((x :: l) ++ b).
    rewrite rev_app_distr, drop_while_app by (apply Forall_rev; assumption).
    destruct (last_rev_head x l x) as [t E]. rewrite E. rewrite drop_while_head by exact Hl. rewrite <- E. apply rev_involutive.
Qed.
Lemma trim_by_solid {A} (p : A -> bool) l : solid p l -> trim_by p l = l.
Proof. intros H. rewrite <- (trim_by_wrap p [] l []) at 2 by (auto). cbn [app]. now rewrite app_nil_r. Qed.
Lemma solid_none {A} (p : A -> bool) l : Forall (fun x => p x = false) l -> solid p l.
Proof.
  destruct l as [|x l]; [intros; exact I|]. intros H. split; [now inversion H|].
  assert (G : x :: l <> []) by discriminate. destruct (exists_last G) as [t [y E]]. rewrite E in *. rewrite last_last.
  apply Forall_app in H. destruct H as [_ H]. now inversion H.
Qed.
Lemma trim_space_ascii s : Forall ascii s -> trim_space s = trim_by is_space s.
Proof.
  intros H. unfold trim_space. rewrite decode_ascii by assumption.
  unfold trim_by. assert (D : forall l : bytes, drop_while (fun p : Z * bytes => is_space (fst p)) (map (fun c => (c, [c])) l) = map (fun c => (c, [c])) (drop_while is_space l)).
  { clear. induction l as [|x l IH]; [reflexivity|]. cbn [map drop_while fst]. destruct (is_space x); [exact IH|reflexivity]. }
  rewrite D, <- map_rev, D, <- map_rev. rewrite flat_map_concat_map, map_map. cbn [snd].
  generalize (rev (drop_while is_space (rev (drop_while is_space s)))). intros l. induction l as [|x l IH]; [reflexivity|]. cbn. now rewrite IH.
Qed.
(** The space characters among the ASCII ones. *)
Lemma space_ascii c : ascii c -> is_space c = btw 9 c 13 || (c =? 32).
Proof. unfold ascii, is_space, btw. lia. Qed.

(** * Cutting *)
Lemma cut_app c a b : Forall (fun x => x <> c) a -> cut c (a ++ c :: b) = Some (a, b).
Proof.
  induction 1 as [|x a Hx Ha IH]; cbn [app cut]; [now rewrite Z.eqb_refl|]. replace (x =? c) with false by lia. now rewrite IH.
Qed.
Lemma cut_none c s : Forall (fun x => x <> c) s -> cut c s = None.
Proof. induction 1 as [|x a Hx Ha IH]; cbn [cut]; [reflexivity|]. replace (x =? c) with false by lia. now rewrite IH. Qed.
Lemma cut_some c s a b : cut c s = Some (a, b) -> s = a ++ c :: b /\ Forall (fun x => x <> c) a.
Proof.
  revert a b. induction s as [|x s IH]; intros a b H; cbn [cut] in H; [discriminate|].
  destruct (x =? c) eqn:E.
  - injection H as <- <-. apply Z.eqb_eq in E. subst x. split; [reflexivity|constructor].
  - destruct (cut c s) as [[a' b']|]; [|discriminate]. injection H as <- <-. destruct (IH _ _ eq_refl) as [-> H2].
    split; [reflexivity|]. constructor; [lia|assumption].
Qed.
Lemma cut_none_inv c s : cut c s = None -> Forall (fun x => x <> c) s.
Proof.
  induction s as [|x s IH]; intros H; cbn [cut] in H; [constructor|]. destruct (x =? c) eqn:E; [discriminate|].
  destruct (cut c s) as [[a b]|]; [discriminate|]. constructor; [lia|]. now apply IH.
Qed.

(** * Numbers *)
Lemma dec_val_snoc s d : dec_val (s ++ [d]) = dec_val s * 10 + (d - 48).
Proof. unfold dec_val. now rewrite fold_left_app. Qed.
Lemma dec_digits_spec fuel : forall n acc, 0 <= n < 2 ^ Z.of_nat fuel -> (0 < fuel)%nat ->
  exists d, dec_digits fuel n acc = d ++ acc /\ dec_val d = n /\ Forall (fun c => 48 <= c <= 57) d /\ d <> [].
Proof.
  induction fuel as [|f IH]; intros n acc Hn Hf; [lia|]. cbn [dec_digits]. destruct (n / 10 =? 0) eqn:E.
  - exists [48 + n mod 10]. repeat split; try discriminate.
    + unfold dec_val. cbn. assert (n < 10) by lia. lia.
    + repeat constructor; lia.
  - assert (Hf' : (0 < f)%nat). { destruct f; [|lia]. change (2 ^ Z.of_nat 1) with 2 in Hn. exfalso. lia. }
    destruct (IH (n / 10) ((48 + n mod 10) :: acc)) as [d [E1 [E2 [E3 E4]]]].
    + split; [lia|]. rewrite Nat2Z.inj_succ, Z.pow_succ_r in Hn by lia. lia.
    + assumption.
    + exists (d ++ [48 + n mod 10]). rewrite E1, <- app_assoc. repeat split.
      * rewrite dec_val_snoc, E2. lia.
      * apply Forall_app. split; [assumption|]. repeat constructor; lia.
      * intros C. apply app_eq_nil in C. destruct C; discriminate.
Qed.
Lemma digits_of n : 0 <= n -> exists d, dec_digits (S (Z.to_nat (Z.log2 n))) n [] = d /\ dec_val d = n /\
  Forall (fun c => 48 <= c <= 57) d /\ d <> [].
Proof.
  intros H. destruct (dec_digits_spec (S (Z.to_nat (Z.log2 n))) n []) as [d [E1 E2]]; [|lia|].
  - pose proof (Z.log2_nonneg n). rewrite Nat2Z.inj_succ, Z2Nat.id by lia. split; [lia|].
    destruct (Z.eq_dec n 0) as [->|Hn]; [reflexivity|]. apply Z.log2_spec. lia.
  - exists d. rewrite E1, app_nil_r. auto.
Qed.
Lemma itoa_digits n : 0 <= n -> Forall (fun c => 48 <= c <= 57) (itoa n) /\ itoa n <> [] /\ dec_val (itoa n) = n.
Proof. intros H. unfold itoa. replace (n <? 0) with false by lia. destruct (digits_of n H) as [d [-> [H1 [H2 H3]]]]. auto. Qed.
Lemma itoa_neg n : n < 0 -> exists d, itoa n = 45 :: d /\ Forall (fun c => 48 <= c <= 57) d /\ d <> [] /\ dec_val d = - n.
Proof. intros H. unfold itoa. replace (n <? 0) with true by lia. destruct (digits_of (- n)) as [d [-> [H1 [H2 H3]]]]; [lia|]. eauto. Qed.
Lemma digits_forallb d : Forall (fun c => 48 <= c <= 57) d -> forallb is_digit d = true.
Proof. intros H. apply forallb_forall. intros x Hx. rewrite Forall_forall in H. apply btw_spec. auto. Qed.
Lemma atoi_itoa n : - 9223372036854775808 <= n <= 9223372036854775807 -> atoi (itoa n) = Ok n.
Proof.
  intros Hn. destruct (Z_lt_le_dec n 0) as [Hneg|Hpos].
  - destruct (itoa_neg n Hneg) as [d [E [Hd [Hne Hv]]]]. rewrite E. unfold atoi. rewrite Z.eqb_refl.
    destruct d as [|c d]; [congruence|]. rewrite (digits_forallb _ Hd), Hv. rewrite Z.opp_involutive.
    replace (_ && _) with true by lia. reflexivity.
  - destruct (itoa_digits n Hpos) as [Hd [Hne Hv]]. unfold atoi. destruct (itoa n) as [|c d] eqn:E; [congruence|].
    pose proof (Forall_inv Hd) as Hc. cbn beta in Hc. replace (c =? 45) with false by lia. replace (c =? 43) with false by lia.
    rewrite (digits_forallb _ Hd), Hv. replace (_ && _) with true by lia. reflexivity.
Qed.

(** * Maps *)
Lemma mget_mset {A} k k' (v : A) m : mget k (mset k' v m) = if bytes_eqb k k' then Some v else mget k m.
Proof.
  induction m as [|[k0 v0] m IH]; cbn [mset mget].
  - destruct (bytes_eqb k k'); reflexivity.
  - destruct (bytes_eqb k' k0) eqn:E0; cbn [mget].
    + apply bytes_eqb_eq in E0. subst k0. destruct (bytes_eqb k k'); reflexivity.
    + rewrite IH. destruct (bytes_eqb k k0) eqn:E; [|reflexivity]. apply bytes_eqb_eq in E. subst k0.
      replace (bytes_eqb k k') with false; [reflexivity|]. symmetry. apply bytes_eqb_neq. apply bytes_eqb_neq in E0. congruence.
Qed.
Lemma mget_mset_same {A} k (v : A) m : mget k (mset k v m) = Some v.
Proof. rewrite mget_mset, bytes_eqb_refl. reflexivity. Qed.
Lemma mget_mset_other {A} k k' (v : A) m : k <> k' -> mget k (mset k' v m) = mget k m.
Proof. intros H. rewrite mget_mset. apply bytes_eqb_neq in H. now rewrite H. Qed.
Lemma mget_in {A} k (v : A) m : mget k m = Some v -> In (k, v) m.
Proof.
  induction m as [|[k0 v0] m IH]; cbn [mget]; [discriminate|]. destruct (bytes_eqb k k0) eqn:E.
  - intros H. injection H as ->. apply bytes_eqb_eq in E. subst. now left.
  - intros H. right. auto.
Qed.
Lemma mget_none {A} k (m : smap A) : mget k m = None <-> ~ In k (map fst m).
Proof.
  induction m as [|[k0 v0] m IH]; cbn [mget map In fst]; [tauto|]. destruct (bytes_eqb k k0) eqn:E.
  - apply bytes_eqb_eq in E. subst. split; [discriminate|]. intros H. elim H. now left.
  - apply bytes_eqb_neq in E. rewrite IH. intuition congruence.
Qed.
Lemma in_mget {A} k (v : A) m : NoDup (map fst m) -> In (k, v) m -> mget k m = Some v.
Proof.
  induction m as [|[k0 v0] m IH]; cbn [map In fst mget]; [contradiction|]. intros H [E|E].
  - injection E as -> ->. now rewrite bytes_eqb_refl.
  - inversion H as [|x l H1 H2]; subst. destruct (bytes_eqb k k0) eqn:E0; [|auto].
    apply bytes_eqb_eq in E0. subst. elim H1. apply (in_map fst) in E. exact E.
Qed.
Lemma mget_perm {A} (m m' : smap A) k : NoDup (map fst m) -> Permutation m m' -> mget k m' = mget k m.
Proof.
  intros H P. assert (H' : NoDup (map fst m')) by (eapply Permutation_NoDup; [apply Permutation_map; exact P|exact H]).
  destruct (mget k m) as [v|] eqn:E.
  - apply in_mget; [assumption|]. eapply Permutation_in; [exact P|]. now apply mget_in.
  - apply mget_none. apply mget_none in E. intros C. apply E. eapply Permutation_in; [apply Permutation_sym, Permutation_map; exact P|exact C].
Qed.
Lemma mset_app {A} k (v : A) m : ~ In k (map fst m) -> mset k v m = m ++ [(k, v)].
Proof.
  induction m as [|[k0 v0] m IH]; cbn [mset map In fst app]; [reflexivity|]. intros H.
  replace (bytes_eqb k k0) with false; [rewrite IH by tauto; reflexivity|]. symmetry. apply bytes_eqb_neq. intuition congruence.
Qed.
Lemma mset_keys {A} k (v : A) m k' : In k' (map fst (mset k v m)) <-> k' = k \/ In k' (map fst m).
Proof.
  induction m as [|[k0 v0] m IH]; cbn [mset map In fst]; [intuition congruence|]. destruct (bytes_eqb k k0) eqn:E; cbn [map In fst].
  - apply bytes_eqb_eq in E. subst. intuition congruence.
  - rewrite IH. intuition congruence.
Qed.
Lemma mset_nodup {A} k (v : A) m : NoDup (map fst m) -> NoDup (map fst (mset k v m)).
Proof.
  induction m as [|[k0 v0] m IH]; cbn [mset map fst]; intros H; [repeat constructor; intros []|].
  inversion H as [|x l H1 H2]; subst. destruct (bytes_eqb k k0) eqn:E; cbn [map fst].
  - apply bytes_eqb_eq in E. subst. assumption.
  - constructor; [|auto]. intros C. apply mset_keys in C. destruct C as [C|C]; [|contradiction]. subst. now rewrite bytes_eqb_refl in E.
Qed.
