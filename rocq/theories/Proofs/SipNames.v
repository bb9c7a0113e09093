(** Proofs about header names in lower case (C191). *)
From Coq Require Import String.
From Verif Require Import Base.Go Base.GoFacts Base.IO Base.Text Model.Sip Spec.Sip Spec.SipNames Proofs.Text Proofs.Sip Proofs.SipMsg.
Import ListNotations. Local Open Scope list_scope. Local Open Scope Z_scope.
Local Ltac Zify.zify_post_hook ::= Z.div_mod_to_equations.

Lemma lower_decoded s l : decoded s l -> forall n, lower_ascii n -> encode_runes (map lower_rune (map fst l)) = n -> spells s n.
Proof.
  assert (High : forall r l n, 128 <= r -> lower_ascii n -> encode_runes (r :: l) = n -> False).
  { intros r l0 n Hr Hn E. destruct (encode_high r Hr) as [h [t [Eh Hh]]]. unfold encode_runes in E. cbn [flat_map] in E. rewrite Eh in E. subst n. inversion Hn; lia. }
  induction 1 as [|b t l Hb D IH|b t l Hb D IH|b0 b1 t l H0 H1 D IH|b0 b1 b2 t l H0 H1 H2 D IH|b0 b1 b2 b3 t l H0 H1 H2 H3 D IH];
    intros n Hn E; cbn [map fst] in E.
  - subst. constructor.
  - assert (Eu : encode_rune (lower_rune b) = [lower_rune b]).
    { unfold encode_rune. replace (lower_rune b <? 128) with true; [reflexivity|]. unfold lower_rune. destruct (btw 65 b 90) eqn:Q; [apply btw_spec in Q; lia|].
      replace (b =? 304) with false by lia. replace (b =? 8490) with false by lia. lia. }
    unfold encode_runes in E. cbn [flat_map] in E. rewrite Eu in E. subst n. cbn [app]. inversion Hn as [|d n' Hd Hn']; subst.
    unfold lower_rune in *. destruct (btw 65 b 90) eqn:Q.
    + apply btw_spec in Q. apply SP_upper; [lia|]. apply IH; auto.
    + replace (b =? 304) with false by lia. replace (b =? 8490) with false by lia. apply SP_char. apply IH; auto.
  - elim (High (lower_rune rune_error) (map lower_rune (map fst l)) n); auto. unfold lower_rune, rune_error, btw. cbn. lia.
  - set (r := (b0 - 192) * 64 + (b1 - 128)) in *. assert (Hr : 128 <= r < 2048) by lia.
    destruct (Z.eq_dec r 304) as [Q|Q].
    { rewrite Q in E. assert (b0 = 196) by lia. assert (b1 = 176) by lia. subst b0 b1. change (lower_rune 304) with 105 in E. cbn [encode_runes flat_map] in E.
      change (encode_rune 105) with [105] in E. cbn [app] in E. subst n. apply SP_dotted_i. apply IH; [now inversion Hn|reflexivity]. }
    elim (High (lower_rune r) (map lower_rune (map fst l)) n); auto. unfold lower_rune. destruct (btw 65 r 90) eqn:B; [apply btw_spec in B; lia|].
    replace (r =? 304) with false by lia. replace (r =? 8490) with false by lia. lia.
  - set (r := (b0 - 224) * 4096 + (b1 - 128) * 64 + (b2 - 128)) in *. pose proof (second_ok_range _ _ H1).
    assert (Hr : 2048 <= r). { unfold second_ok in H1. destruct (b0 =? 224) eqn:Q; [apply btw_spec in H1|]; lia. }
    destruct (Z.eq_dec r 8490) as [Q|Q].
    { rewrite Q in E. assert (b0 = 226) by lia. assert (b1 = 132) by lia. assert (b2 = 170) by lia. subst b0 b1 b2. change (lower_rune 8490) with 107 in E. cbn [encode_runes flat_map] in E.
      change (encode_rune 107) with [107] in E. cbn [app] in E. subst n. apply SP_kelvin. apply IH; [now inversion Hn|reflexivity]. }
    elim (High (lower_rune r) (map lower_rune (map fst l)) n); auto. unfold lower_rune. destruct (btw 65 r 90) eqn:B; [apply btw_spec in B; lia|].
    replace (r =? 304) with false by lia. replace (r =? 8490) with false by lia. lia.
  - set (r := (b0 - 240) * 262144 + (b1 - 128) * 4096 + (b2 - 128) * 64 + (b3 - 128)) in *. pose proof (second_ok_range _ _ H1).
    assert (Hr : 65536 <= r). { destruct (Z.eq_dec b0 240) as [->|Q]; [cbn in H1; apply btw_spec in H1|]; lia. }
    elim (High (lower_rune r) (map lower_rune (map fst l)) n); auto. unfold lower_rune. destruct (btw 65 r 90) eqn:B; [apply btw_spec in B; lia|].
    replace (r =? 304) with false by lia. replace (r =? 8490) with false by lia. lia.
Qed.
Lemma lower_cons b s : b < 128 -> to_lower (b :: s) = lower_rune b :: to_lower s.
Proof.
  intros H. unfold to_lower, runes. cbn [decode_runes]. replace (b <? 128) with true by lia. cbn [map fst]. unfold encode_runes. cbn [flat_map].
  replace (encode_rune (lower_rune b)) with [lower_rune b]; [reflexivity|]. unfold encode_rune.
  replace (lower_rune b <? 128) with true; [reflexivity|]. unfold lower_rune. destruct (btw 65 b 90) eqn:Q; [apply btw_spec in Q; lia|].
  replace (b =? 304) with false by lia. replace (b =? 8490) with false by lia. lia.
Qed.
Lemma spells_lower s n : spells s n -> lower_ascii n -> to_lower s = n.
Proof.
  induction 1 as [|c s n R IH|c s n Hc R IH|s n R IH|s n R IH]; intros Hn; [reflexivity| | | |]; inversion Hn as [|d n' Hd Hn']; subst.
  - rewrite lower_cons by lia. rewrite IH by assumption. f_equal. unfold lower_rune. replace (btw 65 c 90) with false by (symmetry; apply btw_false; lia).
    replace (c =? 304) with false by lia. replace (c =? 8490) with false by lia. reflexivity.
  - rewrite lower_cons by lia. rewrite IH by assumption. f_equal. unfold lower_rune. replace (btw 65 c 90) with true by (symmetry; apply btw_spec; lia). reflexivity.
  - change (to_lower (196 :: 176 :: s)) with (105 :: to_lower s). now rewrite IH.
  - change (to_lower (226 :: 132 :: 170 :: s)) with (107 :: to_lower s). now rewrite IH.
Qed.
Lemma lower_iff s n : lower_ascii n -> (to_lower s = n <-> spells s n).
Proof.
  intros Hn. split; [|intros H; now apply spells_lower]. intros E. exact (lower_decoded s _ (decode_decoded s) n Hn E).
Qed.
Lemma spells_self n : spells n n.
Proof. induction n; constructor; assumption. Qed.
Lemma spells_len s n : spells s n -> (length n <= length s)%nat /\ (length s = length n -> same_ignoring_case s n).
Proof.
  induction 1 as [|c s n R [I1 I2]|c s n Hc R [I1 I2]|s n R [I1 I2]|s n R [I1 I2]]; cbn [length]; (split; [lia|]); intros E; try lia.
  - constructor.
  - constructor; [constructor|apply I2; lia].
  - constructor; [now constructor|apply I2; lia].
Qed.
Lemma same_spells s n : same_ignoring_case s n -> lower_ascii n -> spells s n.
Proof.
  induction 1 as [|a b s n H F IH]; intros L; [constructor|]. inversion L; subst. destruct H; [constructor|constructor; [lia|]|lia]; auto.
Qed.
