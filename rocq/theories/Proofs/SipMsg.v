(** Proofs about SIP names, headers, lines and messages. *)
From Coq Require Import String Permutation.
From Verif Require Import Base.Go Base.GoFacts Base.IO Base.Text Model.Sip Spec.Sip Proofs.Text Proofs.Sip.
Import ListNotations. Local Open Scope list_scope. Local Open Scope Z_scope.
Local Ltac Zify.zify_post_hook ::= Z.div_mod_to_equations.

(** * Names up to case *)
Lemma encode_high r : 128 <= r -> exists h t, encode_rune r = h :: t /\ 128 <= h.
Proof.
  intros H. unfold encode_rune. replace (r <? 128) with false by lia. destruct (r <? 2048) eqn:E; [eexists _, _; split; [reflexivity|lia]|].
  destruct (r <? 65536) eqn:E2; (eexists _, _; split; [reflexivity|lia]).
Qed.
Lemma upper_decoded s l : decoded s l -> forall n, Forall (fun d => d < 128 /\ ~ 97 <= d <= 122) n ->
  encode_runes (map upper_rune (map fst l)) = n -> reads_as s n.
Proof.
  assert (High : forall r l n, 128 <= r -> Forall (fun d => d < 128 /\ ~ 97 <= d <= 122) n -> encode_runes (r :: l) = n -> False).
  { intros r l0 n Hr Hn E. destruct (encode_high r Hr) as [h [t [Eh Hh]]]. unfold encode_runes in E. cbn [flat_map] in E. rewrite Eh in E. subst n. inversion Hn; lia. }
  induction 1 as [|b t l Hb D IH|b t l Hb D IH|b0 b1 t l H0 H1 D IH|b0 b1 b2 t l H0 H1 H2 D IH|b0 b1 b2 b3 t l H0 H1 H2 H3 D IH];
    intros n Hn E; cbn [map fst] in E.
  - subst. constructor.
  - assert (Eu : encode_rune (upper_rune b) = [upper_rune b]).
    { unfold encode_rune. replace (upper_rune b <? 128) with true; [reflexivity|]. unfold upper_rune. destruct (btw 97 b 122) eqn:Q; [apply btw_spec in Q; lia|].
      replace (b =? 305) with false by lia. replace (b =? 383) with false by lia. lia. }
    unfold encode_runes in E. cbn [flat_map] in E. rewrite Eu in E. subst n. cbn [app]. inversion Hn as [|d n' Hd Hn']; subst.
    unfold upper_rune in *. destruct (btw 97 b 122) eqn:Q.
    + apply btw_spec in Q. replace (b :: t) with ((b - 32 + 32) :: t) by (f_equal; lia). apply RA_lower; [lia|]. apply IH; auto.
    + replace (b =? 305) with false by lia. replace (b =? 383) with false by lia. apply RA_char. apply IH; auto.
  - elim (High (upper_rune rune_error) (map upper_rune (map fst l)) n); auto. unfold upper_rune, rune_error, btw. cbn. lia.
  - set (r := (b0 - 192) * 64 + (b1 - 128)) in *. assert (Hr : 128 <= r) by lia.
    destruct (Z.eq_dec r 305) as [Q|Q].
    { rewrite Q in E. assert (b0 = 196) by lia. assert (b1 = 177) by lia. subst b0 b1. change (upper_rune 305) with 73 in E. cbn [encode_runes flat_map] in E.
      change (encode_rune 73) with [73] in E. cbn [app] in E. subst n. apply RA_dotless_i. apply IH; [now inversion Hn|reflexivity]. }
    destruct (Z.eq_dec r 383) as [Q'|Q'].
    { rewrite Q' in E. assert (b0 = 197) by lia. assert (b1 = 191) by lia. subst b0 b1. change (upper_rune 383) with 83 in E. cbn [encode_runes flat_map] in E.
      change (encode_rune 83) with [83] in E. cbn [app] in E. subst n. apply RA_long_s. apply IH; [now inversion Hn|reflexivity]. }
    elim (High (upper_rune r) (map upper_rune (map fst l)) n); auto. unfold upper_rune. destruct (btw 97 r 122) eqn:B; [apply btw_spec in B; lia|].
    replace (r =? 305) with false by lia. replace (r =? 383) with false by lia. assumption.
  - set (r := (b0 - 224) * 4096 + (b1 - 128) * 64 + (b2 - 128)) in *. pose proof (second_ok_range _ _ H1).
    assert (Hr : 2048 <= r). { unfold second_ok in H1. destruct (b0 =? 224) eqn:Q; [apply btw_spec in H1|]; lia. }
    elim (High (upper_rune r) (map upper_rune (map fst l)) n); auto. unfold upper_rune. destruct (btw 97 r 122) eqn:B; [apply btw_spec in B; lia|].
    replace (r =? 305) with false by lia. replace (r =? 383) with false by lia. lia.
  - set (r := (b0 - 240) * 262144 + (b1 - 128) * 4096 + (b2 - 128) * 64 + (b3 - 128)) in *. pose proof (second_ok_range _ _ H1).
    assert (Hr : 2048 <= r). { destruct (Z.eq_dec b0 240) as [->|Q]; [cbn in H1; apply btw_spec in H1|]; lia. }
    elim (High (upper_rune r) (map upper_rune (map fst l)) n); auto. unfold upper_rune. destruct (btw 97 r 122) eqn:B; [apply btw_spec in B; lia|].
    replace (r =? 305) with false by lia. replace (r =? 383) with false by lia. lia.
Qed.
Lemma upper_cons b s : b < 128 -> to_upper (b :: s) = upper_rune b :: to_upper s.
Proof.
  intros H. unfold to_upper, runes. cbn [decode_runes]. replace (b <? 128) with true by lia. cbn [map fst]. unfold encode_runes. cbn [flat_map].
  replace (encode_rune (upper_rune b)) with [upper_rune b]; [reflexivity|]. unfold encode_rune.
  replace (upper_rune b <? 128) with true; [reflexivity|]. unfold upper_rune. destruct (btw 97 b 122) eqn:Q; [apply btw_spec in Q; lia|].
  replace (b =? 305) with false by lia. replace (b =? 383) with false by lia. lia.
Qed.
Lemma reads_upper s n : reads_as s n -> Forall (fun d => d < 128 /\ ~ 97 <= d <= 122) n -> to_upper s = n.
Proof.
  induction 1 as [|c s n R IH|c s n Hc R IH|s n R IH|s n R IH]; intros Hn; [reflexivity| | | |]; inversion Hn as [|d n' Hd Hn']; subst.
  - rewrite upper_cons by lia. rewrite IH by assumption. f_equal. unfold upper_rune. replace (btw 97 c 122) with false by (symmetry; apply btw_false; lia).
    replace (c =? 305) with false by lia. replace (c =? 383) with false by lia. reflexivity.
  - rewrite upper_cons by lia. rewrite IH by assumption. f_equal. unfold upper_rune. replace (btw 97 (c + 32) 122) with true by (symmetry; apply btw_spec; lia). lia.
  - change (to_upper (196 :: 177 :: s)) with (73 :: to_upper s). now rewrite IH.
  - change (to_upper (197 :: 191 :: s)) with (83 :: to_upper s). now rewrite IH.
Qed.
Lemma upper_iff s n : Forall (fun d => d < 128 /\ ~ 97 <= d <= 122) n -> (to_upper s = n <-> reads_as s n).
Proof.
  intros Hn. split; [|intros H; now apply reads_upper]. intros E. exact (upper_decoded s _ (decode_decoded s) n Hn E).
Qed.
Lemma find_name_spec u l : forall i m, find_name u i l = Ok m <-> exists k, m = i + Z.of_nat k /\ nth_error l k = Some u /\ (forall j, (j < k)%nat -> nth_error l j <> Some u).
Proof.
  induction l as [|n l IH]; intros i m; cbn [find_name].
  - split; [discriminate|]. intros [k [_ [C _]]]. destruct k; discriminate.
  - destruct (bytes_eqb u n) eqn:E.
    + apply bytes_eqb_eq in E. subst n. split.
      * intros H. injection H as <-. exists 0%nat. split; [lia|]. split; [reflexivity|]. lia.
      * intros [k [-> [H1 H2]]]. destruct k; [f_equal; lia|]. exfalso. apply (H2 0%nat); [lia|reflexivity].
    + apply bytes_eqb_neq in E. rewrite IH. split.
      * intros [k [-> [H1 H2]]]. exists (S k). split; [lia|]. split; [assumption|]. intros [|j] Hj; cbn; [congruence|]. apply H2. lia.
      * intros [k [-> [H1 H2]]]. destruct k; [cbn in H1; congruence|]. exists k. split; [lia|]. split; [assumption|]. intros j Hj. apply (H2 (S j)). lia.
Qed.
Lemma method_names_ok : Forall (Forall (fun d => d < 128 /\ ~ 97 <= d <= 122)) method_names.
Proof. unfold method_names. repeat constructor; cbn; lia. Qed.
Lemma method_names_nodup : NoDup method_names.
Proof. unfold method_names. repeat constructor; cbn; intuition discriminate. Qed.
Lemma get_method_iff s m : get_method s = Ok m <-> 1 <= m <= 15 /\ reads_as s (method_string m).
Proof.
  unfold get_method. rewrite find_name_spec. split.
  - intros [k [-> [H1 _]]]. assert (Hk : (k < 15)%nat) by (change 15%nat with (length method_names); apply nth_error_Some; congruence).
    split; [lia|]. apply upper_iff; [|unfold method_string; replace (_ && _) with true by lia; replace (Z.to_nat (1 + Z.of_nat k - 1)) with k by lia; symmetry; now apply nth_error_nth].
    unfold method_string. replace (_ && _) with true by lia. replace (Z.to_nat (1 + Z.of_nat k - 1)) with k by lia.
    pose proof method_names_ok as F. rewrite Forall_forall in F. apply F. apply nth_In. exact Hk.
  - intros [Hm R]. exists (Z.to_nat (m - 1)). unfold method_string in R. replace (_ && _) with true in R by lia.
    assert (Hk : (Z.to_nat (m - 1) < length method_names)%nat) by (change (length method_names) with 15%nat; lia).
    apply upper_iff in R; [|pose proof method_names_ok as F; rewrite Forall_forall in F; apply F; apply nth_In; exact Hk].
    split; [lia|]. rewrite R. split; [now apply nth_error_nth'|]. intros j Hj C.
    pose proof method_names_nodup as N. rewrite (NoDup_nth_error method_names) in N. assert (j = Z.to_nat (m - 1)); [|lia].
    apply N; [lia|]. rewrite C. symmetry. now apply nth_error_nth'.
Qed.
Lemma get_method_err s : (forall m, get_method s <> Ok m) -> get_method s = Err EOther.
Proof.
  unfold get_method. generalize (to_upper s) 1. intros u. induction method_names as [|n l IH]; intros i H; cbn [find_name] in *; [reflexivity|].
  destruct (bytes_eqb u n); [elim (H i); reflexivity|]. auto.
Qed.
Lemma get_version_iff s v : get_version s = Ok v <-> (v = 1 \/ v = 2) /\ reads_as s (version_string v).
Proof.
  assert (F1 : Forall (fun d => d < 128 /\ ~ 97 <= d <= 122) (str "SIP/1.0")) by (repeat constructor; cbn; lia).
  assert (F2 : Forall (fun d => d < 128 /\ ~ 97 <= d <= 122) (str "SIP/2.0")) by (repeat constructor; cbn; lia).
  unfold get_version. cbv zeta. destruct (bytes_eqb (to_upper s) (str "SIP/1.0")) eqn:E1.
  - apply bytes_eqb_eq in E1. split.
    + intros E. injection E as <-. split; [auto|]. apply upper_iff; assumption.
    + intros [[-> | ->] R]; [reflexivity|]. apply (upper_iff s (version_string 2) F2) in R. rewrite E1 in R. discriminate.
  - destruct (bytes_eqb (to_upper s) (str "SIP/2.0")) eqn:E2.
    + apply bytes_eqb_eq in E2. split.
      * intros E. injection E as <-. split; [auto|]. apply upper_iff; assumption.
      * intros [[-> | ->] R]; [|reflexivity]. apply (upper_iff s (version_string 1) F1) in R. rewrite E2 in R. discriminate.
    + apply bytes_eqb_neq in E1, E2. split; [discriminate|]. intros [[-> | ->] R].
      * apply (upper_iff s (version_string 1) F1) in R. elim E1. exact R.
      * apply (upper_iff s (version_string 2) F2) in R. elim E2. exact R.
Qed.
Lemma reads_self n : reads_as n n.
Proof. induction n; constructor; assumption. Qed.
Lemma same_case_fold a b : same_ignoring_case a b -> map fold_byte a = map fold_byte b.
Proof.
  induction 1 as [|x y a b L R IH]; [reflexivity|]. cbn [map]. rewrite IH. f_equal. destruct L as [c|c Hc|c Hc]; [reflexivity| |];
  unfold fold_byte; replace (btw 65 c 90) with true by (symmetry; apply btw_spec; lia); replace (btw 65 (c + 32) 90) with false by (symmetry; apply btw_false; lia); reflexivity.
Qed.
Lemma same_case_lower a b : same_ignoring_case a b -> to_lower a = to_lower b.
Proof. intros H. rewrite <- (to_lower_fold a), <- (to_lower_fold b). f_equal. now apply same_case_fold. Qed.
Lemma same_case_upper a b : same_ignoring_case a b -> to_upper a = to_upper b.
Proof. intros H. rewrite <- (to_upper_fold a), <- (to_upper_fold b). f_equal. now apply same_case_fold. Qed.

(** * First lines *)
Lemma split3_app a b c : without [32] a -> without [32] b -> split3 (a ++ 32 :: b ++ 32 :: c) = [a; b; c].
Proof.
  intros Ha Hb. unfold split3. rewrite cut_app by (eapply Forall_impl; [|exact Ha]; cbn; intros; lia).
  rewrite cut_app by (eapply Forall_impl; [|exact Hb]; cbn; intros; lia). reflexivity.
Qed.
Lemma method_no_space m : 1 <= m <= 15 -> without [32] (method_string m) /\ has_prefix (method_string m) (str "SIP") = false.
Proof.
  intros H. assert (E : exists k, (k < 15)%nat /\ m = Z.of_nat k + 1) by (exists (Z.to_nat (m - 1)); lia). destruct E as [k [Hk ->]].
  unfold method_string. replace (_ && _) with true by lia. replace (Z.to_nat (Z.of_nat k + 1 - 1)) with k by lia.
  do 15 (destruct k as [|k]; [split; [unfold without; cbn; repeat constructor; cbn; lia|reflexivity]|]). lia.
Qed.
Lemma version_ok v : v = 1 \/ v = 2 -> get_version (version_string v) = Ok v.
Proof. intros [-> | ->]; reflexivity. Qed.
Lemma version_any v : get_version (version_string v) = Ok (if v =? 1 then 1 else 2).
Proof. unfold version_string. destruct (v =? 1); reflexivity. Qed.
Lemma method_ok m : 1 <= m <= 15 -> get_method (method_string m) = Ok m.
Proof. intros H. apply get_method_iff. split; [assumption|]. apply reads_self. Qed.
