(** Proofs for C192. *)
From Coq Require Import String.
From Verif Require Import Base.Go Base.GoFacts Base.IO Base.Text Model.Sip Spec.Sip Proofs.Text Proofs.Sip Proofs.SipMsg Proofs.SipHeaders Proofs.SipAddr Spec.SipAddr Spec.SipParams Proofs.SipParams Proofs.SipWhole Spec.SipUtf8.
Import ListNotations. Local Open Scope list_scope. Local Open Scope Z_scope.
Local Ltac Zify.zify_post_hook ::= Z.div_mod_to_equations.

Lemma second_ok_true b0 b1 : second_ok b0 b1 = true <-> 128 <= b1 <= 191 /\ (b0 = 224 -> 160 <= b1) /\ (b0 = 237 -> b1 <= 159) /\ (b0 = 240 -> 144 <= b1) /\ (b0 = 244 -> b1 <= 143).
Proof.
  unfold second_ok. destruct (b0 =? 224) eqn:E1; [rewrite btw_spec; lia|]. destruct (b0 =? 237) eqn:E2; [rewrite btw_spec; lia|].
  destruct (b0 =? 240) eqn:E3; [rewrite btw_spec; lia|]. destruct (b0 =? 244) eqn:E4; rewrite btw_spec; lia.
Qed.
Lemma utf8_encode r : utf8 r = encode_rune r.
Proof. reflexivity. Qed.
Lemma decode_utf8 r t : scalar r -> decode_runes (utf8 r ++ t) = (r, utf8 r) :: decode_runes t.
Proof.
  intros H. unfold scalar in H. unfold utf8. destruct (r <? 128) eqn:E1; [|destruct (r <? 2048) eqn:E2; [|destruct (r <? 65536) eqn:E3]]; cbn [app decode_runes].
  - rewrite E1. reflexivity.
  - replace (192 + r / 64 <? 128) with false by lia. replace (btw 194 (192 + r / 64) 223) with true by (symmetry; apply btw_spec; lia).
    replace (btw 128 (128 + r mod 64) 191) with true by (symmetry; apply btw_spec; lia). do 2 f_equal. lia.
  - replace (224 + r / 4096 <? 128) with false by lia. replace (btw 194 (224 + r / 4096) 223) with false by (symmetry; apply btw_false; lia).
    replace (btw 224 (224 + r / 4096) 239) with true by (symmetry; apply btw_spec; lia).
    replace (second_ok (224 + r / 4096) (128 + r / 64 mod 64)) with true by (symmetry; apply second_ok_true; lia).
    replace (btw 128 (128 + r mod 64) 191) with true by (symmetry; apply btw_spec; lia). cbn [andb]. do 2 f_equal. lia.
  - replace (240 + r / 262144 <? 128) with false by lia. replace (btw 194 (240 + r / 262144) 223) with false by (symmetry; apply btw_false; lia).
    replace (btw 224 (240 + r / 262144) 239) with false by (symmetry; apply btw_false; lia). replace (btw 240 (240 + r / 262144) 244) with true by (symmetry; apply btw_spec; lia).
    replace (second_ok (240 + r / 262144) (128 + r / 4096 mod 64)) with true by (symmetry; apply second_ok_true; lia).
    replace (btw 128 (128 + r / 64 mod 64) 191) with true by (symmetry; apply btw_spec; lia). replace (btw 128 (128 + r mod 64) 191) with true by (symmetry; apply btw_spec; lia). cbn [andb]. do 2 f_equal. lia.
Qed.
(** What the decoder does at the start of a text. *)
Lemma decode_step b t : 0 <= b -> (exists r u, scalar r /\ b :: t = utf8 r ++ u) \/ decode_runes (b :: t) = (rune_error, [b]) :: decode_runes t.
Proof.
  intros Hb. cbn [decode_runes]. destruct (b <? 128) eqn:E0; [left; exists b, t; split; [left; lia|]; unfold utf8; rewrite E0; reflexivity|].
  destruct (btw 194 b 223) eqn:E1.
  { destruct t as [|b1 t1]; [now right|]. destruct (btw 128 b1 191) eqn:E2; [|now right]. apply btw_spec in E1, E2. left. exists ((b - 192) * 64 + (b1 - 128)), t1. split; [left; lia|].
    unfold utf8. replace ((b - 192) * 64 + (b1 - 128) <? 128) with false by lia. replace ((b - 192) * 64 + (b1 - 128) <? 2048) with true by lia. cbn [app]. repeat (apply f_equal2; [lia|]). reflexivity. }
  destruct (btw 224 b 239) eqn:E2.
  { destruct t as [|b1 [|b2 t2]]; try now right. destruct (second_ok b b1) eqn:S; [|now right]. destruct (btw 128 b2 191) eqn:E3; [|now right]. apply second_ok_true in S. apply btw_spec in E2, E3. left.
    exists ((b - 224) * 4096 + (b1 - 128) * 64 + (b2 - 128)), t2. set (r := (b - 224) * 4096 + (b1 - 128) * 64 + (b2 - 128)). split; [unfold scalar; lia|].
    unfold utf8. replace (r <? 128) with false by lia. replace (r <? 2048) with false by lia. replace (r <? 65536) with true by lia. cbn [app]. repeat (apply f_equal2; [lia|]). reflexivity. }
  destruct (btw 240 b 244) eqn:E3; [|now right].
  destruct t as [|b1 [|b2 [|b3 t3]]]; try now right. destruct (second_ok b b1) eqn:S; [|now right]. destruct (btw 128 b2 191) eqn:E4; [|now right]. destruct (btw 128 b3 191) eqn:E5; [|now right].
  apply second_ok_true in S. apply btw_spec in E3, E4, E5. left. exists ((b - 240) * 262144 + (b1 - 128) * 4096 + (b2 - 128) * 64 + (b3 - 128)), t3.
  set (r := (b - 240) * 262144 + (b1 - 128) * 4096 + (b2 - 128) * 64 + (b3 - 128)). split; [unfold scalar; lia|].
  unfold utf8. replace (r <? 128) with false by lia. replace (r <? 2048) with false by lia. replace (r <? 65536) with false by lia. cbn [app]. repeat (apply f_equal2; [lia|]). reflexivity.
Qed.
Lemma utf8_nonempty r : (1 <= length (utf8 r))%nat.
Proof. unfold utf8. destruct (r <? 128); [|destruct (r <? 2048); [|destruct (r <? 65536)]]; cbn [length]; lia. Qed.
Lemma chars_runes s cs : is_bytes s -> chars s cs -> runes s = cs.
Proof.
  intros B H. induction H as [|r t cs Hr H IH|b t cs N H IH]; [reflexivity| |].
  - apply Forall_app in B as [_ B]. unfold runes in *. rewrite decode_utf8 by assumption. cbn [map fst]. now rewrite IH.
  - apply Forall_cons_iff in B as [B0 B]. destruct (decode_step b t) as [(r & u & Hr & E)|E]; [unfold byte in B0; lia|now elim (N r u)|].
    unfold runes in *. rewrite E. cbn [map fst]. rewrite IH by assumption. reflexivity.
Qed.
Lemma runes_chars s : is_bytes s -> chars s (runes s).
Proof.
  induction s as [s IH] using decode_ind. intros B. destruct s as [|b t]; [constructor|]. pose proof B as B'. apply Forall_cons_iff in B' as [B0 B1].
  destruct (decode_step b t) as [(r & u & Hr & E)|E]; [unfold byte in B0; lia| |].
  - rewrite E in *. unfold runes. rewrite decode_utf8 by assumption. cbn [map fst]. constructor; [assumption|]. apply IH; [rewrite app_length; pose proof (utf8_nonempty r); lia|]. now apply Forall_app in B.
  - unfold runes. rewrite E. cbn [map fst]. apply Ch_bad; [|apply IH; [cbn; lia|assumption]]. intros r u Hr C. rewrite C, decode_utf8 in E by assumption. injection E as E1 E2 _. rewrite E1 in E2. discriminate.
Qed.
Lemma chars_scalar s cs : chars s cs -> Forall scalar cs.
Proof. induction 1; constructor; auto. unfold scalar. lia. Qed.
Lemma decode_utf8s cs : Forall scalar cs -> forall t, decode_runes (utf8s cs ++ t) = map (fun r => (r, utf8 r)) cs ++ decode_runes t.
Proof. induction 1 as [|r cs Hr H IH]; intros t; [reflexivity|]. cbn [utf8s flat_map map app]. rewrite <- app_assoc, decode_utf8 by assumption. f_equal. apply IH. Qed.
Lemma white_space c : is_space c = true <-> white c.
Proof.
  unfold is_space, white. rewrite !Bool.orb_true_iff, !btw_spec. cbn [In]. lia.
Qed.
(** Trimming characters. *)
Lemma stripped_iff s t : stripped s t <-> trim_by is_space s = t.
Proof.
  assert (Y : forall c, white c -> is_space c = true) by (intros; now apply white_space).
  assert (N : forall c, ~ white c -> is_space c = false) by (intros c H; destruct (is_space c) eqn:E; [now apply white_space in E|reflexivity]).
  assert (F : forall s t, stripped s t -> trim_by is_space s = t).
  { clear s t. intros s t (a & b & -> & Ha & Hb & H1 & H2). apply trim_parts.
    - eapply Forall_impl; [|exact Ha]. exact Y.
    - eapply Forall_impl; [|exact Hb]. exact Y.
    - intros c u E. apply N. now apply (H1 c u).
    - intros c u E. apply N. now apply (H2 c u). }
  split; [apply F|]. intros <-. destruct (trim_exists is_space s) as (a & t & b & E & Ha & Hb & H1 & H2).
  assert (T : stripped s t).
  { exists a, b. split; [exact E|]. split; [eapply Forall_impl; [|exact Ha]; intros; now apply white_space|]. split; [eapply Forall_impl; [|exact Hb]; intros; now apply white_space|].
    split; intros c u Et W; apply white_space in W; [rewrite (H1 c u Et) in W|rewrite (H2 c u Et) in W]; discriminate. }
  now rewrite (F _ _ T).
Qed.
Lemma drop_while_map {A B} (f : A -> B) (p : B -> bool) l : map f (drop_while (fun x => p (f x)) l) = drop_while p (map f l).
Proof. induction l as [|x l IH]; [reflexivity|]. cbn [drop_while map]. destruct (p (f x)); [exact IH|reflexivity]. Qed.
Lemma trim_by_map {A B} (f : A -> B) (p : B -> bool) l : map f (trim_by (fun x => p (f x)) l) = trim_by p (map f l).
Proof. unfold trim_by. rewrite map_rev, drop_while_map, map_rev, drop_while_map. reflexivity. Qed.
Lemma trim_space_utf8s v : Forall scalar v -> trim_space (utf8s v) = utf8s (trim_by is_space v).
Proof.
  intros H. unfold trim_space. pose proof (decode_utf8s v H []) as D. rewrite app_nil_r in D. cbn [decode_runes] in D. rewrite app_nil_r in D. rewrite D.
  rewrite <- (trim_by_map (fun r => (r, utf8 r)) (fun p => is_space (fst p)) v). cbn [fst]. unfold utf8s. rewrite flat_map_concat_map, map_map, <- flat_map_concat_map. reflexivity.
Qed.
(** A text cut where no continuation byte follows. *)
Definition starts (q : bytes) : Prop := forall b t, q = b :: t -> ~ 128 <= b <= 191.
Lemma decode_cut p : forall q, starts q -> decode_runes (p ++ q) = decode_runes p ++ decode_runes q.
Proof.
  induction p as [p IH] using decode_ind. intros q Hq. destruct q as [|c q]; [cbn [decode_runes]; now rewrite !app_nil_r|]. destruct p as [|b t]; [reflexivity|].
  assert (I : forall t', (length t' <= length t)%nat -> decode_runes (t' ++ c :: q) = decode_runes t' ++ decode_runes (c :: q)) by (intros t' Ht; apply IH; [cbn; lia|exact Hq]).
  cbn [app decode_runes]. destruct (b <? 128); [cbn [app]; f_equal; now apply I|].
  destruct (btw 194 b 223).
  { destruct t as [|b1 t1]; cbn [app].
    - replace (btw 128 c 191) with false by (symmetry; apply btw_false; apply (Hq c q eq_refl)). reflexivity.
    - destruct (btw 128 b1 191); cbn [app]; f_equal; [apply I; cbn; lia|]. apply (I (b1 :: t1)). cbn; lia. }
  destruct (btw 224 b 239).
  { destruct t as [|b1 [|b2 t2]]; cbn [app].
    - destruct q as [|d q]; try reflexivity. replace (second_ok b c) with false; [reflexivity|]. symmetry. destruct (second_ok b c) eqn:S; [|reflexivity]. apply second_ok_true in S. elim (Hq c _ eq_refl). lia.
    - replace (btw 128 c 191) with false by (symmetry; apply btw_false; apply (Hq c q eq_refl)). rewrite Bool.andb_false_r.
      f_equal. apply (I [b1]). cbn; lia.
    - destruct (second_ok b b1 && btw 128 b2 191); cbn [app]; f_equal; [apply I; cbn; lia|]. apply (I (b1 :: b2 :: t2)). cbn; lia. }
  destruct (btw 240 b 244); [|cbn [app]; f_equal; now apply I].
  destruct t as [|b1 [|b2 [|b3 t3]]]; cbn [app].
  - destruct q as [|d [|e q]]; try reflexivity. replace (second_ok b c) with false; [reflexivity|]. symmetry. destruct (second_ok b c) eqn:S; [|reflexivity]. apply second_ok_true in S. elim (Hq c _ eq_refl). lia.
  - destruct q as [|d q].
    + f_equal. apply (I [b1]). cbn; lia.
    + replace (btw 128 c 191) with false by (symmetry; apply btw_false; apply (Hq c _ eq_refl)). rewrite Bool.andb_false_r. cbn [andb]. f_equal. apply (I [b1]). cbn; lia.
  - replace (btw 128 c 191) with false by (symmetry; apply btw_false; apply (Hq c _ eq_refl)). rewrite Bool.andb_false_r. f_equal. apply (I [b1; b2]). cbn; lia.
  - destruct (second_ok b b1 && btw 128 b2 191 && btw 128 b3 191); cbn [app]; f_equal; [apply I; cbn; lia|]. apply (I (b1 :: b2 :: b3 :: t3)). cbn; lia.
Qed.
Lemma decode_elems s : is_bytes s -> Forall (fun p => (scalar (fst p) /\ snd p = utf8 (fst p)) \/ fst p = rune_error) (decode_runes s).
Proof.
  induction s as [s IH] using decode_ind. intros B. destruct s as [|b t]; [constructor|]. pose proof B as B'. apply Forall_cons_iff in B' as [B0 B1].
  destruct (decode_step b t) as [(r & u & Hr & E)|E]; [unfold byte in B0; lia| |].
  - rewrite E in *. rewrite decode_utf8 by assumption. constructor; [left; auto|]. apply IH; [rewrite app_length; pose proof (utf8_nonempty r); lia|]. now apply Forall_app in B.
  - rewrite E. constructor; [now right|]. apply IH; [cbn; lia|assumption].
Qed.
Lemma drop_while_split {A} (p : A -> bool) l : exists x, l = x ++ drop_while p l /\ Forall (fun c => p c = true) x.
Proof.
  induction l as [|c l [x [E F]]]; [exists []; split; [reflexivity|constructor]|]. cbn [drop_while]. destruct (p c) eqn:P; [|exists []; split; [reflexivity|constructor]].
  exists (c :: x). split; [cbn [app]; f_equal; exact E|now constructor].
Qed.
Lemma trim_by_split {A} (p : A -> bool) l : exists x y, l = x ++ trim_by p l ++ y /\ Forall (fun c => p c = true) x /\ Forall (fun c => p c = true) y.
Proof.
  destruct (drop_while_split p l) as (x & E1 & F1). destruct (drop_while_split p (rev (drop_while p l))) as (y & E2 & F2). exists x, (rev y). split; [|split; [exact F1|now apply Forall_rev]].
  unfold trim_by. rewrite E1 at 1. f_equal. apply (f_equal (@rev A)) in E2. rewrite rev_involutive, rev_app_distr in E2. exact E2.
Qed.
Lemma utf8_starts r t : starts (utf8 r ++ t).
Proof.
  intros b u E. unfold utf8 in E. destruct (r <? 128) eqn:E1; [cbn [app] in E; injection E as <- _; lia|]. destruct (r <? 2048) eqn:E2; [cbn [app] in E; injection E as <- _; lia|].
  destruct (r <? 65536) eqn:E3; cbn [app] in E; injection E as <- _; lia.
Qed.
Lemma runes_trim s : is_bytes s -> runes (trim_space s) = trim_by is_space (runes s).
Proof.
  intros B. unfold runes at 2. rewrite <- (trim_by_map fst is_space (decode_runes s)). unfold runes. f_equal. unfold trim_space.
  destruct (trim_by_split (fun p : Z * bytes => is_space (fst p)) (decode_runes s)) as (x & y & E & Fx & Fy). set (m := trim_by _ _) in *.
  pose proof (decode_elems s B) as El. rewrite E in El. apply Forall_app in El as [Ex El]. apply Forall_app in El as [Em Ey].
  assert (W : forall l : list (Z * bytes), Forall (fun p => (scalar (fst p) /\ snd p = utf8 (fst p)) \/ fst p = rune_error) l -> Forall (fun c => is_space (fst c) = true) l ->
    Forall scalar (map fst l) /\ l = map (fun r => (r, utf8 r)) (map fst l) /\ flat_map snd l = utf8s (map fst l)).
  { clear. induction l as [|[r b] l IH]; intros H1 H2; [repeat split; constructor|]. apply Forall_cons_iff in H1 as [H1 H1']. apply Forall_cons_iff in H2 as [H2 H2']. destruct (IH H1' H2') as (I1 & I2 & I3). cbn [fst snd] in *.
    destruct H1 as [[H1 ->]|H1]; [|subst r; discriminate]. cbn [map fst flat_map snd utf8s]. split; [now constructor|]. split; [now f_equal|]. unfold utf8s in I3. now rewrite I3. }
  destruct (W x Ex Fx) as (X1 & X2 & X3). destruct (W y Ey Fy) as (Y1 & Y2 & Y3).
  assert (Hs : s = utf8s (map fst x) ++ flat_map snd m ++ utf8s (map fst y)).
  { rewrite <- X3, <- Y3, <- !flat_map_app, <- E. symmetry. apply decode_source. }
  assert (S : starts (utf8s (map fst y))). { destruct (map fst y) as [|r cs]; [intros b t C; discriminate|]. cbn [utf8s flat_map]. apply utf8_starts. }
  pose proof E as E2. rewrite Hs, (decode_utf8s _ X1), decode_cut in E2 by exact S. rewrite <- X2 in E2. apply app_inv_head in E2.
  pose proof (decode_utf8s _ Y1 []) as D. cbn [decode_runes] in D. rewrite !app_nil_r in D. rewrite D, <- Y2 in E2. apply app_inv_tail in E2. exact E2.
Qed.

(** * The list *)
Lemma quoted_all (P : Z -> Prop) q w : quoted q w -> Forall P q -> Forall P w.
Proof. induction 1 as [|c t v H1 H2 H IH|c t v H IH]; intros A; [constructor| |]; repeat (apply Forall_cons_iff in A; destruct A as [? A]); constructor; auto. Qed.
Lemma element_all (P : Z -> Prop) t v : element t v -> Forall P t -> Forall P v.
Proof.
  induction 1 as [|c t v H1 H2 H IH|q w t v Q H IH]; intros A; [constructor| |].
  - apply Forall_cons_iff in A. constructor; [apply A|apply IH, A].
  - apply Forall_cons_iff in A. destruct A as [A0 A]. apply Forall_app in A. destruct A as [A1 A2]. apply Forall_cons_iff in A2. constructor; [assumption|]. apply Forall_app. split; [eapply quoted_all; eassumption|constructor; [assumption|apply IH, A2]].
Qed.
Lemma last_element_all (P : Z -> Prop) t v : last_element t v -> Forall P t -> Forall P v.
Proof.
  intros [t' v' H|a b q w H Q|a b q w H Q] A; [eapply element_all; eassumption| |]; apply Forall_app in A; destruct A as [A1 A2]; apply Forall_cons_iff in A2; destruct A2 as [A2 A3]; apply Forall_app; (split; [eapply element_all; eassumption|]); constructor; try assumption.
  - eapply quoted_all; eassumption.
  - apply Forall_app in A3. eapply quoted_all; [eassumption|apply A3].
Qed.
Lemma trim_item v e : Forall scalar v -> stripped v e -> trim_space (encode_runes v) = utf8s e.
Proof. intros H S. apply stripped_iff in S. rewrite <- S. exact (trim_space_utf8s v H). Qed.
Lemma list_items t es : items t es -> Forall scalar t -> forall out, parse_list_loop t false false [] out = out ++ map utf8s es.
Proof.
  induction 1 as [|t v e Hn H T|t v e c rest es H S T Hr IH]; intros A out.
  - cbn. now rewrite app_nil_r.
  - rewrite (loop_last t v H). destruct v as [|x v]; [exfalso; apply Hn, (last_element_nil _ _ H); reflexivity|]. rewrite (trim_item _ e); [reflexivity|eapply last_element_all; eassumption|assumption].
  - apply Forall_app in A. destruct A as [A1 A2]. apply Forall_cons_iff in A2. destruct A2 as [_ A2]. rewrite (loop_element t v H), app_nil_r. cbn [parse_list_loop].
    rewrite (proj2 (sep_test c) S). rewrite rev_involutive, (trim_item _ e) by (assumption || (eapply element_all; eassumption)).
    rewrite IH by assumption. cbn [map]. now rewrite <- app_assoc.
Qed.
Lemma stripped_exists s : exists t, stripped s t.
Proof. eexists. apply stripped_iff. reflexivity. Qed.
Lemma items_exist s : exists es, items s es.
Proof.
  assert (K : forall n s, (length s <= n)%nat -> exists es, items s es).
  { clear. induction n as [|n IH]; intros s Hn; [destruct s; [|cbn in Hn; lia]; exists []; constructor|]. destruct s as [|c s]; [exists []; constructor|].
    destruct (element_scan _ (c :: s) (le_n _)) as [[v H]|[t [v [d [rest [E [H Sc]]]]]]]; destruct (stripped_exists v) as [e T].
    - exists [e]. eapply It_last; [discriminate|eassumption|assumption].
    - rewrite E in *. destruct (IH rest) as [es Hr]; [rewrite app_length in Hn; cbn in Hn; lia|]. exists (e :: es). eapply It_more; eassumption. }
  apply (K (length s)). lia.
Qed.
Lemma stripped_all (P : Z -> Prop) s t : stripped s t -> Forall P s -> Forall P t.
Proof. intros (a & b & -> & _) H. rewrite !Forall_app in H. apply H. Qed.
Lemma parse_list_items value cs t es : is_bytes value -> chars value cs -> stripped cs t -> items t es -> parse_list (trim_space value) = map utf8s es.
Proof.
  intros B C S I. unfold parse_list. rewrite runes_trim by assumption. rewrite (chars_runes _ _ B C). rewrite (proj1 (stripped_iff _ _) S). apply (list_items _ _ I).
  eapply stripped_all; [exact S|]. eapply chars_scalar; exact C.
Qed.
