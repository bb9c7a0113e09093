(** Proofs for C155. *)
From Coq Require Import String.
From Verif Require Import Base.Go Base.GoFacts Base.IO Base.Text Model.Sip Spec.Sip Proofs.Text Proofs.Sip Proofs.SipMsg Proofs.SipHeaders Proofs.SipAddr Spec.SipAddr Spec.SipParams.
Import ListNotations. Local Open Scope list_scope. Local Open Scope Z_scope.

Lemma loop_quoted q w : quoted q w -> forall rest b out, parse_list_loop (q ++ rest) false true b out = parse_list_loop rest false true (rev w ++ b) out.
Proof.
  induction 1 as [|c t v H1 H2 H IH|c t v H IH]; intros rest b out; [reflexivity| |].
  - cbn [app parse_list_loop]. replace (c =? 92) with false by lia. replace (c =? 34) with false by lia. rewrite IH. cbn [rev]. now rewrite <- app_assoc.
  - cbn [app parse_list_loop]. change (92 =? 92) with true. cbv iota. rewrite IH. cbn [rev]. now rewrite <- app_assoc.
Qed.
Lemma sep_test c : (c =? 44) || (c =? 59) || (c =? 10) = true <-> separator c.
Proof. unfold separator. lia. Qed.
Lemma sep_test_false c : ~ separator c -> (c =? 44) || (c =? 59) || (c =? 10) = false.
Proof. unfold separator. lia. Qed.
Lemma loop_element t v : element t v -> forall rest b out, parse_list_loop (t ++ rest) false false b out = parse_list_loop rest false false (rev v ++ b) out.
Proof.
  induction 1 as [|c t v H1 H2 H IH|q w t v Q H IH]; intros rest b out; [reflexivity| |].
  - cbn [app parse_list_loop]. rewrite (sep_test_false c H1). replace (c =? 34) with false by lia. rewrite IH. cbn [rev]. now rewrite <- app_assoc.
  - cbn [app parse_list_loop]. change ((34 =? 44) || (34 =? 59) || (34 =? 10)) with false. change (34 =? 34) with true. cbv iota. rewrite <- app_assoc. rewrite (loop_quoted q w Q). cbn [app parse_list_loop].
    change (34 =? 92) with false. change (34 =? 34) with true. cbv iota. rewrite IH. cbn [rev]. rewrite rev_app_distr. cbn [rev]. rewrite <- !app_assoc. reflexivity.
Qed.
Lemma loop_last t v : last_element t v -> forall out, parse_list_loop t false false [] out = match v with [] => out | _ => out ++ [trim_space (encode_runes v)] end.
Proof.
  intros H out. assert (F : forall (v : bytes) out e q, parse_list_loop [] e q (rev v) out = match v with [] => out | _ => out ++ [trim_space (encode_runes v)] end).
  { clear. intros v out e q. cbn [parse_list_loop]. destruct (rev v) as [|x l] eqn:E; [apply (f_equal (@rev Z)) in E; rewrite rev_involutive in E; subst v; reflexivity|].
    rewrite <- E, rev_involutive. destruct v; [discriminate|reflexivity]. }
  destruct H as [t v H|a b q w H Q|a b q w H Q].
  - rewrite <- (app_nil_r t), (loop_element t v H), app_nil_r. apply F.
  - rewrite (loop_element a b H). cbn [parse_list_loop]. change ((34 =? 44) || (34 =? 59) || (34 =? 10)) with false. change (34 =? 34) with true. cbv iota.
    rewrite <- (app_nil_r q), (loop_quoted q w Q). rewrite <- (F (b ++ 34 :: w) out false true). f_equal. rewrite rev_app_distr. cbn [rev]. rewrite app_nil_r, <- !app_assoc. reflexivity.
  - rewrite (loop_element a b H). cbn [parse_list_loop]. change ((34 =? 44) || (34 =? 59) || (34 =? 10)) with false. change (34 =? 34) with true. cbv iota.
    rewrite (loop_quoted q w Q). replace (rev w ++ 34 :: rev b ++ []) with (rev (b ++ 34 :: w)) by (rewrite rev_app_distr; cbn [rev]; rewrite app_nil_r, <- !app_assoc; reflexivity). exact (F (b ++ 34 :: w) out true true).
Qed.
Lemma quoted_ascii q w : quoted q w -> Forall ascii q -> Forall ascii w.
Proof. induction 1 as [|c t v H1 H2 H IH|c t v H IH]; intros A; [constructor| |]; repeat (apply Forall_cons_iff in A; destruct A as [? A]); constructor; auto. Qed.
Lemma element_ascii t v : element t v -> Forall ascii t -> Forall ascii v.
Proof.
  induction 1 as [|c t v H1 H2 H IH|q w t v Q H IH]; intros A; [constructor| |].
  - apply Forall_cons_iff in A. constructor; [apply A|apply IH, A].
  - apply Forall_cons_iff in A. destruct A as [A0 A]. apply Forall_app in A. destruct A as [A1 A2]. apply Forall_cons_iff in A2. constructor; [assumption|]. apply Forall_app. split; [eapply quoted_ascii; eassumption|constructor; [assumption|apply IH, A2]].
Qed.
Lemma last_element_ascii t v : last_element t v -> Forall ascii t -> Forall ascii v.
Proof.
  intros [t' v' H|a b q w H Q|a b q w H Q] A; [eapply element_ascii; eassumption| |]; apply Forall_app in A; destruct A as [A1 A2]; apply Forall_cons_iff in A2; destruct A2 as [A2 A3]; apply Forall_app; (split; [eapply element_ascii; eassumption|]); constructor; try assumption.
  - eapply quoted_ascii; eassumption.
  - apply Forall_app in A3. eapply quoted_ascii; [eassumption|apply A3].
Qed.
Lemma last_element_nil t v : last_element t v -> (t = [] <-> v = []).
Proof.
  intros [t' v' H|a b q w H Q|a b q w H Q].
  - destruct H; split; congruence.
  - split; intros E; apply app_eq_nil in E; destruct E; discriminate.
  - split; intros E; apply app_eq_nil in E; destruct E; discriminate.
Qed.
Lemma blank_space c : ascii c -> (is_space c = true <-> blank c).
Proof. intros H. rewrite (space_ascii c H). unfold blank. rewrite Bool.orb_true_iff, btw_spec. lia. Qed.
Lemma trim_trimmed s t : Forall ascii s -> trimmed s t -> trim_space s = t.
Proof.
  intros A [a [b [-> [Ha [Hb [H1 H2]]]]]]. rewrite trim_space_ascii by assumption. rewrite !Forall_app in A. destruct A as [A1 [A2 A3]].
  assert (Sa : forall x y, Forall ascii x -> Forall blank x -> (forall c u, y = c :: u -> is_space c = false) -> drop_while is_space (x ++ y) = y).
  { intros x y Ax Bx Hy. induction x as [|c x IH].
    - destruct y as [|c u]; [reflexivity|]. cbn [app drop_while]. now rewrite (Hy c u eq_refl).
    - apply Forall_cons_iff in Ax. apply Forall_cons_iff in Bx. cbn [app drop_while]. replace (is_space c) with true by (symmetry; apply blank_space; [apply Ax|apply Bx]). apply IH; [apply Ax|apply Bx]. }
  assert (N : forall c, In c t -> ~ blank c -> is_space c = false).
  { intros c Hc Hn. destruct (is_space c) eqn:E; [|reflexivity]. exfalso. apply Hn, blank_space; [|assumption]. rewrite Forall_forall in A2. auto. }
  destruct t as [|d t].
  - assert (Z0 : forall x, Forall ascii x -> Forall blank x -> drop_while is_space x = []).
    { intros x Ax Bx. rewrite <- (app_nil_r x). apply Sa; try assumption. discriminate. }
    unfold trim_by. cbn [app]. rewrite (Z0 (a ++ b)); [reflexivity|apply Forall_app; auto|apply Forall_app; auto].
  - unfold trim_by. rewrite (Sa a ((d :: t) ++ b)); [|assumption|assumption|].
    + rewrite rev_app_distr, (Sa (rev b) (rev (d :: t))); [apply rev_involutive|now apply Forall_rev|now apply Forall_rev|].
      intros c u E. apply (f_equal (@rev Z)) in E. rewrite rev_involutive in E. cbn [rev] in E. apply N; [rewrite E; apply in_or_app; right; now left|]. now apply (H2 c (rev u)).
    + intros c u E. injection E as <- _. apply N; [now left|]. now apply (H1 d t).
Qed.
Lemma trimmed_exists s : exists t, trimmed s t.
Proof.
  assert (D : forall l, exists a t, l = a ++ t /\ Forall blank a /\ forall c u, t = c :: u -> ~ blank c).
  { induction l as [|c l [a [t [-> [H1 H2]]]]]; [exists [], []; repeat split; auto; discriminate|].
    assert (B : blank c \/ ~ blank c) by (unfold blank; lia). destruct B as [B|B]; [exists (c :: a), t; auto|].
    exists [], (c :: a ++ t). repeat split; auto. intros d u E. now injection E as <- _. }
  destruct (D s) as [a [x [-> [Ha Hx]]]]. destruct (D (rev x)) as [b [y [E [Hb Hy]]]]. apply (f_equal (@rev Z)) in E. rewrite rev_involutive, rev_app_distr in E.
  exists (rev y), a, (rev b). rewrite <- E. split; [reflexivity|]. split; [assumption|]. split; [now apply Forall_rev|]. split.
  - intros c u Ey. rewrite Ey in E. cbn [app] in E. exact (Hx _ _ E).
  - intros c u Ey. apply (f_equal (@rev Z)) in Ey. rewrite rev_involutive, rev_app_distr in Ey. cbn [rev app] in Ey. exact (Hy _ _ Ey).
Qed.
Lemma trimmed_ascii s t : Forall ascii s -> trimmed s t -> Forall ascii t.
Proof. intros A [a [b [-> _]]]. rewrite !Forall_app in A. apply A. Qed.

Lemma list_elements t es : elements t es -> Forall ascii t -> forall out, parse_list_loop t false false [] out = out ++ es.
Proof.
  induction 1 as [|t v e Hn H T|t v e c rest es H S T Hr IH]; intros A out.
  - cbn. now rewrite app_nil_r.
  - rewrite (loop_last t v H). destruct v as [|x v]; [exfalso; apply Hn, (last_element_nil _ _ H); reflexivity|]. rewrite encode_ascii by (eapply last_element_ascii; eassumption).
    rewrite (trim_trimmed _ e); [reflexivity|eapply last_element_ascii; eassumption|assumption].
  - apply Forall_app in A. destruct A as [A1 A2]. apply Forall_cons_iff in A2. destruct A2 as [_ A2]. rewrite (loop_element t v H), app_nil_r. cbn [parse_list_loop].
    rewrite (proj2 (sep_test c) S). rewrite rev_involutive, encode_ascii by (eapply element_ascii; eassumption). rewrite (trim_trimmed _ e) by (assumption || (eapply element_ascii; eassumption)).
    rewrite IH by assumption. now rewrite <- app_assoc.
Qed.
Lemma quoted_scan s : exists q w, quoted q w /\ (s = q \/ s = q ++ [92] \/ exists t, s = q ++ 34 :: t).
Proof.
  assert (K : forall n s, (length s <= n)%nat -> exists q w, quoted q w /\ (s = q \/ s = q ++ [92] \/ exists t, s = q ++ 34 :: t)).
  { clear. induction n as [|n IH]; intros s Hn; [destruct s; [|cbn in Hn; lia]; exists [], []; split; [constructor|now left]|].
    destruct s as [|c s]; [exists [], []; split; [constructor|now left]|]. destruct (Z.eq_dec c 34) as [->|N1]; [exists [], []; split; [constructor|right; right; now exists s]|].
    destruct (Z.eq_dec c 92) as [->|N2].
    - destruct s as [|d s]; [exists [], []; split; [constructor|right; now left]|]. destruct (IH s) as [q [w [Q H]]]; [cbn in Hn; lia|]. exists (92 :: d :: q), (d :: w). split; [now constructor|].
      destruct H as [->|[->|[t ->]]]; [now left|right; now left|right; right; now exists t].
    - destruct (IH s) as [q [w [Q H]]]; [cbn in Hn; lia|]. exists (c :: q), (c :: w). split; [now constructor|].
      destruct H as [->|[->|[t ->]]]; [now left|right; now left|right; right; now exists t]. }
  apply (K (length s)). lia.
Qed.
Lemma element_scan n : forall s, (length s <= n)%nat ->
  (exists v, last_element s v) \/ exists t v c rest, s = t ++ c :: rest /\ element t v /\ separator c.
Proof.
  induction n as [|n IH]; intros s Hn; [destruct s; [|cbn in Hn; lia]; left; exists []; constructor; constructor|].
  destruct s as [|c s]; [left; exists []; constructor; constructor|].
  assert (S : separator c \/ ~ separator c) by (unfold separator; lia). destruct S as [S|S]; [right; exists [], [], c, s; split; [reflexivity|]; split; [constructor|assumption]|].
  destruct (Z.eq_dec c 34) as [->|N].
  - destruct (quoted_scan s) as [q [w [Q [->|[->|[t ->]]]]]].
    + left. exists ([] ++ 34 :: w). apply (LE_open [] [] q w); [constructor|assumption].
    + left. exists ([] ++ 34 :: w). apply (LE_escape [] [] q w); [constructor|assumption].
    + destruct (IH t) as [[v H]|[t' [v [c [rest [-> [H Sc]]]]]]].
      * cbn in Hn. rewrite app_length in Hn. cbn in Hn. lia.
      * left. destruct H as [t v H|a b q' w' H Q'|a b q' w' H Q'].
        -- eexists. apply LE_whole, El_quoted; eassumption.
        -- exists ((34 :: w ++ 34 :: b) ++ 34 :: w'). replace (34 :: q ++ 34 :: a ++ 34 :: q') with ((34 :: q ++ 34 :: a) ++ 34 :: q') by (cbn [app]; rewrite <- app_assoc; reflexivity). apply LE_open; [now apply El_quoted|assumption].
        -- exists ((34 :: w ++ 34 :: b) ++ 34 :: w'). replace (34 :: q ++ 34 :: a ++ 34 :: q' ++ [92]) with ((34 :: q ++ 34 :: a) ++ 34 :: q' ++ [92]) by (cbn [app]; rewrite <- app_assoc; reflexivity). apply LE_escape; [now apply El_quoted|assumption].
      * right. exists (34 :: q ++ 34 :: t'), (34 :: w ++ 34 :: v), c, rest. split; [cbn [app]; rewrite <- app_assoc; reflexivity|]. split; [now apply El_quoted|assumption].
  - destruct (IH s) as [[v H]|[t' [v [d [rest [-> [H Sc]]]]]]]; [cbn in Hn; lia| |].
    + left. destruct H as [t v H|a b q' w' H Q'|a b q' w' H Q'].
      * eexists. apply LE_whole, El_char; eassumption.
      * exists ((c :: b) ++ 34 :: w'). apply (LE_open (c :: a)); [now apply El_char|assumption].
      * exists ((c :: b) ++ 34 :: w'). apply (LE_escape (c :: a)); [now apply El_char|assumption].
    + right. exists (c :: t'), (c :: v), d, rest. split; [reflexivity|]. split; [now apply El_char|assumption].
Qed.
Lemma elements_exist s : exists es, elements s es.
Proof.
  assert (K : forall n s, (length s <= n)%nat -> exists es, elements s es).
  { clear. induction n as [|n IH]; intros s Hn; [destruct s; [|cbn in Hn; lia]; exists []; constructor|]. destruct s as [|c s]; [exists []; constructor|].
    destruct (element_scan _ (c :: s) (le_n _)) as [[v H]|[t [v [d [rest [E [H Sc]]]]]]]; destruct (trimmed_exists v) as [e T].
    - exists [e]. eapply Es_last; [discriminate|eassumption|assumption].
    - rewrite E in *. destruct (IH rest) as [es Hr]; [rewrite app_length in Hn; cbn in Hn; lia|]. exists (e :: es). eapply Es_more; eassumption. }
  apply (K (length s)). lia.
Qed.

(** * Parameters *)
Lemma param_fun e k v k' v' : param e k v -> param e k' v' -> k = k' /\ v = v'.
Proof.
  assert (U : forall a b x y, without [61] a -> without [61] x -> a ++ 61 :: b = x ++ 61 :: y -> a = x /\ b = y).
  { intros a b x y Ha Hx E. pose proof (cut_app 61 a b (wo_1 _ _ Ha)) as C1. pose proof (cut_app 61 x y (wo_1 _ _ Hx)) as C2. rewrite E, C2 in C1. injection C1 as -> ->. auto. }
  assert (V : forall a b x, without [61] x -> x <> a ++ 61 :: b) by (intros a b x Hx ->; apply wo_app in Hx; destruct Hx as [_ Hx]; apply Forall_inv in Hx; cbn in Hx; tauto).
  intros H H'. destruct H as [k H|k v H|k v H H1 H2 H3]; inversion H' as [k0 G E1 E2 E3|k0 v0 G E1 E2 E3|k0 v0 G G1 G2 G3 E1 E2 E3]; subst.
  - auto.
  - exfalso. exact (V k' (34 :: v' ++ [34]) _ H eq_refl).
  - exfalso. exact (V k' v' _ H eq_refl).
  - exfalso. exact (V k (34 :: v ++ [34]) _ G eq_refl).
  - destruct (U k' (34 :: v' ++ [34]) k (34 :: v ++ [34]) G H E1) as [-> E]. injection E as E. apply app_inj_tail in E. destruct E as [-> _]. auto.
  - destruct (U k' v' k (34 :: v ++ [34]) G H E1) as [-> E]. exfalso. exact (G3 v E).
  - exfalso. exact (V k v _ G eq_refl).
  - destruct (U k' (34 :: v' ++ [34]) k v G H E1) as [-> E]. exfalso. exact (H3 v' (eq_sym E)).
  - destruct (U k' v' k v G H E1) as [-> ->]. auto.
Qed.
Lemma at_end l d : at_ (l ++ [d]) (len l) = d.
Proof. unfold at_, len. rewrite Nat2Z.id, app_nth2 by lia. now rewrite Nat.sub_diag. Qed.
Lemma slice_mid c d v : slice (c :: v ++ [d]) 1 (len (c :: v ++ [d]) - 1) = v.
Proof.
  unfold slice. change (Z.to_nat 1) with 1%nat. cbn [skipn]. rewrite len_cons, len_app. change (len [d]) with 1. replace (Z.to_nat (1 + (len v + 1) - 1 - 1)) with (length v) by (unfold len; lia).
  rewrite firstn_app, Nat.sub_diag, firstn_all. cbn [firstn]. apply app_nil_r.
Qed.
Lemma param_pair e : broken e \/ ~ broken e /\ exists k v, param e k v /\ forall m, parse_pair m e = Ok (mset k v m).
Proof.
  enough (G : broken e \/ exists k v, param e k v /\ forall m, parse_pair m e = Ok (mset k v m)).
  { destruct G as [G|[k [v [G1 G2]]]]; [now left|]. right. split; [|eauto]. destruct (parse_pair_cases [] e) as [[E _]|[_ N]]; [now rewrite G2 in E|assumption]. }
  destruct (cut 61 e) as [[k w]|] eqn:C.
  - apply cut_some in C. destruct C as [-> C]. assert (Hk : without (str "=") k) by (eapply Forall_impl; [|exact C]; cbn; intros; lia).
    assert (D : w = [] \/ w = [34] \/ (exists v, w = [34] ++ v ++ [34]) \/ w <> [] /\ w <> [34] /\ forall v, w <> [34] ++ v ++ [34]).
    { destruct w as [|c w]; [now left|]. right. destruct (Z.eq_dec c 34) as [->|N]; [|right; right; split; [discriminate|]; split; [congruence|intros v E; injection E as -> _; congruence]].
      destruct (list_eq_dec Z.eq_dec w []) as [->|Hw]; [now left|]. right. destruct (exists_last Hw) as [v [d ->]]. destruct (Z.eq_dec d 34) as [->|N]; [left; now exists v|].
      right. split; [discriminate|]. split; [destruct v; discriminate|]. intros u E. injection E as E. apply app_inj_tail in E. destruct E as [_ E]. congruence. }
    destruct D as [->|[->|[[v ->]|[D1 [D2 D3]]]]].
    + left. exists k. auto.
    + left. exists k. auto.
    + right. exists k, v. split; [exact (Pa_quoted k v Hk)|]. intros m. unfold parse_pair. rewrite (cut_app 61 k _ C). cbn [app]. rewrite go_at_head. cbn [bind]. change (34 =? 34) with true. cbv iota.
      rewrite go_at_last. cbn [bind]. replace (at_ (34 :: v ++ [34]) (len (v ++ [34]))) with 34.
      * change (34 =? 34) with true. cbv iota. destruct v as [|c v]; [reflexivity|]. cbn [app]. rewrite go_slice_inner. cbn [bind]. change (34 :: c :: v ++ [34]) with (34 :: (c :: v) ++ [34]). now rewrite slice_mid.
      * replace (len (v ++ [34])) with (len (34 :: v)) by (rewrite len_app, len_cons; unfold len; cbn [length]; lia). change (34 :: v ++ [34]) with ((34 :: v) ++ [34]). now rewrite at_end.
    + right. exists k, w. split; [exact (Pa_value k w Hk D1 D2 D3)|]. intros m. unfold parse_pair. rewrite (cut_app 61 k _ C). destruct w as [|c w]; [congruence|]. rewrite go_at_head. cbn [bind].
      destruct (c =? 34) eqn:E; [|reflexivity]. apply Z.eqb_eq in E. subst c. rewrite go_at_last. cbn [bind].
      destruct (list_eq_dec Z.eq_dec w []) as [->|Hw]; [congruence|]. destruct (exists_last Hw) as [v [d ->]].
      replace (len (v ++ [d])) with (len (34 :: v)) by (rewrite len_app, len_cons; unfold len; cbn [length]; lia). change (34 :: v ++ [d]) with ((34 :: v) ++ [d]). rewrite at_end.
      destruct (d =? 34) eqn:E; [|reflexivity]. apply Z.eqb_eq in E. subst d. now destruct (D3 v).
  - apply cut_none_inv in C. right. exists e, []. split; [constructor; eapply Forall_impl; [|exact C]; cbn; intros; lia|]. intros m. unfold parse_pair. rewrite cut_none by assumption. reflexivity.
Qed.
Lemma pairs_result es : ~ Exists broken es -> forall m0, exists m, parse_pairs m0 es = Ok m /\
  forall k v, mget k m = Some v <-> last_value es k v \/ mget k m0 = Some v /\ forall e v', In e es -> ~ param e k v'.
Proof.
  induction es as [|e es IH]; intros N m0.
  - exists m0. split; [reflexivity|]. intros k v. split; [intros H; right; auto|]. intros [[b [e [a [E _]]]]|[H _]]; [destruct b; discriminate|assumption].
  - destruct (param_pair e) as [B|[_ [k [v [P H]]]]]; [exfalso; apply N; now left|]. destruct (IH (fun X => N (Exists_cons_tl _ X)) (mset k v m0)) as [m [E G]].
    exists m. split; [cbn [parse_pairs]; rewrite H; exact E|]. intros k' v'. rewrite G. split.
    + intros [[b [e' [a [-> [P' L]]]]]|[M L]]; [left; exists (e :: b), e', a; auto|]. destruct (list_eq_dec Z.eq_dec k k') as [->|D].
      * rewrite mget_mset_same in M. injection M as <-. left. exists [], e, es. auto.
      * rewrite mget_mset_other in M by congruence. right. split; [assumption|]. intros e' v0 [<-|I]; [|now apply L]. intros P'. destruct (param_fun _ _ _ _ _ P P') as [-> _]. now apply D.
    + intros [[b [e' [a [E' [P' L]]]]]|[M L]].
      * destruct b as [|x b]; injection E' as <- ->; [|left; exists b, e', a; auto]. right. destruct (param_fun _ _ _ _ _ P P') as [-> ->]. rewrite mget_mset_same. auto.
      * right. destruct (list_eq_dec Z.eq_dec k k') as [->|D]; [now destruct (L e v (or_introl eq_refl))|]. rewrite mget_mset_other by congruence. split; [assumption|]. intros e' v0 I. apply L. now right.
Qed.
