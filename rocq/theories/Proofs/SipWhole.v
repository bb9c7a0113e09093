(** Proofs for C156. *)
From Coq Require Import String.
From Verif Require Import Base.Go Base.GoFacts Base.IO Base.Text Model.Sip Spec.Sip Spec.SipLine Proofs.Text Proofs.Sip Proofs.SipMsg Proofs.SipRead Proofs.SipParse Proofs.SipMore Proofs.SipHeaders Proofs.SipLine Proofs.SipAddr Props.SipLine Props.SipAddr Spec.SipAddr Spec.SipWhole.
Import ListNotations. Local Open Scope list_scope. Local Open Scope Z_scope.

(** * Trimming *)
Lemma trim_parts (p : Z -> bool) (t a b : bytes) :
  Forall (fun c => p c = true) a -> Forall (fun c => p c = true) b ->
  (forall c u, t = c :: u -> p c = false) -> (forall c u, t = u ++ [c] -> p c = false) -> trim_by p (a ++ t ++ b) = t.
Proof.
  intros Ha Hb H1 H2.
  assert (Sa : forall x y, Forall (fun c => p c = true) x -> (forall c u, y = c :: u -> p c = false) -> drop_while p (x ++ y) = y).
  { clear. induction x as [|c x IH]; intros y Hx Hy.
    - destruct y as [|d y]; [reflexivity|]. cbn [app drop_while]. now rewrite (Hy d y).
    - apply Forall_cons_iff in Hx. destruct Hx as [Hc Hx]. cbn [app drop_while]. rewrite Hc. now apply IH. }
  destruct t as [|d t].
  - assert (Z0 : forall x, Forall (fun c => p c = true) x -> drop_while p x = []) by (intros x Hx; rewrite <- (app_nil_r x); apply Sa; [assumption|discriminate]).
    unfold trim_by. cbn [app]. rewrite (Z0 (a ++ b)); [reflexivity|apply Forall_app; auto].
  - unfold trim_by. rewrite (Sa a ((d :: t) ++ b)); [|assumption|].
    + rewrite rev_app_distr, (Sa (rev b) (rev (d :: t))); [apply rev_involutive|now apply Forall_rev|].
      intros c u E. apply (f_equal (@rev Z)) in E. rewrite rev_involutive in E. cbn [rev] in E. now apply (H2 c (rev u)).
    + intros c u E. injection E as <- _. now apply (H1 d t).
Qed.
Lemma trim_exists (p : Z -> bool) (s : bytes) : exists a t b, s = a ++ t ++ b /\ Forall (fun c => p c = true) a /\ Forall (fun c => p c = true) b /\
  (forall c u, t = c :: u -> p c = false) /\ (forall c u, t = u ++ [c] -> p c = false).
Proof.
  assert (D : forall l : bytes, exists a t, l = a ++ t /\ Forall (fun c => p c = true) a /\ forall c u, t = c :: u -> p c = false).
  { induction l as [|c l [a [t [-> [H1 H2]]]]]; [exists [], []; repeat split; auto; discriminate|].
    destruct (p c) eqn:B; [exists (c :: a), t; auto|]. exists [], (c :: a ++ t). repeat split; auto. intros d u E. now injection E as <- _. }
  destruct (D s) as [a [x [-> [Ha Hx]]]]. destruct (D (rev x)) as [b [y [E [Hb Hy]]]]. apply (f_equal (@rev Z)) in E. rewrite rev_involutive, rev_app_distr in E.
  exists a, (rev y), (rev b). rewrite <- E. split; [reflexivity|]. split; [assumption|]. split; [now apply Forall_rev|]. split.
  - intros c u Ey. rewrite Ey in E. cbn [app] in E. exact (Hx _ _ E).
  - intros c u Ey. apply (f_equal (@rev Z)) in Ey. rewrite rev_involutive, rev_app_distr in Ey. cbn [rev app] in Ey. exact (Hy _ _ Ey).
Qed.
Lemma bare_iff l t : bare l t <-> trim_crlf l = t.
Proof.
  assert (F : forall l t, bare l t -> trim_crlf l = t).
  { clear. intros l t [a [b [-> [Ha [Hb [H1 H2]]]]]]. unfold trim_crlf. apply trim_parts.
    - eapply Forall_impl; [|exact Ha]. cbn. intros; lia.
    - eapply Forall_impl; [|exact Hb]. cbn. intros; lia.
    - intros c u E. specialize (H1 c u E). lia.
    - intros c u E. specialize (H2 c u E). lia. }
  split; [apply F|]. intros <-. destruct (trim_exists (fun c => (c =? 13) || (c =? 10)) l) as [a [t [b [E [Ha [Hb [H1 H2]]]]]]].
  assert (B : bare l t). { exists a, b. split; [assumption|]. split; [eapply Forall_impl; [|exact Ha]; cbn; intros; lia|]. split; [eapply Forall_impl; [|exact Hb]; cbn; intros; lia|]. split; intros c u Et; [specialize (H1 c u Et)|specialize (H2 c u Et)]; lia. }
  now rewrite (F _ _ B).
Qed.
Lemma spaces_iff l t : bare_of_spaces l t <-> trim_sp l = t.
Proof.
  assert (F : forall l t, bare_of_spaces l t -> trim_sp l = t).
  { clear. intros l t [a [b [-> [Ha [Hb [H1 H2]]]]]]. unfold trim_sp. apply trim_parts.
    - eapply Forall_impl; [|exact Ha]. cbn. intros; lia.
    - eapply Forall_impl; [|exact Hb]. cbn. intros; lia.
    - intros c u E. specialize (H1 c u E). lia.
    - intros c u E. specialize (H2 c u E). lia. }
  split; [apply F|]. intros <-. destruct (trim_exists (fun c => c =? 32) l) as [a [t [b [E [Ha [Hb [H1 H2]]]]]]].
  assert (B : bare_of_spaces l t). { exists a, b. split; [assumption|]. split; [eapply Forall_impl; [|exact Ha]; cbn; intros; lia|]. split; [eapply Forall_impl; [|exact Hb]; cbn; intros; lia|]. split; intros c u Et; [specialize (H1 c u Et)|specialize (H2 c u Et)]; lia. }
  now rewrite (F _ _ B).
Qed.

(** * Lines *)
Lemma next_line_of size r l rest : next_line size r l rest -> exists e, line_of size r = Some (l, e, rest) /\ l <> [].
Proof.
  intros [-> [N [[[u [-> U]] L]|[U [-> L]]]]]; unfold line_of.
  - rewrite <- app_assoc. cbn [app]. rewrite (cut_app 10 u rest (wo_1 _ _ U)). rewrite len_app in L. change (len [10]) with 1 in L. replace (_ <=? _) with true by lia. eauto.
  - rewrite app_nil_r. rewrite (cut_none 10 l (wo_1 _ _ U)). replace (_ <? _) with true by lia. eauto.
Qed.
Lemma too_long_of size r : 0 < size -> too_long size r -> line_of size r = None.
Proof.
  intros Hs [a [b [-> [L U]]]]. unfold line_of. destruct (cut 10 (a ++ b)) as [[u t]|] eqn:E.
  - apply cut_some in E. destruct E as [E W]. replace (_ <=? _) with false; [reflexivity|]. symmetry. apply Z.leb_gt.
    assert (Hl : (length a <= length u)%nat).
    { destruct (Nat.le_gt_cases (length a) (length u)) as [|G]; [assumption|]. exfalso. assert (I : In 10 a).
      { assert (X : firstn (S (length u)) (a ++ b) = u ++ [10]) by (rewrite E, firstn_app, firstn_all2 by lia; replace (S (length u) - length u)%nat with 1%nat by lia; reflexivity).
        rewrite firstn_app in X. replace (S (length u) - length a)%nat with 0%nat in X by lia. rewrite firstn_O, app_nil_r in X. rewrite <- (firstn_skipn (S (length u)) a), X. apply in_or_app. left. apply in_or_app. right. now left. }
      apply wo_1 in U. rewrite Forall_forall in U. now apply (U 10). }
    unfold len in *. lia.
  - rewrite len_app. pose proof (len_nonneg b). replace (_ <? _) with false by lia. reflexivity.
Qed.
Lemma line_cases size r : 0 < size -> r = [] \/ too_long size r \/ exists l rest, next_line size r l rest.
Proof.
  intros Hs. assert (W : forall u, Forall (fun c => c <> 10) u -> without [10] u) by (intros u H; eapply Forall_impl; [|exact H]; cbn; intros; lia).
  assert (T : forall u v, without [10] u -> size <= len u -> too_long size (u ++ v)).
  { intros u v Hu L. exists (take u size), (drop u size ++ v). unfold take, drop. rewrite app_assoc, firstn_skipn. split; [reflexivity|]. unfold len in *. rewrite firstn_length. split; [lia|].
    unfold without in *. rewrite Forall_forall in *. intros c Hc. apply Hu. rewrite <- (firstn_skipn (Z.to_nat size) u). apply in_or_app. now left. }
  destruct (cut 10 r) as [[u t]|] eqn:E.
  - apply cut_some in E. destruct E as [-> U]. right. destruct (Z_le_gt_dec size (len u)) as [L|L]; [left; apply T; auto|right]. exists (u ++ [10]), t. split; [now rewrite <- app_assoc|]. split; [intros C; apply app_eq_nil in C; destruct C; discriminate|].
    left. split; [exists u; auto|]. rewrite len_app. change (len [10]) with 1. lia.
  - apply cut_none_inv in E. destruct r as [|c r]; [now left|right]. destruct (Z_le_gt_dec size (len (c :: r))) as [L|L]; [left; rewrite <- (app_nil_r (c :: r)); apply T; auto|right]. exists (c :: r), []. split; [now rewrite app_nil_r|]. split; [discriminate|]. right. split; [auto|]. split; [reflexivity|lia].
Qed.
Lemma begins_parts size r ls used tail : begins size r ls used tail -> r = used ++ tail.
Proof. induction 1 as [|r l t rest ls used tail [-> _] _ _ _ ->]; [reflexivity|]. now rewrite app_assoc. Qed.
Lemma begins_prefix size r a b used tail : begins size r (a ++ b) used tail -> exists used' tail', begins size r a used' tail'.
Proof.
  revert r used. induction a as [|t a IH]; intros r used H; [exists [], r; constructor|]. cbn [app] in H. inversion H as [|r0 l t0 rest ls0 u0 tl N B Ht K]; subst. destruct (IH _ _ K) as [u' [t' K']]. exists (l ++ u'), t'. econstructor; eassumption.
Qed.
Lemma begins_exists size r : 0 < size -> exists ls used tail, begins size r ls used tail /\ (too_long size tail \/ exists eol rest, ends_here size tail eol rest).
Proof.
  intros Hs. assert (K : forall n r, (length r <= n)%nat -> exists ls used tail, begins size r ls used tail /\ (too_long size tail \/ exists eol rest, ends_here size tail eol rest)).
  { clear r. induction n as [|n IH]; intros r Hn.
    - destruct r; [|cbn in Hn; lia]. exists [], [], []. split; [constructor|]. right. exists [], []. now left.
    - destruct (line_cases size r Hs) as [->|[T|[l [rest N]]]].
      + exists [], [], []. split; [constructor|]. right. exists [], []. now left.
      + exists [], [], r. split; [constructor|now left].
      + destruct (trim_crlf l) as [|c t] eqn:E.
        * exists [], [], r. split; [constructor|]. right. exists l, rest. right. split; [assumption|now apply bare_iff].
        * destruct (IH rest) as [ls [used [tail [B X]]]].
          { destruct N as [-> [N _]]. rewrite app_length in Hn. destruct l; [congruence|]. cbn in Hn. lia. }
          exists ((c :: t) :: ls), (l ++ used), tail. split; [|assumption]. econstructor; [eassumption|now apply bare_iff|discriminate|assumption]. }
  now apply (K (length r)).
Qed.
Lemma run_pure size r ls used tail : begins size r ls used tail -> forall fuel count off buf s, 0 <= count -> (length r + 1 < fuel)%nat ->
  match run_lines count ls s with
  | (s', Ok _) => exists fuel' count', (length tail + 1 < fuel')%nat /\ lines_pure fuel size r count off buf s = lines_pure fuel' size tail count' (off + len used) (buf ++ used) s'
  | (s', Err e) => lines_pure fuel size r count off buf s = (s', Err e)
  | (s', Panic) => lines_pure fuel size r count off buf s = (s', Panic)
  | (s', OutOfFuel) => lines_pure fuel size r count off buf s = (s', OutOfFuel)
  end.
Proof.
  induction 1 as [r|r l t rest ls used tail N Bt Ht B IH]; intros fuel count off buf s Hc Hf; cbn [run_lines].
  - exists fuel, count. split; [assumption|]. rewrite app_nil_r. change (len (@nil Z)) with 0. now rewrite Z.add_0_r.
  - destruct fuel as [|f]; [lia|]. cbn [lines_pure]. destruct (next_line_of _ _ _ _ N) as [e [-> Nl]]. destruct N as [-> _].
    assert (Hl : 0 < len l) by (destruct l; [congruence|rewrite len_cons; pose proof (len_nonneg l); lia]).
    replace (e && (len l =? 0)) with false by (destruct e; cbn [andb]; [symmetry; apply Z.eqb_neq; lia|reflexivity]). apply bare_iff in Bt. rewrite Bt.
    replace (len t =? 0) with false by (destruct t; [congruence|rewrite len_cons; pose proof (len_nonneg t); symmetry; apply Z.eqb_neq; lia]).
    destruct (if count =? 0 then parse_first_line t s else parse_header t s) as [s1 [u|er| |]]; try reflexivity.
    specialize (IH f (count + 1) (off + len l) (buf ++ l) s1 ltac:(lia) ltac:(rewrite app_length in Hf; unfold len in Hl; lia)).
    destruct (run_lines (count + 1) ls s1) as [s2 [u2|er2| |]]; try exact IH. destruct IH as [f' [c' [L E]]]. exists f', c'. split; [assumption|]. rewrite E. rewrite len_app, <- app_assoc. f_equal. lia.
Qed.
Lemma run_feed hs : forall count s, 0 < count -> run_lines count hs s = feed hs s.
Proof. induction hs as [|l hs IH]; intros count s H; cbn [run_lines feed]; [reflexivity|]. replace (count =? 0) with false by lia. destruct (parse_header l s) as [s1 [u|e| |]]; try reflexivity. apply IH. lia. Qed.

(** * Header fields *)
Definition held (fs : list (bytes * bytes)) (y x : sip) : Prop :=
  exists m l, x = with_last l (with_headers (Some m) y) /\ (forall k, mget k m = match values fs k with [] => None | vs => Some vs end) /\
    (forall gs n v, fs = gs ++ [(n, v)] -> l = n).
Lemma values_app fs gs k : values (fs ++ gs) k = values fs k ++ values gs k.
Proof. unfold values. now rewrite filter_app, map_app. Qed.
Lemma values_one n v k : values [(n, v)] k = if bytes_eqb n k then [v] else [].
Proof. unfold values. cbn [filter fst]. now destruct (bytes_eqb n k). Qed.
Lemma append_last_app x l v : append_last x (l ++ [v]) = Some (l ++ [v ++ x]).
Proof. induction l as [|w l IH]; [reflexivity|]. cbn [app append_last]. rewrite IH. destruct (l ++ [v]) eqn:E; [apply app_eq_nil in E; destruct E; discriminate|reflexivity]. Qed.
Lemma fields_feed hs fs y : s_headers y = Some [] -> fields hs fs -> exists x, feed hs y = (x, Ok tt) /\ held fs y x.
Proof.
  intros H0. induction 1 as [|ls fs l a b n v H IH Hc El Ha Hn Hv|ls fs l n v H IH Hc|ls fs l H IH Hc Hw].
  - exists y. split; [reflexivity|]. exists [], (s_last y). split; [destruct y; cbn in *; subst; reflexivity|]. split; [reflexivity|]. intros gs n v E. destruct gs; discriminate.
  - destruct IH as [x [E [m [la [-> [M L]]]]]]. rewrite feed_app, E. cbn [feed]. rewrite El in Hc |- *. unfold parse_header.
    destruct (a ++ str ":" ++ b) as [|c t] eqn:Ec; [destruct a; discriminate|]. replace ((c =? 9) || (c =? 32)) with false by (symmetry; apply Bool.not_true_iff_false; intros C; apply Hc; now apply continuation_dec).
    rewrite <- Ec. change (a ++ str ":" ++ b) with (a ++ 58 :: b). rewrite (cut_app 58 a b (wo_1 _ _ Ha)). cbn [with_last with_headers s_headers]. apply spaces_iff in Hn, Hv. rewrite Hn, Hv. eexists. split; [reflexivity|].
    do 2 eexists. split; [reflexivity|]. split.
    + intros k. rewrite values_app, values_one. unfold hvals, hlook. rewrite mget_mset. destruct (bytes_eqb (to_lower n) k) eqn:Ek.
      * apply bytes_eqb_eq in Ek. subst k. rewrite bytes_eqb_refl, M. destruct (values fs (to_lower n)); reflexivity.
      * destruct (bytes_eqb k (to_lower n)) eqn:Ek'; [apply bytes_eqb_eq in Ek'; subst k; rewrite bytes_eqb_refl in Ek; discriminate|]. rewrite app_nil_r. apply M.
    + intros gs n' v' Eg. apply app_inj_tail in Eg. destruct Eg as [_ Eg]. now injection Eg.
  - destruct IH as [x [E [m [la [-> [M L]]]]]]. rewrite feed_app, E. cbn [feed]. unfold parse_header.
    destruct l as [|c t]; [destruct Hc as [t [C|C]]; discriminate|]. rewrite (proj1 (continuation_dec c t) Hc). cbn [with_last with_headers s_headers s_last]. rewrite (L _ _ _ eq_refl).
    unfold hvals, hlook. rewrite M, values_app, values_one, bytes_eqb_refl.
    destruct (values fs n ++ [v]) as [|w ws] eqn:Ev; [apply app_eq_nil in Ev; destruct Ev; discriminate|]. rewrite <- Ev, append_last_app. eexists. split; [reflexivity|].
    do 2 eexists. split; [reflexivity|]. split.
    + intros k. rewrite values_app, values_one, mget_mset. destruct (bytes_eqb n k) eqn:Ek.
      * apply bytes_eqb_eq in Ek. subst k. rewrite bytes_eqb_refl. destruct (values fs n); reflexivity.
      * destruct (bytes_eqb k n) eqn:Ek'; [apply bytes_eqb_eq in Ek'; subst k; rewrite bytes_eqb_refl in Ek; discriminate|]. rewrite app_nil_r, M, values_app, values_one, Ek. now rewrite app_nil_r.
    + intros gs n' v' Eg. apply app_inj_tail in Eg. destruct Eg as [_ Eg]. now injection Eg.
  - destruct IH as [x [E [m [la [-> [M L]]]]]]. rewrite feed_app, E. cbn [feed]. unfold parse_header. destruct l as [|c t]; [eexists; split; [reflexivity|]; do 2 eexists; eauto|].
    replace ((c =? 9) || (c =? 32)) with false by (symmetry; apply Bool.not_true_iff_false; intros C; apply Hc; now apply continuation_dec). rewrite cut_none by (apply wo_1; assumption). eexists. split; [reflexivity|]. do 2 eexists. eauto.
Qed.
Lemma feed_fields_ex hs y x : s_headers y = Some [] -> feed hs y = (x, Ok tt) -> exists fs, fields hs fs /\ held fs y x.
Proof.
  intros H0. revert x. induction hs as [|l hs IH] using rev_ind; intros x E.
  - exists []. split; [constructor|]. destruct (fields_feed [] [] y H0 F_none) as [x' [E' K]]. rewrite E in E'. now injection E' as <-.
  - rewrite feed_app in E. destruct (feed hs y) as [x1 [u|e| |]] eqn:E1; try discriminate. destruct u. destruct (IH x1 eq_refl) as [fs [F K]].
    enough (G : exists gs, fields (hs ++ [l]) gs). { destruct G as [gs G]. exists gs. split; [assumption|]. destruct (fields_feed _ _ y H0 G) as [x' [E' K']]. rewrite feed_app, E1, E in E'. injection E' as <-. assumption. }
    destruct K as [m [la [-> [M L]]]]. cbn [feed] in E. destruct l as [|c t].
    + exists fs. apply F_other; [assumption| |constructor]. intros [t [C|C]]; discriminate.
    + destruct ((c =? 9) || (c =? 32)) eqn:Ec.
      * destruct fs as [|f fs _] using rev_ind.
        -- unfold parse_header in E. rewrite Ec in E. cbn [with_last with_headers s_headers s_last] in E. unfold hvals, hlook in E. rewrite M in E. cbn in E. discriminate.
        -- destruct f as [n v]. eexists. eapply F_more; [exact F|now apply continuation_dec].
      * assert (Hc : ~ continuation (c :: t)) by (intros C; apply continuation_dec in C; congruence). destruct (cut 58 (c :: t)) as [[a b]|] eqn:Ek.
        -- apply cut_some in Ek. destruct Ek as [Ek Ha]. eexists. eapply F_field; [exact F|exact Hc|exact Ek| |now apply spaces_iff|now apply spaces_iff]. eapply Forall_impl; [|exact Ha]; cbn; intros; lia.
        -- apply cut_none_inv in Ek. exists fs. apply F_other; auto. eapply Forall_impl; [|exact Ek]; cbn; intros; lia.
Qed.
Lemma feed_panics hs y : s_headers y = Some [] -> (snd (feed hs y) = Panic <-> exists a l b, hs = a ++ l :: b /\ continuation l /\ ~ Exists header_line a).
Proof.
  intros H0. assert (Hy : hist y False) by (exists []; split; [assumption|]; right; auto). split.
  - intros H. pose proof (feed_hist hs y False Hy) as F. destruct (feed hs y) as [s [u|e| |]]; try discriminate; try contradiction. destruct F as [a [l [b [E1 [E2 [_ E3]]]]]]. eauto 6.
  - intros [a [l [b [-> [H1 H2]]]]]. rewrite feed_app. pose proof (feed_hist a y False Hy) as F. destruct (feed a y) as [s [u|e| |]]; try contradiction; [|reflexivity].
    cbn [feed]. pose proof (hist_step l s _ F) as S. destruct (parse_header l s) as [s1 [u1|e| |]]; try contradiction; [|reflexivity]. destruct S as [_ S]. elim S. split; [assumption|]. tauto.
Qed.
Lemma feed_no_err hs y : s_headers y = Some [] -> snd (feed hs y) = Ok tt \/ snd (feed hs y) = Panic.
Proof.
  intros H0. pose proof (feed_hist hs y False ltac:(exists []; split; [assumption|]; right; auto)) as F. destruct (feed hs y) as [s [[]|e| |]]; auto; contradiction.
Qed.
Lemma held_first fs y x name : held fs y x -> get_first (s_headers x) name = first_value fs (to_lower name).
Proof.
  intros [m [l [-> [M _]]]]. cbn [with_last with_headers s_headers]. unfold get_first, hlook, first_value. rewrite M. destruct (values fs (to_lower name)); reflexivity.
Qed.
Lemma cseq_iff t q : new_cseq t = Ok q <-> cseq_of t q.
Proof.
  assert (S : forall t q, cseq_of t q -> new_cseq t = Ok q).
  { clear. intros t q [E [W [[H1 H2]|H]]]; destruct q as [i m src]; cbn [q_src q_id q_method] in *; subst src.
    - subst t m. apply new_cseq_no_space, wo_1, W.
    - rewrite H. apply (new_cseq_split i m), wo_1, W. }
  split; [|apply S]. intros H. enough (G : exists q', cseq_of t q'). { destruct G as [q' G]. pose proof (S _ _ G) as G'. rewrite H in G'. injection G' as <-. assumption. }
  destruct (cut 32 t) as [[a b]|] eqn:E.
  - apply cut_some in E. destruct E as [-> E]. exists (mkCseq a b (a ++ 32 :: b)). split; [reflexivity|]. split; [eapply Forall_impl; [|exact E]; cbn; intros; lia|right; reflexivity].
  - apply cut_none_inv in E. exists (mkCseq t [] t). split; [reflexivity|]. split; [eapply Forall_impl; [|exact E]; cbn; intros; lia|left; auto].
Qed.
Lemma held_state fs y x : held fs y x -> exists m l, x = with_last l (with_headers (Some m) y) /\ forall k, mget k m = match values fs k with [] => None | vs => Some vs end.
Proof. intros [m [l [E [M _]]]]. eauto. Qed.
Lemma lower_names : Forall (fun n => to_lower n = n) [str "from"; str "to"; str "contact"; str "cseq"; str "via"; str "content-length"].
Proof. repeat constructor. Qed.
Lemma fill_typed fs y x : held fs y x ->
  (typed fs -> exists f t c q v, fill_header x = (with_common f t c q v x, Ok tt) /\ user_of (first_value fs (str "from")) f /\ user_of (first_value fs (str "to")) t /\
     user_of (first_value fs (str "contact")) c /\ cseq_of (first_value fs (str "cseq")) q /\ via_of (first_value fs (str "via")) v) /\
  (~ typed fs -> fill_header x = (x, Panic)).
Proof.
  intros H. assert (G : forall n, to_lower n = n -> get_first (s_headers x) n = first_value fs n) by (intros n E; rewrite (held_first _ _ _ n H), E; reflexivity).
  assert (Q : exists q, cseq_of (first_value fs (str "cseq")) q) by (destruct (new_cseq_total (first_value fs (str "cseq"))) as [q E]; exists q; now apply cseq_iff).
  unfold fill_header, get_sip_contact, get_sip_cseq, get_sip_from, get_sip_to, get_sip_via. rewrite !G by reflexivity. destruct Q as [q Q]. rewrite (proj2 (cseq_iff _ _) Q). split.
  - intros [T1 [v T2]]. destruct (T1 (str "from") ltac:(cbn; tauto)) as [f Tf]. destruct (T1 (str "to") ltac:(cbn; tauto)) as [t Tt]. destruct (T1 (str "contact") ltac:(cbn; tauto)) as [c Tc].
    exists f, t, c, q, v. rewrite (proj2 (C154_address_exactly _ _) Tf), (proj2 (C154_address_exactly _ _) Tt), (proj2 (C154_address_exactly _ _) Tc), (proj2 (C154_via_exactly _ _) T2). auto 8.
  - intros N. destruct (new_user_res (first_value fs (str "contact"))) as [[c Ec]|Ec]; [|rewrite Ec; reflexivity]. destruct (new_user_res (first_value fs (str "from"))) as [[f Ef]|Ef]; [|rewrite Ec, Ef; reflexivity].
    destruct (new_user_res (first_value fs (str "to"))) as [[t Et]|Et]; [|rewrite Ec, Ef, Et; reflexivity]. destruct (new_via_res (first_value fs (str "via"))) as [[v Ev]|Ev]; [|rewrite Ec, Ef, Et, Ev; reflexivity].
    exfalso. apply N. split; [|exists v; now apply C154_via_exactly]. intros n [<-|[<-|[<-|[]]]]; eexists; apply C154_address_exactly; eassumption.
Qed.
Lemma typed_dec fs : typed fs \/ ~ typed fs.
Proof.
  assert (U : forall t, (exists u, user_of t u) \/ ~ exists u, user_of t u).
  { intros t. destruct (new_user_res t) as [[u E]|E]; [left; exists u; now apply C154_address_exactly|right]. intros [u K]. apply C154_address_exactly in K. congruence. }
  assert (V : forall t, (exists u, via_of t u) \/ ~ exists u, via_of t u).
  { intros t. destruct (new_via_res t) as [[u E]|E]; [left; exists u; now apply C154_via_exactly|right]. intros [u K]. apply C154_via_exactly in K. congruence. }
  unfold typed. destruct (V (first_value fs (str "via"))) as [Hv|Hv]; [|right; tauto].
  destruct (U (first_value fs (str "from"))) as [H1|H1]; [|right; intros [K _]; apply H1, K; now left].
  destruct (U (first_value fs (str "to"))) as [H2|H2]; [|right; intros [K _]; apply H2, K; right; now left].
  destruct (U (first_value fs (str "contact"))) as [H3|H3]; [|right; intros [K _]; apply H3, K; right; right; now left].
  left. split; [|assumption]. intros n [<-|[<-|[<-|[]]]]; assumption.
Qed.

(** * The whole *)
Section Whole.
Context (blocks : list bytes) (size : Z) (s : sip) (Hsize : 0 < size) (Hs : s_headers s = Some []).
Let r := concat blocks.
Let parse := sip_parse (reader blocks size) s.
Lemma rinv_reader : rinv (reader blocks size).
Proof. split; [exact Hsize|]. split; [cbn; change (len (@nil Z)) with 0; lia|reflexivity]. Qed.
Lemma lines_run_read ls y fs : lines_read s ls y fs -> exists x, run_lines 0 ls s = (x, Ok tt) /\ held fs y x.
Proof.
  intros [[-> [-> ->]]|[first [hs [-> [F K]]]]].
  - exists s. split; [reflexivity|]. exists [], (s_last s). split; [destruct s; cbn in *; subst; reflexivity|]. split; [reflexivity|]. intros gs n v E. destruct gs; discriminate.
  - apply C152_first_line_exactly in F. assert (Hy : s_headers y = Some []) by (rewrite <- Hs; pose proof (first_line_headers first s) as [E _]; rewrite F in E; exact E).
    destruct (fields_feed hs fs y Hy K) as [x [E H]]. exists x. split; [|assumption]. cbn [run_lines]. change (0 =? 0) with true. cbv iota. rewrite F, run_feed by lia. exact E.
Qed.
Lemma run_read ls : match run_lines 0 ls s with
  | (x, Ok _) => exists y fs, lines_read s ls y fs
  | (x, Err e) => exists first hs, ls = first :: hs /\ first_line_of first s x (Err e)
  | (x, Panic) => (exists first hs, ls = first :: hs /\ first_line_of first s x Panic) \/
      exists first hs l b y, ls = (first :: hs ++ [l]) ++ b /\ first_line_of first s y (Ok tt) /\ continuation l /\ ~ Exists header_line hs
  | (x, OutOfFuel) => False
  end.
Proof.
  destruct ls as [|first hs]; cbn [run_lines]; [exists s, []; now left|]. change (0 =? 0) with true. cbv iota. destruct (parse_first_line first s) as [y [[]|e| |]] eqn:F.
  - assert (Hy : s_headers y = Some []) by (rewrite <- Hs; pose proof (first_line_headers first s) as [E _]; rewrite F in E; exact E). rewrite run_feed by lia. pose proof (feed_no_err hs y Hy) as N.
    pose proof (feed_panics hs y Hy) as P. destruct (feed hs y) as [x [[]|e| |]] eqn:E; cbn [snd] in *; try (destruct N; discriminate).
    + destruct (feed_fields_ex hs y x Hy E) as [fs [K _]]. exists y, fs. right. exists first, hs. split; [reflexivity|]. split; [now apply C152_first_line_exactly|assumption].
    + right. destruct (proj1 P eq_refl) as [a [l [b [-> [H1 H2]]]]]. exists first, a, l, b, y. split; [cbn [app]; rewrite <- app_assoc; reflexivity|]. split; [now apply C152_first_line_exactly|]. auto.
  - exists first, hs. split; [reflexivity|]. now apply C152_first_line_exactly.
  - left. exists first, hs. split; [reflexivity|]. now apply C152_first_line_exactly.
  - pose proof (parse_first_line_fuel first s) as K. rewrite F in K. now apply K.
Qed.
Lemma lines_stop fuel tail eol rest count off buf x : ends_here size tail eol rest -> (length tail + 1 < fuel)%nat -> lines_pure fuel size tail count off buf x = (x, Ok (off, buf ++ eol, rest)).
Proof.
  intros E Hf. destruct fuel as [|f]; [lia|]. cbn [lines_pure]. destruct E as [[-> [-> ->]]|[N B]].
  - unfold line_of. cbn [cut]. change (len (@nil Z)) with 0. replace (0 <? size) with true by lia. cbn. now rewrite app_nil_r.
  - destruct (next_line_of _ _ _ _ N) as [e [-> Nl]]. replace (e && (len eol =? 0)) with false.
    + apply bare_iff in B. rewrite B. reflexivity.
    + destruct e; [|reflexivity]. cbn [andb]. symmetry. apply Z.eqb_neq. destruct eol; [congruence|]. rewrite len_cons. pose proof (len_nonneg eol). lia.
Qed.
Lemma whole_ok ls used tail eol rest y fs n : begins size r ls used tail -> ends_here size tail eol rest -> lines_read s ls y fs -> typed fs -> numeral (first_value fs (str "content-length")) n ->
  exists b x d, parse = (b, (x, Ok tt)) /\ message_of y fs used (eol ++ d) x /\ rest = d ++ bf_rest b /\ (n <= len eol -> d = []) /\ (bf_rest b = [] \/ n <= len eol + len d).
Proof.
  intros B E L T N. destruct (lines_run_read _ _ _ L) as [x0 [R H]]. pose proof (sip_parse_outcome (reader blocks size) s rinv_reader) as O. unfold parse_outcome in O. change (bf_rest (reader blocks size)) with r in O. change (bf_size (reader blocks size)) with size in O.
  pose proof (run_pure _ _ _ _ _ B (S (S (length r))) 0 0 [] s ltac:(lia) ltac:(lia)) as P. rewrite R in P. destruct P as [f' [c' [Lf P]]]. rewrite P, (lines_stop _ _ _ _ _ _ _ _ E Lf) in O.
  destruct (proj1 (fill_typed _ _ _ H) T) as [f [t [c [q [v [F [Tf [Tt [Tc [Tq Tv]]]]]]]]]]. rewrite F in O. unfold get_content_length in O. cbn [with_common s_headers] in O.
  rewrite (held_first _ _ _ _ H) in O. change (to_lower (str "content-length")) with (str "content-length") in O. rewrite (proj2 (atoi_iff _ _) N) in O. destruct O as [b [d [O1 [O2 [O3 O4]]]]].
  cbn [app] in *. replace (0 + len used) with (len used) in * by lia. rewrite len_app in *. replace (len used + len eol - len used) with (len eol) in * by lia.
  exists b. eexists. exists d. split; [exact O1|]. destruct (held_state _ _ _ H) as [m [l [-> M]]]. split.
  - unfold message_of, take, drop. cbn [with_layer with_common with_last with_headers s_version s_method s_request s_isresp s_code s_status s_headers s_from s_to s_contact s_cseq s_via s_contents s_payload].
    split; [auto 10|]. split; [exists m; auto|]. split; [eauto|]. split; [eauto|]. split; [eauto|]. split; [eauto|]. split; [eauto|].
    unfold len. rewrite Nat2Z.id, <- app_assoc, firstn_app, skipn_app, Nat.sub_diag, firstn_all, skipn_all. cbn [firstn skipn app]. now rewrite app_nil_r.
  - split; [exact O2|]. split; [intros K; apply O3; lia|]. destruct O4 as [O4|O4]; [now left|right; lia].
Qed.
Definition whole_err : Prop :=
  (exists first used tail x e, begins size r [first] used tail /\ first_line_of first s x (Err e)) \/
  (exists ls used tail y fs, begins size r ls used tail /\ too_long size tail /\ lines_read s ls y fs) \/
  (exists ls used tail eol rest y fs, begins size r ls used tail /\ ends_here size tail eol rest /\ lines_read s ls y fs /\ typed fs /\ forall n, ~ numeral (first_value fs (str "content-length")) n).
Definition whole_panic : Prop :=
  (exists first used tail x, begins size r [first] used tail /\ first_line_of first s x Panic) \/
  (exists first hs l used tail y, begins size r (first :: hs ++ [l]) used tail /\ first_line_of first s y (Ok tt) /\ continuation l /\ ~ Exists header_line hs) \/
  (exists ls used tail eol rest y fs, begins size r ls used tail /\ ends_here size tail eol rest /\ lines_read s ls y fs /\ ~ typed fs).
Lemma outcome_lines ls used tail : begins size r ls used tail -> match run_lines 0 ls s with
  | (x, Err e) => exists b e, parse = (b, (x, Err e))
  | (x, Panic) => exists b, parse = (b, (x, Panic))
  | _ => True
  end.
Proof.
  intros B. pose proof (sip_parse_outcome (reader blocks size) s rinv_reader) as O. unfold parse_outcome in O. change (bf_rest (reader blocks size)) with r in O. change (bf_size (reader blocks size)) with size in O.
  pose proof (run_pure _ _ _ _ _ B (S (S (length r))) 0 0 [] s ltac:(lia) ltac:(lia)) as P. destruct (run_lines 0 ls s) as [x [u|e| |]]; auto; rewrite P in O; exact O.
Qed.
Lemma whole_err_parse : whole_err -> exists b x e, parse = (b, (x, Err e)).
Proof.
  pose proof (sip_parse_outcome (reader blocks size) s rinv_reader) as O. unfold parse_outcome in O. change (bf_rest (reader blocks size)) with r in O. change (bf_size (reader blocks size)) with size in O.
  intros [(first & used & tail & x & e & B & F)|[(ls & used & tail & y & fs & B & T & L)|(ls & used & tail & eol & rest & y & fs & B & E & L & T & N)]].
  - pose proof (outcome_lines _ _ _ B) as P. cbn [run_lines] in P. change (0 =? 0) with true in P. cbv iota in P. apply C152_first_line_exactly in F. rewrite F in P. destruct P as [b [e' P]]. eauto.
  - destruct (lines_run_read _ _ _ L) as [x0 [R H]]. pose proof (run_pure _ _ _ _ _ B (S (S (length r))) 0 0 [] s ltac:(lia) ltac:(lia)) as P. rewrite R in P. destruct P as [f' [c' [Lf P]]]. rewrite P in O.
    destruct f' as [|f']; [lia|]. cbn [lines_pure] in O. rewrite (too_long_of _ _ Hsize T) in O. destruct O as [b [e O]]. eauto.
  - destruct (lines_run_read _ _ _ L) as [x0 [R H]]. pose proof (run_pure _ _ _ _ _ B (S (S (length r))) 0 0 [] s ltac:(lia) ltac:(lia)) as P. rewrite R in P. destruct P as [f' [c' [Lf P]]]. rewrite P, (lines_stop _ _ _ _ _ _ _ _ E Lf) in O.
    destruct (proj1 (fill_typed _ _ _ H) T) as [f [t [c [q [v [F _]]]]]]. rewrite F in O. unfold get_content_length in O. cbn [with_common s_headers] in O.
    rewrite (held_first _ _ _ _ H) in O. change (to_lower (str "content-length")) with (str "content-length") in O.
    destruct (atoi (first_value fs (str "content-length"))) as [n|e| |] eqn:A; [apply atoi_iff in A; now destruct (N n)|..]; destruct O as [b [e' O]]; eauto.
Qed.
Lemma whole_panic_parse : whole_panic -> exists b x, parse = (b, (x, Panic)).
Proof.
  pose proof (sip_parse_outcome (reader blocks size) s rinv_reader) as O. unfold parse_outcome in O. change (bf_rest (reader blocks size)) with r in O. change (bf_size (reader blocks size)) with size in O.
  intros [(first & used & tail & x & B & F)|[(first & hs & l & used & tail & y & B & F & C & N)|(ls & used & tail & eol & rest & y & fs & B & E & L & T)]].
  - pose proof (outcome_lines _ _ _ B) as P. cbn [run_lines] in P. change (0 =? 0) with true in P. cbv iota in P. apply C152_first_line_exactly in F. rewrite F in P. destruct P as [b P]. eauto.
  - pose proof (outcome_lines _ _ _ B) as P. cbn [run_lines] in P. change (0 =? 0) with true in P. cbv iota in P. apply C152_first_line_exactly in F. rewrite F, run_feed in P by lia.
    assert (Hy : s_headers y = Some []) by (rewrite <- Hs; pose proof (first_line_headers first s) as [E _]; rewrite F in E; exact E).
    pose proof (proj2 (feed_panics (hs ++ [l]) y Hy) ltac:(exists hs, l, []; auto)) as K. destruct (feed (hs ++ [l]) y) as [x [u|e| |]]; try discriminate. destruct P as [b P]. eauto.
  - destruct (lines_run_read _ _ _ L) as [x0 [R H]]. pose proof (run_pure _ _ _ _ _ B (S (S (length r))) 0 0 [] s ltac:(lia) ltac:(lia)) as P. rewrite R in P. destruct P as [f' [c' [Lf P]]]. rewrite P, (lines_stop _ _ _ _ _ _ _ _ E Lf) in O.
    rewrite (proj2 (fill_typed _ _ _ H) T) in O. destruct O as [b O]. eauto.
Qed.
Lemma whole_cases : whole_err \/ whole_panic \/
  exists ls used tail eol rest y fs n, begins size r ls used tail /\ ends_here size tail eol rest /\ lines_read s ls y fs /\ typed fs /\ numeral (first_value fs (str "content-length")) n.
Proof.
  destruct (begins_exists size r Hsize) as [ls [used [tail [B M]]]]. pose proof (run_read ls) as R. destruct (run_lines 0 ls s) as [x [u|e| |]]; [| | |contradiction].
  - destruct R as [y [fs L]]. destruct M as [T|[eol [rest E]]]; [left; right; left; do 5 eexists; eauto|].
    destruct (typed_dec fs) as [T|T]; [|right; left; right; right; do 7 eexists; eauto 6].
    destruct (atoi (first_value fs (str "content-length"))) as [n|e| |] eqn:A.
    + right. right. exists ls, used, tail, eol, rest, y, fs, n. repeat (split; [assumption|]). now apply atoi_iff.
    + left. right. right. exists ls, used, tail, eol, rest, y, fs. repeat (split; [assumption|]). intros n N. apply atoi_iff in N. congruence.
    + left. right. right. exists ls, used, tail, eol, rest, y, fs. repeat (split; [assumption|]). intros n N. apply atoi_iff in N. congruence.
    + left. right. right. exists ls, used, tail, eol, rest, y, fs. repeat (split; [assumption|]). intros n N. apply atoi_iff in N. congruence.
  - destruct R as [first [hs [-> F]]]. destruct (begins_prefix size r [first] hs used tail B) as [u' [t' B']]. left. left. do 5 eexists. eauto.
  - destruct R as [[first [hs [-> F]]]|[first [hs [l [b [y [-> [F [C N]]]]]]]]].
    + destruct (begins_prefix size r [first] hs used tail B) as [u' [t' B']]. right. left. left. do 4 eexists. eauto.
    + destruct (begins_prefix _ _ _ _ _ _ B) as [u' [t' B']]. right. left. right. left. do 6 eexists. eauto 6.
Qed.
End Whole.
