(** Proofs for C185. *)
From Coq Require Import String.
From Verif Require Import Base.Go Base.GoFacts Base.IO Base.Text Model.Sip Spec.Sip Spec.SipLine Proofs.Text Proofs.Sip Proofs.SipMsg Proofs.SipRead Proofs.SipParse Proofs.SipMore Proofs.SipHeaders Proofs.SipLine Proofs.SipAddr Props.SipLine Props.SipAddr Spec.SipAddr Spec.SipWhole Proofs.SipWhole Spec.SipAgain.
Import ListNotations. Local Open Scope list_scope. Local Open Scope Z_scope.

(** * Header fields *)
Definition holds (t : table) (n : bytes) (y x : sip) : Prop :=
  exists h, x = with_last n (with_headers h y) /\ (forall k, hlook h k = t k) /\ (h = None <-> s_headers y = None).
Lemma eqb_sym a b : bytes_eqb a b = bytes_eqb b a.
Proof. destruct (bytes_eqb a b) eqn:E, (bytes_eqb b a) eqn:E'; try reflexivity; [apply bytes_eqb_eq in E|apply bytes_eqb_eq in E']; subst; rewrite bytes_eqb_refl in *; discriminate. Qed.
Lemma hvals_under h t k : (forall k, hlook h k = t k) -> hvals h k = under t k.
Proof. intros H. unfold hvals, under. now rewrite H. Qed.
Lemma append_last_none x l : append_last x l = None -> l = [].
Proof. destruct l as [|v l _] using rev_ind; [reflexivity|]. rewrite append_last_app. discriminate. Qed.
Lemma put_mset h m t k vs : (forall j, hlook h j = t j) -> h = Some m -> forall j, hlook (Some (mset k vs m)) j = put t k vs j.
Proof. intros H -> j. unfold put. cbn [hlook]. rewrite mget_mset, <- H. cbn [hlook]. reflexivity. Qed.
Lemma into_feed hs y t n : into (no_map y) (stored y) (s_last y) hs t n -> exists x, feed hs y = (x, Ok tt) /\ holds t n y x.
Proof.
  induction 1 as [|ls t n l a b m v H IH Hm Hc El Ha Hn Hv|ls t n l vs v H IH Hc Ht|ls t n l H IH Hc Hw].
  - exists y. split; [reflexivity|]. exists (s_headers y). split; [destruct y; reflexivity|]. split; [reflexivity|tauto].
  - destruct IH as [x [E [h [-> [M N]]]]]. rewrite feed_app, E. cbn [feed]. rewrite El in Hc |- *. unfold parse_header.
    destruct (a ++ str ":" ++ b) as [|c u] eqn:Ec; [destruct a; discriminate|]. replace ((c =? 9) || (c =? 32)) with false by (symmetry; apply Bool.not_true_iff_false; intros C; apply Hc; now apply continuation_dec).
    rewrite <- Ec. change (a ++ str ":" ++ b) with (a ++ 58 :: b). rewrite (cut_app 58 a b (wo_1 _ _ Ha)). cbn [with_last with_headers s_headers]. apply spaces_iff in Hn, Hv. rewrite Hn, Hv.
    destruct h as [h|]; [|elim Hm; now apply N]. eexists. split; [reflexivity|]. eexists. split; [reflexivity|]. split.
    + rewrite (hvals_under _ _ _ M). now apply put_mset with (h := Some h).
    + split; [discriminate|]. intros K. now elim Hm.
  - destruct IH as [x [E [h [-> [M N]]]]]. rewrite feed_app, E. cbn [feed]. unfold parse_header.
    destruct l as [|c u]; [destruct Hc as [u [C|C]]; discriminate|]. rewrite (proj1 (continuation_dec c u) Hc). cbn [with_last with_headers s_headers s_last].
    rewrite (hvals_under _ _ _ M). unfold under. rewrite Ht, append_last_app. destruct h as [h|]; [|rewrite <- M in Ht; discriminate].
    eexists. split; [reflexivity|]. eexists. split; [reflexivity|]. split; [now apply put_mset with (h := Some h)|].
    split; [discriminate|]. intros K. apply N in K. discriminate.
  - destruct IH as [x [E [h [-> [M N]]]]]. rewrite feed_app, E. cbn [feed]. unfold parse_header. destruct l as [|c u]; [eexists; split; [reflexivity|]; eexists; eauto|].
    replace ((c =? 9) || (c =? 32)) with false by (symmetry; apply Bool.not_true_iff_false; intros C; apply Hc; now apply continuation_dec). rewrite cut_none by (apply wo_1; assumption). eexists. split; [reflexivity|]. eexists. eauto.
Qed.
(** A line that cannot be read. *)
Definition stuck (y : sip) (t : table) (n l : bytes) : Prop := continuation l /\ under t n = [] \/ header_line l /\ no_map y.
Lemma feed_into hs y : match feed hs y with
  | (x, Ok _) => exists t n, into (no_map y) (stored y) (s_last y) hs t n
  | (x, Panic) => exists a l b t n, hs = a ++ l :: b /\ into (no_map y) (stored y) (s_last y) a t n /\ stuck y t n l
  | _ => False
  end.
Proof.
  induction hs as [|l hs IH] using rev_ind; [cbn [feed]; do 2 eexists; constructor|]. rewrite feed_app.
  destruct (feed hs y) as [x [[]|e| |]] eqn:E; try contradiction; [|destruct IH as [a [l' [b [t [n [-> [I S]]]]]]]; exists a, l', (b ++ [l]), t, n; split; [now rewrite <- app_assoc|auto]].
  destruct IH as [t [n I]]. destruct (into_feed _ _ _ _ I) as [x' [E' [h [Ex [M N]]]]]. rewrite E in E'. injection E' as <-. subst x. cbn [feed]. unfold parse_header. destruct l as [|c u].
  - exists t, n. apply I_other; [assumption| |constructor]. intros [v [C|C]]; discriminate.
  - destruct ((c =? 9) || (c =? 32)) eqn:Ec.
    + pose proof (proj2 (continuation_dec c u) Ec) as Hc. clear Ec. cbn [with_last with_headers s_headers s_last]. rewrite (hvals_under _ _ _ M).
      assert (D : under t n = [] \/ exists ws w, under t n = ws ++ [w]) by (destruct (under t n) as [|w ws _] using rev_ind; eauto). destruct D as [Eu|[ws [w Eu]]]; rewrite Eu.
      * cbn [append_last]. exists hs, (c :: u), [], t, n. split; [reflexivity|]. split; [assumption|]. left. auto.
      * rewrite append_last_app. unfold under in Eu. destruct (t n) as [vs|] eqn:Et; [|symmetry in Eu; apply app_eq_nil in Eu; destruct Eu; discriminate]. subst vs.
        destruct h as [h|]; [|rewrite <- M in Et; discriminate]. do 2 eexists. eapply I_more; eassumption.
    + assert (Hc : ~ continuation (c :: u)) by (intros C; apply continuation_dec in C; congruence). destruct (cut 58 (c :: u)) as [[a b]|] eqn:Ek.
      * apply cut_some in Ek. destruct Ek as [Ek Ha]. cbn [with_last with_headers s_headers]. destruct h as [h|].
        -- do 2 eexists. eapply I_field; [exact I| |exact Hc|exact Ek| |now apply spaces_iff|now apply spaces_iff]; [intros K; apply N in K; discriminate|]. eapply Forall_impl; [|exact Ha]; cbn; intros; lia.
        -- exists hs, (c :: u), [], t, n. split; [reflexivity|]. split; [assumption|]. right. split; [|now apply N]. split; [assumption|]. rewrite Ek. apply in_or_app. right. now left.
      * apply cut_none_inv in Ek. exists t, n. apply I_other; auto. eapply Forall_impl; [|exact Ek]; cbn; intros; lia.
Qed.
Lemma stuck_feed a l b y t n : into (no_map y) (stored y) (s_last y) a t n -> stuck y t n l -> snd (feed (a ++ l :: b) y) = Panic.
Proof.
  intros I S. destruct (into_feed _ _ _ _ I) as [x [E [h [-> [M N]]]]]. rewrite feed_app, E. cbn [feed]. unfold parse_header. destruct S as [[C U]|[[C Hi] K]].
  - destruct l as [|c u]; [destruct C as [u [C|C]]; discriminate|]. rewrite (proj1 (continuation_dec c u) C). cbn [with_last with_headers s_headers s_last]. rewrite (hvals_under _ _ _ M), U. reflexivity.
  - destruct l as [|c u]; [contradiction|]. replace ((c =? 9) || (c =? 32)) with false by (symmetry; apply Bool.not_true_iff_false; intros C'; apply C; now apply continuation_dec).
    destruct (cut 58 (c :: u)) as [[a' b']|] eqn:Ek.
    + cbn [with_last with_headers s_headers]. rewrite (proj2 N K). reflexivity.
    + apply cut_none_inv in Ek. rewrite Forall_forall in Ek. now elim (Ek 58 Hi).
Qed.
Lemma holds_first t n y x name : holds t n y x -> get_first (s_headers x) name = first_of t (to_lower name).
Proof.
  intros [h [-> [M _]]]. cbn [with_last with_headers s_headers]. unfold get_first, first_of. rewrite M, (hvals_under _ _ _ M). destruct (t (to_lower name)) as [[|v vs]|]; try reflexivity.
Qed.
Lemma fill_readable t n y x : holds t n y x ->
  (readable t -> exists f o c q v, fill_header x = (with_common f o c q v x, Ok tt) /\ user_of (first_of t (str "from")) f /\ user_of (first_of t (str "to")) o /\
     user_of (first_of t (str "contact")) c /\ cseq_of (first_of t (str "cseq")) q /\ via_of (first_of t (str "via")) v) /\
  (~ readable t -> fill_header x = (x, Panic)).
Proof.
  intros H. assert (G : forall m, to_lower m = m -> get_first (s_headers x) m = first_of t m) by (intros m E; rewrite (holds_first _ _ _ _ m H), E; reflexivity).
  assert (Q : exists q, cseq_of (first_of t (str "cseq")) q) by (destruct (new_cseq_total (first_of t (str "cseq"))) as [q E]; exists q; now apply cseq_iff).
  unfold fill_header, get_sip_contact, get_sip_cseq, get_sip_from, get_sip_to, get_sip_via. rewrite !G by reflexivity. destruct Q as [q Q]. rewrite (proj2 (cseq_iff _ _) Q). split.
  - intros [T1 [v T2]]. destruct (T1 (str "from") ltac:(cbn; tauto)) as [f Tf]. destruct (T1 (str "to") ltac:(cbn; tauto)) as [o Tt]. destruct (T1 (str "contact") ltac:(cbn; tauto)) as [c Tc].
    exists f, o, c, q, v. rewrite (proj2 (C154_address_exactly _ _) Tf), (proj2 (C154_address_exactly _ _) Tt), (proj2 (C154_address_exactly _ _) Tc), (proj2 (C154_via_exactly _ _) T2). auto 8.
  - intros N. destruct (new_user_res (first_of t (str "contact"))) as [[c Ec]|Ec]; [|rewrite Ec; reflexivity]. destruct (new_user_res (first_of t (str "from"))) as [[f Ef]|Ef]; [|rewrite Ec, Ef; reflexivity].
    destruct (new_user_res (first_of t (str "to"))) as [[o Et]|Et]; [|rewrite Ec, Ef, Et; reflexivity]. destruct (new_via_res (first_of t (str "via"))) as [[v Ev]|Ev]; [|rewrite Ec, Ef, Et, Ev; reflexivity].
    exfalso. apply N. split; [|exists v; now apply C154_via_exactly]. intros m [<-|[<-|[<-|[]]]]; eexists; apply C154_address_exactly; eassumption.
Qed.
Lemma readable_dec t : readable t \/ ~ readable t.
Proof.
  assert (U : forall t, (exists u, user_of t u) \/ ~ exists u, user_of t u).
  { intros b. destruct (new_user_res b) as [[u E]|E]; [left; exists u; now apply C154_address_exactly|right]. intros [u K]. apply C154_address_exactly in K. congruence. }
  assert (V : forall t, (exists u, via_of t u) \/ ~ exists u, via_of t u).
  { intros b. destruct (new_via_res b) as [[u E]|E]; [left; exists u; now apply C154_via_exactly|right]. intros [u K]. apply C154_via_exactly in K. congruence. }
  unfold readable. destruct (V (first_of t (str "via"))) as [Hv|Hv]; [|right; tauto].
  destruct (U (first_of t (str "from"))) as [H1|H1]; [|right; intros [K _]; apply H1, K; now left].
  destruct (U (first_of t (str "to"))) as [H2|H2]; [|right; intros [K _]; apply H2, K; right; now left].
  destruct (U (first_of t (str "contact"))) as [H3|H3]; [|right; intros [K _]; apply H3, K; right; right; now left].
  left. split; [|assumption]. intros n [<-|[<-|[<-|[]]]]; assumption.
Qed.

(** * The whole *)
Section Again.
Context (blocks : list bytes) (size : Z) (s : sip) (Hsize : 0 < size).
Let r := concat blocks.
Let parse := sip_parse (reader blocks size) s.
Lemma first_keeps first y e : parse_first_line first s = (y, e) -> no_map y = no_map s /\ stored y = stored s /\ s_last y = s_last s.
Proof. intros F. pose proof (first_line_headers first s) as [E1 [E2 _]]. rewrite F in E1, E2. cbn [fst] in *. unfold no_map, stored. now rewrite E1, E2. Qed.
Lemma lines_run_into ls y t n : lines_into s ls y t n -> exists x, run_lines 0 ls s = (x, Ok tt) /\ holds t n y x.
Proof.
  intros [[-> [-> [-> ->]]]|[first [hs [-> [F K]]]]].
  - exists s. split; [reflexivity|]. exists (s_headers s). split; [destruct s; reflexivity|]. split; [reflexivity|tauto].
  - apply C152_first_line_exactly in F. destruct (first_keeps _ _ _ F) as [E1 [E2 E3]]. rewrite <- E1, <- E2, <- E3 in K.
    destruct (into_feed hs y t n K) as [x [E H]]. exists x. split; [|assumption]. cbn [run_lines]. change (0 =? 0) with true. cbv iota. rewrite F, run_feed by lia. exact E.
Qed.
Definition blocked (first : bytes) (hs : list bytes) (l : bytes) : Prop :=
  exists y t n, first_line_of first s y (Ok tt) /\ into (no_map s) (stored s) (s_last s) hs t n /\
    (continuation l /\ under t n = [] \/ header_line l /\ no_map s).
Lemma run_into ls : match run_lines 0 ls s with
  | (x, Ok _) => exists y t n, lines_into s ls y t n
  | (x, Err e) => exists first hs, ls = first :: hs /\ first_line_of first s x (Err e)
  | (x, Panic) => (exists first hs, ls = first :: hs /\ first_line_of first s x Panic) \/
      exists first hs l b, ls = (first :: hs ++ [l]) ++ b /\ blocked first hs l
  | (x, OutOfFuel) => False
  end.
Proof.
  destruct ls as [|first hs]; cbn [run_lines]; [exists s, (stored s), (s_last s); left; auto|]. change (0 =? 0) with true. cbv iota. destruct (parse_first_line first s) as [y [[]|e| |]] eqn:F.
  - destruct (first_keeps _ _ _ F) as [E1 [E2 E3]]. rewrite run_feed by lia. pose proof (feed_into hs y) as P. apply C152_first_line_exactly in F. unfold stuck in P. rewrite E1, E2, E3 in P.
    destruct (feed hs y) as [x [[]|e| |]] eqn:E; try contradiction.
    + destruct P as [t [n I]]. exists y, t, n. right. exists first, hs. auto.
    + right. destruct P as [a [l [b [t [n [-> [I S]]]]]]]. exists first, a, l, b. split; [cbn [app]; rewrite <- app_assoc; reflexivity|]. exists y, t, n. auto.
  - exists first, hs. split; [reflexivity|]. now apply C152_first_line_exactly.
  - left. exists first, hs. split; [reflexivity|]. now apply C152_first_line_exactly.
  - pose proof (parse_first_line_fuel first s) as K. rewrite F in K. now apply K.
Qed.
Lemma again_ok ls used tail eol rest y t m n : begins size r ls used tail -> ends_here size tail eol rest -> lines_into s ls y t m -> readable t -> numeral (first_of t (str "content-length")) n ->
  exists b x d, parse = (b, (x, Ok tt)) /\ object_of y t m used (eol ++ d) x /\ rest = d ++ bf_rest b /\ (n <= len eol -> d = []) /\ (bf_rest b = [] \/ n <= len eol + len d).
Proof.
  intros B E L T N. destruct (lines_run_into _ _ _ _ L) as [x0 [R H]]. pose proof (sip_parse_outcome (reader blocks size) s (rinv_reader blocks size Hsize)) as O. unfold parse_outcome in O. change (bf_rest (reader blocks size)) with r in O. change (bf_size (reader blocks size)) with size in O.
  pose proof (run_pure _ _ _ _ _ B (S (S (length r))) 0 0 [] s ltac:(lia) ltac:(lia)) as P. rewrite R in P. destruct P as [f' [c' [Lf P]]]. rewrite P, (lines_stop size Hsize _ _ _ _ _ _ _ _ E Lf) in O.
  destruct (proj1 (fill_readable _ _ _ _ H) T) as [f [o [c [q [v [F [Tf [Tt [Tc [Tq Tv]]]]]]]]]]. rewrite F in O. unfold get_content_length in O. cbn [with_common s_headers] in O.
  rewrite (holds_first _ _ _ _ _ H) in O. change (to_lower (str "content-length")) with (str "content-length") in O. rewrite (proj2 (atoi_iff _ _) N) in O. destruct O as [b [d [O1 [O2 [O3 O4]]]]].
  cbn [app] in *. replace (0 + len used) with (len used) in * by lia. rewrite len_app in *. replace (len used + len eol - len used) with (len eol) in * by lia.
  exists b. eexists. exists d. split; [exact O1|]. destruct H as [h [-> [M Hn]]]. split.
  - unfold object_of, take, drop, stored. cbn [with_layer with_common with_last with_headers s_version s_method s_request s_isresp s_code s_status s_headers s_last s_from s_to s_contact s_cseq s_via s_contents s_payload].
    split; [auto 10|]. split; [exact M|]. split; [reflexivity|]. split; [eauto|]. split; [eauto|]. split; [eauto|]. split; [eauto|]. split; [eauto|].
    unfold len. rewrite Nat2Z.id, <- app_assoc, firstn_app, skipn_app, Nat.sub_diag, firstn_all, skipn_all. cbn [firstn skipn app]. now rewrite app_nil_r.
  - split; [exact O2|]. split; [intros K; apply O3; lia|]. destruct O4 as [O4|O4]; [now left|right; lia].
Qed.
Definition again_err : Prop :=
  (exists first used tail x e, begins size r [first] used tail /\ first_line_of first s x (Err e)) \/
  (exists ls used tail y t n, begins size r ls used tail /\ too_long size tail /\ lines_into s ls y t n) \/
  (exists ls used tail eol rest y t m, begins size r ls used tail /\ ends_here size tail eol rest /\ lines_into s ls y t m /\ readable t /\ forall n, ~ numeral (first_of t (str "content-length")) n).
Definition again_panic : Prop :=
  (exists first used tail x, begins size r [first] used tail /\ first_line_of first s x Panic) \/
  (exists first hs l used tail, begins size r (first :: hs ++ [l]) used tail /\ blocked first hs l) \/
  (exists ls used tail eol rest y t m, begins size r ls used tail /\ ends_here size tail eol rest /\ lines_into s ls y t m /\ ~ readable t).
Lemma outcome_again ls used tail : begins size r ls used tail -> match run_lines 0 ls s with
  | (x, Err e) => exists b e, parse = (b, (x, Err e))
  | (x, Panic) => exists b, parse = (b, (x, Panic))
  | _ => True
  end.
Proof.
  intros B. pose proof (sip_parse_outcome (reader blocks size) s (rinv_reader blocks size Hsize)) as O. unfold parse_outcome in O. change (bf_rest (reader blocks size)) with r in O. change (bf_size (reader blocks size)) with size in O.
  pose proof (run_pure _ _ _ _ _ B (S (S (length r))) 0 0 [] s ltac:(lia) ltac:(lia)) as P. destruct (run_lines 0 ls s) as [x [u|e| |]]; auto; rewrite P in O; exact O.
Qed.
Lemma again_err_parse : again_err -> exists b x e, parse = (b, (x, Err e)).
Proof.
  pose proof (sip_parse_outcome (reader blocks size) s (rinv_reader blocks size Hsize)) as O. unfold parse_outcome in O. change (bf_rest (reader blocks size)) with r in O. change (bf_size (reader blocks size)) with size in O.
  intros [(first & used & tail & x & e & B & F)|[(ls & used & tail & y & t & m & B & T & L)|(ls & used & tail & eol & rest & y & t & m & B & E & L & T & N)]].
  - pose proof (outcome_again _ _ _ B) as P. cbn [run_lines] in P. change (0 =? 0) with true in P. cbv iota in P. apply C152_first_line_exactly in F. rewrite F in P. destruct P as [b [e' P]]. eauto.
  - destruct (lines_run_into _ _ _ _ L) as [x0 [R H]]. pose proof (run_pure _ _ _ _ _ B (S (S (length r))) 0 0 [] s ltac:(lia) ltac:(lia)) as P. rewrite R in P. destruct P as [f' [c' [Lf P]]]. rewrite P in O.
    destruct f' as [|f']; [lia|]. cbn [lines_pure] in O. rewrite (too_long_of _ _ Hsize T) in O. destruct O as [b [e O]]. eauto.
  - destruct (lines_run_into _ _ _ _ L) as [x0 [R H]]. pose proof (run_pure _ _ _ _ _ B (S (S (length r))) 0 0 [] s ltac:(lia) ltac:(lia)) as P. rewrite R in P. destruct P as [f' [c' [Lf P]]]. rewrite P, (lines_stop size Hsize _ _ _ _ _ _ _ _ E Lf) in O.
    destruct (proj1 (fill_readable _ _ _ _ H) T) as [f [o [c [q [v [F _]]]]]]. rewrite F in O. unfold get_content_length in O. cbn [with_common s_headers] in O.
    rewrite (holds_first _ _ _ _ _ H) in O. change (to_lower (str "content-length")) with (str "content-length") in O.
    destruct (atoi (first_of t (str "content-length"))) as [n|e| |] eqn:A; [apply atoi_iff in A; now destruct (N n)|..]; destruct O as [b [e' O]]; eauto.
Qed.
Lemma again_panic_parse : again_panic -> exists b x, parse = (b, (x, Panic)).
Proof.
  pose proof (sip_parse_outcome (reader blocks size) s (rinv_reader blocks size Hsize)) as O. unfold parse_outcome in O. change (bf_rest (reader blocks size)) with r in O. change (bf_size (reader blocks size)) with size in O.
  intros [(first & used & tail & x & B & F)|[(first & hs & l & used & tail & B & y & t & n & F & I & S)|(ls & used & tail & eol & rest & y & t & m & B & E & L & T)]].
  - pose proof (outcome_again _ _ _ B) as P. cbn [run_lines] in P. change (0 =? 0) with true in P. cbv iota in P. apply C152_first_line_exactly in F. rewrite F in P. destruct P as [b P]. eauto.
  - pose proof (outcome_again _ _ _ B) as P. cbn [run_lines] in P. change (0 =? 0) with true in P. cbv iota in P. apply C152_first_line_exactly in F. rewrite F, run_feed in P by lia.
    destruct (first_keeps _ _ _ F) as [E1 [E2 E3]]. rewrite <- E1, <- E2, <- E3 in I. rewrite <- E1 in S.
    pose proof (stuck_feed hs l [] y t n I S) as K. destruct (feed (hs ++ [l]) y) as [x [u|e| |]]; try discriminate. destruct P as [b P]. eauto.
  - destruct (lines_run_into _ _ _ _ L) as [x0 [R H]]. pose proof (run_pure _ _ _ _ _ B (S (S (length r))) 0 0 [] s ltac:(lia) ltac:(lia)) as P. rewrite R in P. destruct P as [f' [c' [Lf P]]]. rewrite P, (lines_stop size Hsize _ _ _ _ _ _ _ _ E Lf) in O.
    rewrite (proj2 (fill_readable _ _ _ _ H) T) in O. destruct O as [b O]. eauto.
Qed.
Lemma again_cases : again_err \/ again_panic \/
  exists ls used tail eol rest y t m n, begins size r ls used tail /\ ends_here size tail eol rest /\ lines_into s ls y t m /\ readable t /\ numeral (first_of t (str "content-length")) n.
Proof.
  destruct (begins_exists size r Hsize) as [ls [used [tail [B M]]]]. pose proof (run_into ls) as R. destruct (run_lines 0 ls s) as [x [u|e| |]]; [| | |contradiction].
  - destruct R as [y [t [m L]]]. destruct M as [T|[eol [rest E]]]; [left; right; left; do 6 eexists; eauto|].
    destruct (readable_dec t) as [T|T]; [|right; left; right; right; do 8 eexists; eauto 6].
    destruct (atoi (first_of t (str "content-length"))) as [n|e| |] eqn:A.
    + right. right. exists ls, used, tail, eol, rest, y, t, m, n. repeat (split; [assumption|]). now apply atoi_iff.
    + left. right. right. exists ls, used, tail, eol, rest, y, t, m. repeat (split; [assumption|]). intros n N. apply atoi_iff in N. congruence.
    + left. right. right. exists ls, used, tail, eol, rest, y, t, m. repeat (split; [assumption|]). intros n N. apply atoi_iff in N. congruence.
    + left. right. right. exists ls, used, tail, eol, rest, y, t, m. repeat (split; [assumption|]). intros n N. apply atoi_iff in N. congruence.
  - destruct R as [first [hs [-> F]]]. destruct (begins_prefix size r [first] hs used tail B) as [u' [t' B']]. left. left. do 5 eexists. eauto.
  - destruct R as [[first [hs [-> F]]]|[first [hs [l [b [-> K]]]]]].
    + destruct (begins_prefix size r [first] hs used tail B) as [u' [t' B']]. right. left. left. do 4 eexists. eauto.
    + destruct (begins_prefix _ _ _ _ _ _ B) as [u' [t' B']]. right. left. right. left. do 5 eexists. eauto 6.
Qed.
End Again.

(** * One message after another *)
Lemma into_ext nil t0 t0' n0 ls t n : (forall k, t0 k = t0' k) -> into nil t0 n0 ls t n -> exists t', (forall k, t k = t' k) /\ into nil t0' n0 ls t' n.
Proof.
  intros X. assert (U : forall a b : table, (forall k, a k = b k) -> forall k, under a k = under b k) by (intros a b E k; unfold under; now rewrite E).
  induction 1 as [|ls t n l a b m v H IH Hm Hc El Ha Hn Hv|ls t n l vs v H IH Hc Ht|ls t n l H IH Hc Hw].
  - exists t0'. split; [assumption|constructor].
  - destruct IH as [t' [E I]]. eexists. split; [|eapply I_field; eassumption]. intros k. unfold put. rewrite (U t t' E), E. reflexivity.
  - destruct IH as [t' [E I]]. exists (put t' n (vs ++ [v ++ str " " ++ trim_space l])). split; [intros k; unfold put; now rewrite E|]. eapply I_more; [eassumption..|]. rewrite <- E. exact Ht.
  - destruct IH as [t' [E I]]. exists t'. split; [assumption|]. now apply I_other.
Qed.
Lemma into_app nil t0 n0 a t n : into nil t0 n0 a t n -> forall b t' n', into nil t n b t' n' -> into nil t0 n0 (a ++ b) t' n'.
Proof.
  intros A b t' n'. induction 1 as [|ls u w l x y m v H IH Hm Hc El Ha Hn Hv|ls u w l vs v H IH Hc Ht|ls u w l H IH Hc Hw]; [now rewrite app_nil_r|..]; rewrite app_assoc.
  - eapply I_field; eassumption.
  - eapply I_more; eassumption.
  - now apply I_other.
Qed.
Lemma fields_into hs fs (nil : Prop) t0 n0 : ~ nil -> fields hs fs -> exists t n, into nil t0 n0 hs t n /\ (forall k, under t k = under t0 k ++ values fs k) /\ (forall gs m v, fs = gs ++ [(m, v)] -> n = m) /\
  (forall k, t k = None <-> t0 k = None /\ values fs k = []).
Proof.
  intros Hm. induction 1 as [|ls fs l a b m v H IH Hc El Ha Hn Hv|ls fs l m v H IH Hc|ls fs l H IH Hc Hw].
  - exists t0, n0. split; [constructor|]. split; [intros k; now rewrite app_nil_r|]. split; [intros [|? ?] ? ? C; discriminate|]. intros k. cbn. tauto.
  - destruct IH as [t [n [I [V [L D]]]]]. do 2 eexists. split; [eapply I_field; eassumption|]. split; [|split].
    + intros k. rewrite values_app, values_one. unfold under at 1, put. rewrite (eqb_sym k). destruct (bytes_eqb (to_lower m) k) eqn:E; [apply bytes_eqb_eq in E; subst k; rewrite V; now rewrite app_assoc|].
      rewrite app_nil_r. apply V.
    + intros gs m' v' E. apply app_inj_tail in E. destruct E as [_ E]. now injection E.
    + intros k. rewrite values_app, values_one. unfold put. rewrite (eqb_sym k). destruct (bytes_eqb (to_lower m) k); [|rewrite app_nil_r; apply D]. split; [discriminate|]. intros [_ C]. apply app_eq_nil in C. destruct C; discriminate.
  - destruct IH as [t [n [I [V [L D]]]]]. rewrite (L _ _ _ eq_refl) in I. assert (E : t m = Some ((under t0 m ++ values fs m) ++ [v])).
    { specialize (V m). rewrite values_app, values_one, bytes_eqb_refl, app_assoc in V. unfold under at 1 in V. destruct (t m) as [w|]; [now f_equal|]. symmetry in V. apply app_eq_nil in V. destruct V; discriminate. }
    do 2 eexists. split; [eapply I_more; eassumption|]. split; [|split].
    + intros k. rewrite values_app, values_one. unfold under at 1, put. rewrite (eqb_sym k). destruct (bytes_eqb m k) eqn:K; [apply bytes_eqb_eq in K; subst k; now rewrite <- app_assoc|].
      rewrite app_nil_r. specialize (V k). rewrite values_app, values_one, K, app_nil_r in V. exact V.
    + intros gs m' v' K. apply app_inj_tail in K. destruct K as [_ K]. now injection K.
    + intros k. rewrite values_app, values_one. unfold put. rewrite (eqb_sym k). destruct (bytes_eqb m k) eqn:K; [|rewrite app_nil_r; specialize (D k); rewrite values_app, values_one, K, app_nil_r in D; apply D].
      split; [discriminate|]. intros [_ C]. apply app_eq_nil in C. destruct C; discriminate.
  - destruct IH as [t [n [I [V [L D]]]]]. exists t, n. split; [now apply I_other|auto].
Qed.
Lemma into_unique s hs t n t' n' : into (no_map s) (stored s) (s_last s) hs t n -> into (no_map s) (stored s) (s_last s) hs t' n' -> (forall k, t k = t' k) /\ n = n'.
Proof.
  intros A B. destruct (into_feed _ _ _ _ A) as [x [E [h [Ex [M _]]]]]. destruct (into_feed _ _ _ _ B) as [x' [E' [h' [Ex' [M' _]]]]]. rewrite E in E'. injection E' as <-. subst x.
  assert (h = h' /\ n = n') as [-> ->] by (unfold with_last, with_headers in Ex'; cbn in Ex'; now injection Ex'). split; [|reflexivity]. intros k. now rewrite <- M, <- M'.
Qed.
