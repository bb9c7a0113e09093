(** Proofs for C152 and C153. *)
From Coq Require Import String.
From Verif Require Import Base.Go Base.GoFacts Base.IO Base.Text Model.Sip Spec.Sip Spec.SipLine Proofs.Text Proofs.Sip Proofs.SipMsg Proofs.SipRead Proofs.SipMore.
Import ListNotations. Local Open Scope list_scope. Local Open Scope Z_scope.

(** * Numerals *)
Lemma dec_from d : forall a, fold_left (fun a c => a * 10 + (c - 48)) d a = a * 10 ^ len d + number d.
Proof.
  induction d as [|c d IH]; intros a; [change (len (@nil Z)) with 0; cbn [fold_left number]; rewrite Z.pow_0_r; lia|]. cbn [fold_left number]. rewrite IH.
  replace (len (c :: d)) with (len d + 1) by (unfold len; cbn [length]; lia). pose proof (len_nonneg d). rewrite Z.pow_add_r, Z.pow_1_r by lia. lia.
Qed.
Lemma dec_number d : dec_val d = number d.
Proof. unfold dec_val. rewrite dec_from. lia. Qed.
Lemma digits_iff d : forallb is_digit d = true <-> Forall (fun c => 48 <= c <= 57) d.
Proof.
  rewrite forallb_forall, Forall_forall. unfold is_digit. split; intros H c Hc; specialize (H c Hc); cbn in *; unfold btw in *; lia.
Qed.
Lemma atoi_iff s n : atoi s = Ok n <-> numeral s n.
Proof.
  unfold numeral. change (2 ^ 63) with 9223372036854775808. split.
  - unfold atoi. intros H.
    assert (K : exists neg d, (s = d /\ neg = false \/ s = 43 :: d /\ neg = false \/ s = 45 :: d /\ neg = true) /\ d <> [] /\ forallb is_digit d = true /\
      n = (if neg : bool then - dec_val d else dec_val d) /\ -9223372036854775808 <= n <= 9223372036854775807).
    { destruct s as [|c t]; [discriminate|]. destruct (c =? 45) eqn:E1; [|destruct (c =? 43) eqn:E2].
      - exists true, t. destruct t as [|c' t]; [discriminate|]. destruct (forallb is_digit (c' :: t)) eqn:F; [|discriminate].
        cbn beta iota zeta in H. destruct ((_ <=? _) && _) eqn:G in H; [|discriminate]. injection H as <-. apply Z.eqb_eq in E1. subst c. repeat split; try congruence; try lia; tauto.
      - exists false, t. destruct t as [|c' t]; [discriminate|]. destruct (forallb is_digit (c' :: t)) eqn:F; [|discriminate].
        cbn beta iota zeta in H. destruct ((_ <=? _) && _) eqn:G in H; [|discriminate]. injection H as <-. apply Z.eqb_eq in E2. subst c. repeat split; try congruence; try lia; tauto.
      - exists false, (c :: t). destruct (forallb is_digit (c :: t)) eqn:F; [|discriminate].
        cbn beta iota zeta in H. destruct ((_ <=? _) && _) eqn:G in H; [|discriminate]. injection H as <-. repeat split; try congruence; try lia; tauto. }
    destruct K as [neg [d [K1 [K2 [K3 [K4 K5]]]]]]. split; [lia|]. exists d. split; [split; [assumption|now apply digits_iff]|]. rewrite dec_number in K4.
    destruct K1 as [[K1 ->]|[[K1 ->]|[K1 ->]]]; [left|left|right]; (split; [|assumption]); auto.
  - intros [Hn [d [[Hd1 Hd2] H]]]. assert (F := Hd2). apply digits_iff in F. rewrite <- dec_number in H. unfold atoi.
    destruct d as [|c d]; [congruence|]. apply Forall_cons_iff in Hd2. destruct Hd2 as [Hc _]. set (q := c :: d) in *.
    assert (Q : forall neg : bool, (let n0 := if neg then - dec_val q else dec_val q in if (-9223372036854775808 <=? n0) && (n0 <=? 9223372036854775807) then Ok n0 else Err EOther) = Ok n \/ n <> (if neg then - dec_val q else dec_val q)).
    { intros neg. destruct (Z.eq_dec n (if neg then - dec_val q else dec_val q)) as [->|]; [left|right; assumption]. cbv zeta. replace (_ && _) with true by lia. reflexivity. }
    destruct H as [[[-> | ->] ->]|[-> ->]].
    + unfold q. replace (c =? 45) with false by lia. replace (c =? 43) with false by lia. fold q. change (match q with [] => Err EOther | _ :: _ => if forallb is_digit q then let n := dec_val q in if (-9223372036854775808 <=? n) && (n <=? 9223372036854775807) then Ok n else Err EOther else Err EOther end = Ok (dec_val q)).
      rewrite F. destruct (Q false) as [Q'|Q']; [exact Q'|congruence].
    + change ((if forallb is_digit q then let n := dec_val q in if (-9223372036854775808 <=? n) && (n <=? 9223372036854775807) then Ok n else Err EOther else Err EOther) = Ok (dec_val q)).
      rewrite F. destruct (Q false) as [Q'|Q']; [exact Q'|congruence].
    + change ((if forallb is_digit q then let n := - dec_val q in if (-9223372036854775808 <=? n) && (n <=? 9223372036854775807) then Ok n else Err EOther else Err EOther) = Ok (- dec_val q)).
      rewrite F. destruct (Q true) as [Q'|Q']; [exact Q'|congruence].
Qed.
Lemma atoi_err s : (forall n, ~ numeral s n) -> forall n, atoi s <> Ok n.
Proof. intros H n E. apply atoi_iff in E. now apply (H n). Qed.

(** * Words *)
Lemma split3_iff line a b c : split3 line = [a; b; c] <-> three_words line a b c.
Proof.
  split.
  - unfold split3. destruct (cut 32 line) as [[x t]|] eqn:E; [|discriminate]. destruct (cut 32 t) as [[y z]|] eqn:E2; [|discriminate].
    intros H. injection H as -> -> ->. apply cut_some in E, E2. destruct E as [-> E], E2 as [-> E2]. split; [reflexivity|].
    split; (eapply Forall_impl; [|eassumption]); cbn; intros; lia.
  - intros [-> [Ha Hb]]. exact (split3_app a b c Ha Hb).
Qed.
Lemma split3_shape line : (exists a b c, split3 line = [a; b; c]) \/ ((forall a b c, split3 line <> [a; b; c]) /\ forall s, parse_first_line line s = (s, Err EOther)).
Proof.
  unfold parse_first_line. destruct (split3 line) as [|a [|b [|c [|]]]] eqn:E; try (right; split; [congruence|reflexivity]). left. eauto.
Qed.
Lemma prefix_iff a : has_prefix a (str "SIP") = true <-> starts_SIP a.
Proof.
  unfold has_prefix, starts_SIP. rewrite bytes_eqb_eq. change (length (str "SIP")) with 3%nat. split.
  - intros H. exists (skipn 3 a). rewrite <- H. symmetry. apply firstn_skipn.
  - intros [t ->]. reflexivity.
Qed.
Lemma version_iff a v : get_version a = Ok v <-> version_word a v.
Proof.
  rewrite get_version_iff. unfold version_word. split.
  - intros [[-> | ->] H]; [left|right]; auto.
  - intros [[-> H]|[-> H]]; auto.
Qed.
Lemma method_iff a m : get_method a = Ok m <-> method_word a m.
Proof.
  rewrite get_method_iff. unfold method_word. split.
  - intros [Hm H]. exists (method_string m). split; [assumption|]. assert (E : exists k, (k < 15)%nat /\ m = Z.of_nat k + 1) by (exists (Z.to_nat (m - 1)); lia).
    destruct E as [k [Hk ->]]. clear H Hm. do 15 (destruct k as [|k]; [vm_compute; tauto|]). lia.
  - intros [name [H Hin]]. cbn [In] in Hin. repeat (destruct Hin as [Hin|Hin]; [injection Hin as <- <-; split; [lia|exact H]|]). destruct Hin.
Qed.
Lemma no_version a : (forall v, get_version a <> Ok v) <-> (forall v, ~ version_word a v).
Proof. split; intros H v E; apply (H v), version_iff, E. Qed.
Lemma no_method a : (forall v, get_method a <> Ok v) <-> (forall v, ~ method_word a v).
Proof. split; intros H v E; apply (H v), method_iff, E. Qed.
Lemma no_numeral a : (forall v, atoi a <> Ok v) <-> (forall v, ~ numeral a v).
Proof. split; intros H v E; apply (H v), atoi_iff, E. Qed.

Lemma first_line_sound line s : first_line_of line s (fst (parse_first_line line s)) (snd (parse_first_line line s)).
Proof.
  destruct (split3_shape line) as [[a [b [c E]]]|[H1 H2]].
  - assert (T := E). apply split3_iff in T. unfold parse_first_line. rewrite E. destruct (has_prefix a (str "SIP")) eqn:P.
    + apply prefix_iff in P. destruct (get_version a) as [v|e| |] eqn:V; [|cbn [fst snd]; apply (FL_bad_status_version line s a b c T P), no_version; congruence..].
      apply version_iff in V. destruct (atoi b) as [n|e| |] eqn:N; [|cbn [fst snd]; apply (FL_bad_code line s a b c v T P V), no_numeral; congruence..].
      apply atoi_iff in N. exact (FL_status line s a b c v n T P V N).
    + assert (NP : ~ starts_SIP a) by (rewrite <- prefix_iff; congruence).
      destruct (get_method a) as [m|e| |] eqn:M; [|cbn [fst snd]; apply (FL_bad_method line s a b c T NP), no_method; congruence..].
      apply method_iff in M. destruct (new_request_res b) as [[r R]|R]; rewrite R.
      * destruct (get_version c) as [v|e| |] eqn:V; [|cbn [fst snd]; apply (FL_bad_version line s a b c m r T NP M R), no_version; congruence..].
        apply version_iff in V. exact (FL_request line s a b c m r v T NP M R V).
      * exact (FL_bad_uri line s a b c m T NP M R).
  - rewrite H2. cbn [fst snd]. apply FL_words. intros a b c T. apply split3_iff in T. now apply (H1 a b c).
Qed.
Lemma first_line_complete line s x r : first_line_of line s x r -> parse_first_line line s = (x, r).
Proof.
  assert (NP : forall a, ~ starts_SIP a -> has_prefix a (str "SIP") = false) by (intros a H; rewrite <- prefix_iff in H; now destruct (has_prefix a (str "SIP"))).
  intros H. unfold parse_first_line. destruct H.
  all: try (match goal with T : three_words _ _ _ _ |- _ => apply split3_iff in T; rewrite T end).
  - apply prefix_iff in H0. rewrite H0. apply version_iff in H1. rewrite H1. apply atoi_iff in H2. rewrite H2. reflexivity.
  - rewrite (NP _ H0). apply method_iff in H1. rewrite H1, H2. apply version_iff in H3. rewrite H3. reflexivity.
  - destruct (split3 line) as [|a [|b [|c [|]]]] eqn:E; try reflexivity. apply split3_iff in E. now apply H in E.
  - apply prefix_iff in H0. rewrite H0. pose proof (proj2 (no_version a) H1) as V. destruct (get_version a) as [v| | |]; [now destruct (V v)|reflexivity..].
  - apply prefix_iff in H0. rewrite H0. apply version_iff in H1. rewrite H1. pose proof (proj2 (no_numeral b) H2) as V. destruct (atoi b) as [n| | |]; [now destruct (V n)|reflexivity..].
  - rewrite (NP _ H0). pose proof (proj2 (no_method a) H1) as V. destruct (get_method a) as [n| | |]; [now destruct (V n)|reflexivity..].
  - rewrite (NP _ H0). apply method_iff in H1. rewrite H1, H2. pose proof (proj2 (no_version c) H3) as V. destruct (get_version c) as [n| | |]; [now destruct (V n)|reflexivity..].
  - rewrite (NP _ H0). apply method_iff in H1. rewrite H1, H2. reflexivity.
Qed.

(** * Objects used again *)
Definition sim0 (s y : sip) : Prop :=
  s_headers s = s_headers y /\ s_isresp s = false /\ s_isresp y = false /\ (s_headers s = Some [] \/ s_last s = s_last y).
Definition kind_of (s y : sip) : Prop :=
  s_version s = s_version y /\ s_isresp s = s_isresp y /\
  (if s_isresp s then s_code s = s_code y /\ s_status s = s_status y else s_method s = s_method y /\ s_request s = s_request y).
Definition sim1 (s y : sip) : Prop :=
  s_headers s = s_headers y /\ (s_headers s = Some [] \/ s_last s = s_last y) /\ kind_of s y.
Lemma first_line_sim l s y : sim0 s y ->
  exists s' y' r, parse_first_line l s = (s', r) /\ parse_first_line l y = (y', r) /\ (r = Ok tt -> sim1 s' y').
Proof.
  intros [H1 [H2 [H2' H3]]]. unfold parse_first_line. destruct (split3 l) as [|a [|b [|c [|]]]]; try (do 3 eexists; split; [reflexivity|]; split; [reflexivity|]; discriminate).
  destruct (has_prefix a (str "SIP")).
  - destruct (get_version a); try (do 3 eexists; split; [reflexivity|]; split; [reflexivity|]; discriminate). destruct (atoi b); try (do 3 eexists; split; [reflexivity|]; split; [reflexivity|]; discriminate).
    do 3 eexists. split; [reflexivity|]. split; [reflexivity|]. intros _. unfold sim1, kind_of. cbn. repeat split; auto.
  - destruct (get_method a); try (do 3 eexists; split; [reflexivity|]; split; [reflexivity|]; discriminate). destruct (new_request b); try (do 3 eexists; split; [reflexivity|]; split; [reflexivity|]; discriminate).
    destruct (get_version c); try (do 3 eexists; split; [reflexivity|]; split; [reflexivity|]; discriminate).
    do 3 eexists. split; [reflexivity|]. split; [reflexivity|]. intros _. unfold sim1, kind_of. cbn. rewrite H2, H2'. repeat split; auto.
Qed.
Lemma header_sim l s y : sim1 s y ->
  exists s' y' r, parse_header l s = (s', r) /\ parse_header l y = (y', r) /\ (r = Ok tt -> sim1 s' y').
Proof.
  intros [H1 [H2 H3]]. unfold parse_header. destruct l as [|c l]; [do 3 eexists; split; [reflexivity|]; split; [reflexivity|]; intros _; split; auto|].
  destruct ((c =? 9) || (c =? 32)).
  - destruct H2 as [H2|H2].
    + rewrite <- H1, H2. do 3 eexists. split; [reflexivity|]. split; [reflexivity|]. discriminate.
    + rewrite <- H1, <- H2. destruct (append_last _ _) as [l'|]; [|do 3 eexists; split; [reflexivity|]; split; [reflexivity|]; discriminate].
      destruct (s_headers s) as [m|] eqn:E; (do 3 eexists; split; [reflexivity|]; split; [reflexivity|]); [|discriminate].
      intros _. split; [reflexivity|]. split; [right; exact H2|exact H3].
  - destruct (cut 58 (c :: l)) as [[a b]|].
    + rewrite <- H1. destruct (s_headers s) as [m|] eqn:E; (do 3 eexists; split; [reflexivity|]; split; [reflexivity|]); [|discriminate].
      intros _. split; [reflexivity|]. split; [right; reflexivity|exact H3].
    + do 3 eexists. split; [reflexivity|]. split; [reflexivity|]. intros _. split; auto.
Qed.
Lemma lines_sim fuel : forall b count offset buffer s y, 0 <= count -> (if count =? 0 then sim0 s y else sim1 s y) ->
  exists b' s' y' r, parse_lines fuel b count offset buffer s = (b', (s', r)) /\ parse_lines fuel b count offset buffer y = (b', (y', r)) /\
    (forall p, r = Ok p -> sim1 s' y' \/ count = 0 /\ s' = s /\ y' = y).
Proof.
  assert (Hd : forall count s y, (if count =? 0 then sim0 s y else sim1 s y) -> sim1 s y \/ count = 0 /\ s = s /\ y = y)
    by (intros count s y H; destruct (count =? 0) eqn:E; [right; repeat split; lia|now left]).
  induction fuel as [|f IH]; intros b count offset buffer s y Hc H; cbn [parse_lines].
  - do 4 eexists. split; [reflexivity|]. split; [reflexivity|]. discriminate.
  - destruct (read_slice _ b) as [b' [[line eof]|e| |]]; try (do 4 eexists; split; [reflexivity|]; split; [reflexivity|]; discriminate).
    destruct (eof && (len line =? 0)); [do 4 eexists; split; [reflexivity|]; split; [reflexivity|]; intros; apply Hd, H|].
    destruct (len (trim_crlf line) =? 0) eqn:T; cbv zeta; [do 4 eexists; split; [reflexivity|]; split; [reflexivity|]; intros; apply Hd, H|].
    assert (K : exists s' y' r, (if count =? 0 then parse_first_line (trim_crlf line) s else parse_header (trim_crlf line) s) = (s', r) /\
      (if count =? 0 then parse_first_line (trim_crlf line) y else parse_header (trim_crlf line) y) = (y', r) /\ (r = Ok tt -> sim1 s' y')).
    { destruct (count =? 0); [now apply first_line_sim|now apply header_sim]. }
    destruct K as [s' [y' [r [-> [-> K]]]]]. destruct r as [[]|e| |]; try (do 4 eexists; split; [reflexivity|]; split; [reflexivity|]; discriminate).
    destruct (IH b' (count + 1) (offset + len line) (buffer ++ line) s' y') as [b2 [s2 [y2 [r [E1 [E2 E3]]]]]]; [lia|replace (count + 1 =? 0) with false by lia; auto|].
    exists b2, s2, y2, r. split; [exact E1|]. split; [exact E2|]. intros p Hp. destruct (E3 p Hp) as [|[]]; [now left|lia].
Qed.
Lemma parse_sim b s y : sim0 s y -> s_headers s = Some [] ->
  exists b' x z r, sip_parse b s = (b', (x, r)) /\ sip_parse b y = (b', (z, r)) /\ (r = Ok tt -> same_seen x z).
Proof.
  intros H He. unfold sip_parse. destruct (lines_sim (S (S (length (bf_rest b)))) b 0 0 [] s y) as [b' [s' [y' [r [E1 [E2 E3]]]]]]; [lia|exact H|].
  rewrite E1, E2. destruct r as [[offset buffer]|e| |]; try (do 4 eexists; split; [reflexivity|]; split; [reflexivity|]; discriminate).
  destruct (E3 _ eq_refl) as [K|[_ [-> ->]]].
  - destruct K as [K1 [K2 [K3 [K4 K5]]]]. unfold fill_header. rewrite <- K1.
    destruct (get_sip_contact (s_headers s')); try (do 4 eexists; split; [reflexivity|]; split; [reflexivity|]; discriminate).
    destruct (get_sip_cseq (s_headers s')); try (do 4 eexists; split; [reflexivity|]; split; [reflexivity|]; discriminate).
    destruct (get_sip_from (s_headers s')); try (do 4 eexists; split; [reflexivity|]; split; [reflexivity|]; discriminate).
    destruct (get_sip_to (s_headers s')); try (do 4 eexists; split; [reflexivity|]; split; [reflexivity|]; discriminate).
    destruct (get_sip_via (s_headers s')); try (do 4 eexists; split; [reflexivity|]; split; [reflexivity|]; discriminate).
    cbn [with_common s_headers]. rewrite <- K1. destruct (fill_body (s_headers s') _ b') as [b2 [body|e| |]]; (do 4 eexists; split; [reflexivity|]; split; [reflexivity|]); try discriminate.
    intros _. unfold same_seen. cbn. repeat (split; [reflexivity || assumption|]). exact K5.
  - assert (Hy : s_headers y = Some []) by (rewrite <- He; symmetry; apply H). unfold fill_header. rewrite He, Hy.
    cbn. unfold fill_body. rewrite He, Hy. cbn. do 4 eexists. split; [reflexivity|]. split; [reflexivity|]. discriminate.
Qed.

Lemma first_line_headers l s : s_headers (fst (parse_first_line l s)) = s_headers s /\ s_last (fst (parse_first_line l s)) = s_last s /\
  (s_isresp s = true -> s_isresp (fst (parse_first_line l s)) = true).
Proof.
  unfold parse_first_line. destruct (split3 l) as [|a [|b [|c [|]]]]; auto. destruct (has_prefix a (str "SIP")).
  - destruct (get_version a); try destruct (atoi b); cbn; auto.
  - destruct (get_method a); cbn; auto. destruct (new_request b); cbn; auto. destruct (get_version c); cbn; auto.
Qed.
Lemma header_isresp l s : s_isresp (fst (parse_header l s)) = s_isresp s.
Proof.
  unfold parse_header. destruct l as [|c l]; [reflexivity|]. destruct ((c =? 9) || (c =? 32)).
  - destruct (append_last _ _), (s_headers s); reflexivity.
  - destruct (cut 58 (c :: l)) as [[]|]; [|reflexivity]. destruct (s_headers s); reflexivity.
Qed.
(** The first value of header k is v, and no continuation line can reach it any more. *)
Definition first_is (k v : bytes) (s : sip) : Prop :=
  exists vs, hvals (s_headers s) k = v :: vs /\ (k <> s_last s \/ vs <> []).
Lemma append_last_head x v w vs : exists vs', append_last x (v :: w :: vs) = Some (v :: vs') /\ vs' <> [].
Proof.
  change (append_last x (v :: w :: vs)) with (match append_last x (w :: vs) with Some l => Some (v :: l) | None => None end).
  assert (E : exists l, append_last x (w :: vs) = Some l /\ l <> []).
  { revert w. induction vs as [|u vs IH]; intros w; cbn [append_last]; [eexists; split; [reflexivity|discriminate]|]. destruct (IH u) as [l [E Hl]]. cbn [append_last] in E. rewrite E. eexists. split; [reflexivity|discriminate]. }
  destruct E as [l [-> Hl]]. eauto.
Qed.
Lemma header_first k v l s : first_is k v s -> first_is k v (fst (parse_header l s)).
Proof.
  intros [vs [H1 H2]]. unfold parse_header. destruct l as [|c l]; [exists vs; auto|]. destruct ((c =? 9) || (c =? 32)).
  - destruct (s_headers s) as [m|] eqn:E; [|discriminate H1].
    destruct (bytes_eqb k (s_last s)) eqn:K.
    + apply bytes_eqb_eq in K. destruct H2 as [H2|H2]; [contradiction|]. rewrite <- K, H1. destruct vs as [|w vs]; [congruence|].
      destruct (append_last_head (32 :: trim_space (c :: l)) v w vs) as [vs' [E2 E3]]. rewrite E2. exists vs'. cbn. rewrite <- K. unfold hvals, hlook. rewrite mget_mset_same. auto.
    + destruct (append_last _ _) as [l'|]; [|exists vs; cbn [fst]; rewrite E; auto]. exists vs. cbn. unfold hvals, hlook in *. rewrite mget_mset, K. auto.
  - destruct (cut 58 (c :: l)) as [[a b]|]; [|exists vs; auto]. destruct (s_headers s) as [m|] eqn:E; [|discriminate H1]. cbn [fst].
    unfold first_is. cbn [with_last with_headers s_headers s_last]. set (n := to_lower (trim_sp a)). unfold hvals at 1, hlook. destruct (bytes_eqb k n) eqn:K.
    + apply bytes_eqb_eq in K. subst k. rewrite mget_mset_same, H1. cbn [app]. eexists. split; [reflexivity|]. right. intros C. apply app_eq_nil in C. destruct C; discriminate.
    + exists vs. rewrite mget_mset, K. split; [exact H1|]. left. intros ->. rewrite bytes_eqb_refl in K. discriminate.
Qed.
Lemma fill_header_cases s : fst (fill_header s) = s \/ exists f t c q v, fst (fill_header s) = with_common f t c q v s.
Proof.
  unfold fill_header. destruct (get_sip_contact _); auto. destruct (get_sip_cseq _); auto. destruct (get_sip_from _); auto. destruct (get_sip_to _); auto.
  destruct (get_sip_via _); auto. right. do 5 eexists. reflexivity.
Qed.
Lemma lines_keep (P : sip -> Prop) : (forall l s, P s -> P (fst (parse_first_line l s))) -> (forall l s, P s -> P (fst (parse_header l s))) ->
  forall fuel b count offset buffer s, P s -> P (fst (snd (parse_lines fuel b count offset buffer s))).
Proof.
  intros H1 H2. induction fuel as [|f IH]; intros b count offset buffer s H; cbn [parse_lines]; [exact H|].
  destruct (read_slice _ b) as [b' [[line eof]|e| |]]; try exact H. destruct (eof && (len line =? 0)); [exact H|]. cbv zeta. destruct (len (trim_crlf line) =? 0); [exact H|].
  assert (K : P (fst (if count =? 0 then parse_first_line (trim_crlf line) s else parse_header (trim_crlf line) s))) by (destruct (count =? 0); auto).
  destruct (if count =? 0 then _ else _) as [s' [|e| |]]; try exact K. apply IH, K.
Qed.
Lemma parse_keep (P : sip -> Prop) : (forall l s, P s -> P (fst (parse_first_line l s))) -> (forall l s, P s -> P (fst (parse_header l s))) ->
  (forall f t c q v s, P s -> P (with_common f t c q v s)) -> (forall c p s, P s -> P (with_layer c p s)) ->
  forall b s, P s -> P (fst (snd (sip_parse b s))).
Proof.
  intros H1 H2 H3 H4 b s H. unfold sip_parse. pose proof (lines_keep P H1 H2 (S (S (length (bf_rest b)))) b 0 0 [] s H) as K.
  destruct (parse_lines _ b 0 0 [] s) as [b' [s' [[offset buffer]|e| |]]]; try exact K. cbn [fst snd] in K.
  assert (F : P (fst (fill_header s'))) by (destruct (fill_header_cases s') as [-> | [f [t [c [q [v ->]]]]]]; cbn [fst]; auto).
  destruct (fill_header s') as [s2 r2]; destruct r2 as [u|e| |]; [|exact F..]. destruct (fill_body _ _ b') as [b2 [body|e| |]]; try exact F. apply H4, F.
Qed.
