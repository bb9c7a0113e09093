(** C191: which spellings of a header name mean the same header, and what NewSIPAuth reads, exactly. *)
From Coq Require Import String.
From Verif Require Import Base.Go Base.GoFacts Base.IO Base.Text Model.Sip Spec.Sip Spec.SipWhole Spec.SipParams Spec.SipNames Proofs.Text Proofs.Sip Proofs.SipMsg Proofs.SipHeaders Proofs.SipWhole Proofs.SipNames Props.SipParams.
Import ListNotations. Local Open Scope list_scope. Local Open Scope Z_scope.
Local Ltac Zify.zify_post_hook ::= Z.div_mod_to_equations.

(** Reading under a name is reading under the lower-case name it spells. *)
Theorem C191_read : forall h name k, lower_ascii k -> spells name k -> get_header h name = get_header h k /\ get_first h name = get_first h k.
Proof.
  intros h name k L S. unfold get_header, get_first. rewrite (spells_lower _ _ S L), (spells_lower _ _ (spells_self k) L). auto.
Qed.
(** Setting under a name sets exactly the header it spells. *)
Theorem C191_set : forall m name v k, lower_ascii k -> exists m', set_first (Some m) name v = Ok (Some m') /\
  (spells name k -> mget k m' = Some [v]) /\ (~ spells name k -> mget k m' = mget k m).
Proof.
  intros m name v k L. eexists. split; [reflexivity|]. rewrite mget_mset. split.
  - intros S. rewrite (spells_lower _ _ S L), bytes_eqb_refl. reflexivity.
  - intros N. destruct (bytes_eqb k (to_lower name)) eqn:E; [|reflexivity]. apply bytes_eqb_eq in E. elim N. apply lower_iff; auto.
Qed.
(** A header line adds its value to exactly the header its name spells. *)
Theorem C191_line : forall s m l a b n v k, s_headers s = Some m -> ~ continuation l -> l = a ++ str ":" ++ b -> without (str ":") a ->
  bare_of_spaces a n -> bare_of_spaces b v -> lower_ascii k ->
  exists x, parse_header l s = (x, Ok tt) /\
    (spells n k -> hvals (s_headers x) k = hvals (s_headers s) k ++ [v]) /\ (~ spells n k -> hvals (s_headers x) k = hvals (s_headers s) k).
Proof.
  intros s m l a b n v k Hm Hc Hl Ha Hn Hv L. apply spaces_iff in Hn, Hv. assert (HC : cut 58 l = Some (a, b)).
  { rewrite Hl. apply (cut_app 58 a b). eapply Forall_impl; [|exact Ha]. cbn. intros c C E. apply C. now left. }
  assert (HP : exists c t, l = c :: t /\ c <> 9 /\ c <> 32).
  { destruct l as [|c t]; [destruct a; discriminate|]. exists c, t. split; [reflexivity|]. split; intros ->; apply Hc; eexists; [right|left]; reflexivity. }
  destruct HP as (c & t & E & C1 & C2). unfold parse_header. rewrite HC, E, Hm. replace ((c =? 9) || (c =? 32)) with false by lia. eexists. split; [reflexivity|].
  cbn [with_last with_headers s_headers s_last]. rewrite Hn, Hv. unfold hvals, hlook. rewrite mget_mset. split.
  - intros S. rewrite (spells_lower _ _ S L), bytes_eqb_refl. reflexivity.
  - intros N. destruct (bytes_eqb k (to_lower n)) eqn:D; [|reflexivity]. apply bytes_eqb_eq in D. elim N. apply lower_iff; auto.
Qed.

Lemma same_length a b : same_ignoring_case a b -> length a = length b.
Proof. induction 1; cbn; congruence. Qed.
Lemma digest_lower : lower_ascii (str "digest ").
Proof. unfold lower_ascii. repeat constructor; cbn; lia. Qed.
Lemma digest_prefix src : (8 <=? len src) && bytes_eqb (to_lower (take src 7)) (str "digest ") = true <-> digest src (drop src 7).
Proof.
  split.
  - intros H. apply andb_true_iff in H as [H1 H2]. apply bytes_eqb_eq in H2. exists (take src 7). split; [symmetry; apply take_drop|]. split.
    + apply (proj1 (lower_iff _ _ digest_lower)) in H2. apply spells_len in H2 as [_ H2]. apply H2. unfold take. rewrite firstn_length. change (length (str "digest ")) with 7%nat. unfold len in H1. change (Z.to_nat 7) with 7%nat. lia.
    + intros C. apply (f_equal (@len Z)) in C. unfold drop in C. unfold len in *. rewrite skipn_length in C. change (Z.to_nat 7) with 7%nat in C. cbn [length] in C. lia.
  - intros (pre & E & S & N). assert (HL : length pre = 7%nat) by (clear - S; apply same_length in S; exact S).
    assert (HT : take src 7 = pre). { pose proof (take_drop src 7) as T. rewrite E in T at 3. apply app_inv_tail in T. exact T. }
    rewrite HT. apply andb_true_iff. split.
    + rewrite E, len_app. unfold len at 1. rewrite HL. destruct (drop src 7); [congruence|]. rewrite len_cons. pose proof (len_nonneg l). lia.
    + apply bytes_eqb_eq. apply spells_lower; [now apply same_spells, digest_lower|]. apply digest_lower.
Qed.
Lemma digest_drop src rest : digest src rest -> drop src 7 = rest.
Proof.
  intros (pre & -> & S & _). apply same_length in S. unfold drop. change (Z.to_nat 7) with 7%nat. change (length (str "digest ")) with 7%nat in S. rewrite <- S. rewrite skipn_app, skipn_all, Nat.sub_diag. reflexivity.
Qed.
(** Credentials of another scheme have no parameters. *)
Theorem C191_other_scheme : forall src, (forall rest, ~ digest src rest) -> exists a, new_auth src = Ok a /\ a_src a = src /\ forall k, mget k (a_args a) = None.
Proof.
  intros src H. unfold new_auth. destruct ((8 <=? len src) && bytes_eqb (to_lower (take src 7)) (str "digest ")) eqn:E; [apply digest_prefix in E; now apply H in E|]. eexists. split; [reflexivity|]. split; reflexivity.
Qed.
(** Those of the scheme Digest have the parameters of the list that follows; a broken element makes NewSIPAuth panic. *)
Theorem C191_digest : forall src rest t es, digest src rest -> Forall ascii rest -> trimmed rest t -> elements t es ->
  (new_auth src = Panic <-> Exists broken es) /\
  (~ Exists broken es -> exists a, new_auth src = Ok a /\ a_src a = src /\ forall k v, mget k (a_args a) = Some v <-> last_value es k v).
Proof.
  intros src rest t es D A T E. destruct (C155_parameters_exactly _ _ _ A T E) as [P1 P2]. pose proof (digest_drop _ _ D) as DD. unfold new_auth. pose proof D as D2. rewrite <- DD in D2. rewrite (proj2 (digest_prefix src) D2), DD.
  split.
  - rewrite <- P1. destruct (parse_args_pairs rest); cbn [bind]; split; intros X; try discriminate; try exact X; reflexivity.
  - intros N. destruct (P2 N) as (m & -> & M). cbn [bind]. eexists. split; [reflexivity|]. split; [reflexivity|]. exact M.
Qed.
(** Every text is one or the other. *)
Theorem C191_scheme : forall src, (exists rest, digest src rest) \/ (forall rest, ~ digest src rest).
Proof.
  intros src. destruct ((8 <=? len src) && bytes_eqb (to_lower (take src 7)) (str "digest ")) eqn:E; [left; eexists; apply digest_prefix; exact E|].
  right. intros rest D. pose proof (digest_drop _ _ D) as DD. rewrite <- DD in D. apply digest_prefix in D. congruence.
Qed.
Example C191_example : lower_ascii (str "via") /\ spells (str "VIA") (str "via") /\ spells (86 :: 196 :: 176 :: str "a") (str "via") /\ digest (str "DIGEST realm=""a""") (str "realm=""a""") /\
  (forall rest, ~ digest (str "Basic QWxh") rest) /\ get_header (Some [(str "via", [str "x"])]) (86 :: 196 :: 176 :: str "a") = [str "x"].
Proof.
  assert (L : lower_ascii (str "via")) by (unfold lower_ascii; repeat constructor; cbn; lia). split; [exact L|].
  split; [apply lower_iff; [exact L|reflexivity]|]. split; [apply lower_iff; [exact L|reflexivity]|]. split.
  - exact (proj1 (digest_prefix (str "DIGEST realm=""a""")) eq_refl).
  - split; [|reflexivity]. intros rest D. pose proof (digest_drop _ _ D) as DD. rewrite <- DD in D. apply digest_prefix in D. discriminate.
Qed.
Print Assumptions C191_read.
Print Assumptions C191_set.
Print Assumptions C191_line.
Print Assumptions C191_other_scheme.
Print Assumptions C191_digest.
Print Assumptions C191_scheme.
