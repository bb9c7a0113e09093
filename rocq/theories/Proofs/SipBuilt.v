(** Proofs about messages with a header map that a program has filled. *)
From Coq Require Import String Permutation.
From Verif Require Import Base.Go Base.GoFacts Base.IO Base.Text Model.Sip Model.SipMaps Spec.Sip Spec.SipLine Spec.SipAddr Spec.SipWhole Spec.SipMany Spec.SipMaps Spec.SipBuilt
  Proofs.Text Proofs.SipText Proofs.SipMany Proofs.SipMaps.
Import ListNotations. Local Open Scope list_scope. Local Open Scope Z_scope.

Lemma name_lower n : header_name n -> lower_name (to_lower n).
Proof.
  intros [N H]. assert (A : Forall Proofs.Text.ascii n) by (eapply Forall_impl; [|exact H]; cbn beta; unfold graphic, Proofs.Text.ascii; intros; lia).
  rewrite to_lower_ascii by exact A. split; [destruct n; [congruence|discriminate]|]. rewrite Forall_map. eapply Forall_impl; [|exact H]. cbn beta.
  intros c [G X]. unfold graphic in *. unfold lower_rune. destruct (btw 65 c 90) eqn:B; [apply btw_spec in B; lia|]. assert (~ 65 <= c <= 90) by (rewrite <- btw_spec; congruence).
  replace (c =? 304) with false by lia. replace (c =? 8490) with false by lia. lia.
Qed.
Lemma lower_is_name k : lower_name k -> header_name k.
Proof. intros [N H]. split; [exact N|]. eapply Forall_impl; [|exact H]. cbn beta. tauto. Qed.

(** Every map has distinct lower-case names and values on one line. *)
Definition inv2 (s : list header) : Prop := forall i m, map_of s i = Some m -> text_headers m.
Lemma text_set m n v : text_headers m -> header_name n -> without [13; 10] v -> text_headers (mset (to_lower n) [v] m).
Proof.
  intros [N F] Hn Hv. split; [apply mset_nodup, N|]. pose proof (name_lower _ Hn) as Hl. clear N. induction F as [|[k vs] m Hp F IH]; cbn [mset].
  - repeat constructor; cbn [fst snd]; try assumption; apply Hl.
  - destruct (bytes_eqb (to_lower n) k) eqn:E; constructor; try assumption. cbn [fst snd]. split; [exact Hl|]. repeat constructor. exact Hv.
Qed.
Lemma put_map_of s i h k m : map_of (put_map s i h) k = Some m -> map_of s k = Some m \/ h = Some m.
Proof.
  unfold map_of. revert i k. induction s as [|x s IH]; intros [|i] [|k]; cbn [put_map nth]; auto; apply IH.
Qed.
Lemma inv2_put s i m n v : inv2 s -> text_headers m -> header_name n -> without [13; 10] v -> inv2 (put_map s i (Some (mset (to_lower n) [v] m))).
Proof. intros HI Hm Hn Hv k m' E. apply put_map_of in E as [E|E]; [exact (HI _ _ E)|]. injection E as <-. now apply text_set. Qed.
Lemma first_plain h n : (forall m, h = Some m -> text_headers m) -> without [13; 10] (get_first h n).
Proof.
  intros H. assert (Z0 : without [13; 10] []) by constructor. destruct h as [m|]; [|exact Z0].
  assert (G : forall k v vs, mget k m = Some (v :: vs) -> without [13; 10] v).
  { intros k v vs E. apply mget_in in E. destruct (H m eq_refl) as [_ F]. rewrite Forall_forall in F. specialize (F _ E) as [_ F]. exact (Forall_inv F). }
  unfold get_first, hvals, hlook. destruct (mget (to_lower n) m) as [[|v vs]|] eqn:E; [|exact (G _ _ _ E)|exact Z0].
  destruct (mget (compact_of (to_lower n)) m) as [[|v vs]|] eqn:E'; [exact Z0|exact (G _ _ _ E')|exact Z0].
Qed.
Lemma copy_inv2 names : Forall header_name names -> forall s i j s', inv2 s -> copy_names s i j names = Ok s' -> inv2 s'.
Proof.
  induction 1 as [|n names Hn _ IH]; intros s i j s' HI E; cbn [copy_names] in E; [injection E as <-; exact HI|].
  destruct (map_of s i) as [m|] eqn:Em; [|discriminate E]. cbn [set_first bind] in E. eapply IH; [|exact E].
  apply inv2_put; [exact HI|exact (HI _ _ Em)|exact Hn|]. apply first_plain. intros m' X. exact (HI _ _ X).
Qed.
Lemma run_inv2 os : Forall on_a_line os -> forall s s', inv2 s -> map_run s os = Ok s' -> inv2 s'.
Proof.
  induction 1 as [|o os Ho _ IH]; intros s s' HI E; cbn [map_run] in E; [injection E as <-; exact HI|].
  destruct (map_step s o) as [s0| | |] eqn:E0; cbn [bind] in E; try discriminate E. eapply IH; [|exact E]. destruct o as [|i f|i j names]; cbn [map_step on_a_line] in *.
  - injection E0 as <-. intros i m X. unfold map_of in X. destruct (Nat.lt_ge_cases i (length s)) as [G|G]; [rewrite app_nth1 in X by exact G; exact (HI i m X)|].
    rewrite app_nth2 in X by exact G. destruct (i - length s)%nat as [|[|]]; cbn [nth] in X; try discriminate X. injection X as <-. split; constructor.
  - rewrite setter_first in E0. destruct (map_of s i) as [m|] eqn:Em; [|discriminate E0]. cbn [set_first bind] in E0. injection E0 as <-. apply inv2_put; try tauto. exact (HI _ _ Em).
  - eapply copy_inv2; eassumption.
Qed.
Lemma run_text os s i m : Forall on_a_line os -> map_run [] os = Ok s -> map_of s i = Some m -> text_headers m.
Proof. intros H E. apply (run_inv2 os H [] s); [|exact E]. intros k m' X. unfold map_of in X. destruct k; discriminate X. Qed.

(** What is in the map of a message. *)
Lemma made_message h body s m : made_with h body s -> h = Some m -> text_headers m -> len body <= 9223372036854775807 ->
  text_message s /\ s_headers s = Some m /\ s_payload s = body.
Proof.
  intros H Eh T L. assert (G : s_headers s = Some m /\ s_payload s = body).
  { destruct H as [k r _ _|c _]; subst h; unfold make_request, make_response; destruct m as [|p m]; destruct body as [|b body]; split; reflexivity. }
  split; [|exact G]. destruct G as [G1 G2]. split; [|split; [exists m; auto|rewrite G2; exact L]].
  destruct H as [k r Hk Hr|c Hc]; subst h; unfold make_request, make_response; destruct m as [|p m]; destruct body as [|b body]; cbn; auto; (split; [exact Hk|exists r; auto]).
Qed.
Lemma name_len n : header_name n -> len (to_lower n) = len n.
Proof.
  intros [_ H]. assert (A : Forall Proofs.Text.ascii n) by (eapply Forall_impl; [|exact H]; cbn beta; unfold graphic, Proofs.Text.ascii; intros; lia).
  rewrite to_lower_ascii by exact A. unfold len. now rewrite map_length.
Qed.
