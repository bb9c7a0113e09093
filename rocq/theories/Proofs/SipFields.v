(** Proofs about sequences of header fields, and about whole messages in terms of Spec/Sip.v. *)
From Coq Require Import String Permutation.
From Verif Require Import Base.Go Base.GoFacts Base.IO Base.Text Model.Sip Spec.Sip Proofs.Text Proofs.Sip Proofs.SipMsg Proofs.SipRead Proofs.SipText Proofs.SipParse Proofs.SipMore Proofs.SipHeaders.
Import ListNotations. Local Open Scope list_scope. Local Open Scope Z_scope.
Local Ltac Zify.zify_post_hook ::= Z.div_mod_to_equations.

Lemma append_last_snoc x v l : append_last x (l ++ [v]) = Some (l ++ [v ++ x]).
Proof. induction l as [|w l IH]; [reflexivity|]. cbn [app append_last]. rewrite IH. destruct l; reflexivity. Qed.
Lemma parse_field_line n v m s : field_name n -> one_line v -> s_headers s = Some m ->
  parse_header (n ++ [58; 32] ++ v) s =
    (with_last (to_lower n) (with_headers (Some (mset (to_lower n) (hvals (Some m) (to_lower n) ++ [v]) m)) s), Ok tt).
Proof.
  intros [Hne Hk] Hv Hm. destruct n as [|c n]; [congruence|]. pose proof (Forall_inv Hk) as [Hg _]. unfold graphic in Hg. unfold parse_header. cbn [app].
  replace ((c =? 9) || (c =? 32)) with false by lia. change (c :: n ++ 58 :: 32 :: v) with ((c :: n) ++ 58 :: 32 :: v).
  rewrite cut_app by (eapply Forall_impl; [|exact Hk]; cbn; intros; lia).
  assert (T1 : trim_sp (c :: n) = c :: n).
  { unfold trim_sp. apply trim_by_solid, solid_none. eapply Forall_impl; [|exact Hk]. cbn. intros d [Hd _]. unfold graphic in Hd. lia. }
  assert (T2 : trim_sp (32 :: v) = v).
  { unfold trim_sp. assert (W : trim_by (fun c => c =? 32) ([32] ++ v ++ []) = v) by (apply trim_by_wrap; [repeat constructor|constructor|now apply solid_one_line]).
    rewrite app_nil_r in W. exact W. }
  cbv zeta. rewrite T1, T2, Hm. reflexivity.
Qed.
Lemma trim_fold w t : w = 32 \/ w = 9 -> t <> [] -> Forall graphic t -> trim_space (w :: t) = t.
Proof.
  intros Hw Hne Ht. rewrite trim_space_ascii by (constructor; [unfold ascii; lia|now apply graphic_ascii]).
  assert (S : solid is_space t) by (apply solid_none; eapply Forall_impl; [|exact Ht]; intros c Hc; unfold graphic in Hc; rewrite space_ascii by (unfold ascii; lia); unfold btw; lia).
  pose proof (trim_by_wrap is_space [w] t [] ltac:(constructor; [destruct Hw; subst; reflexivity|constructor]) (Forall_nil _) S) as W. rewrite app_nil_r in W. exact W.
Qed.
Lemma feed_more ps : forall s m l v, Forall (fun p => (fst p = 32 \/ fst p = 9) /\ snd p <> [] /\ Forall graphic (snd p)) ps ->
  s_headers s = Some m -> hvals (Some m) (s_last s) = l ++ [v] ->
  exists s' m', feed (map (fun p => fst p :: snd p) ps) s = (s', Ok tt) /\ s_headers s' = Some m' /\ s_last s' = s_last s /\
    mget (s_last s) m' = Some (l ++ [v ++ flat_map (fun p => 32 :: snd p) ps]) /\ (forall k, k <> s_last s -> mget k m' = mget k m).
Proof.
  induction ps as [|[w t] ps IH]; intros s m l v Hp Hm Hv; cbn [map feed flat_map].
  - exists s, m. rewrite app_nil_r. repeat split; auto. unfold hvals, hlook in Hv. destruct (mget (s_last s) m) as [x|]; [congruence|]. destruct l; discriminate.
  - inversion Hp as [|x y [Hw [Hne Hg]] Hp']; subst. cbn [fst snd] in *. unfold parse_header at 1.
    replace ((w =? 9) || (w =? 32)) with true by lia. rewrite trim_fold by assumption. rewrite Hm, Hv, append_last_snoc.
    destruct (IH (with_headers (Some (mset (s_last s) (l ++ [v ++ 32 :: t]) m)) s) (mset (s_last s) (l ++ [v ++ 32 :: t]) m) l (v ++ 32 :: t)) as [s' [m' [E1 [E2 [E3 [E4 E5]]]]]].
    + assumption.
    + reflexivity.
    + cbn [with_headers s_last]. unfold hvals, hlook. now rewrite mget_mset_same.
    + cbn [with_headers s_last] in *. exists s', m'. split; [exact E1|]. split; [assumption|]. split; [assumption|]. split.
      * rewrite E4. do 3 f_equal. rewrite <- app_assoc. reflexivity.
      * intros k Hk. rewrite E5 by assumption. now apply mget_mset_other.
Qed.
Lemma feed_fields fs : forall s m, Forall plain_field fs -> s_headers s = Some m ->
  exists s' m', feed (flat_map field_lines fs) s = (s', Ok tt) /\ s_headers s' = Some m' /\
    forall k, hvals (Some m') k = hvals (Some m) k ++ map field_text (filter (fun f => bytes_eqb (to_lower (f_name f)) k) fs).
Proof.
  induction fs as [|f fs IH]; intros s m Hp Hm; cbn [flat_map feed filter map].
  - exists s, m. repeat split; auto. intros k. now rewrite app_nil_r.
  - inversion Hp as [|x y [Hn [Hv Hmore]] Hp']; subst. rewrite feed_app. unfold field_lines at 1. cbn [feed]. rewrite (parse_field_line _ _ m s Hn Hv Hm).
    set (k0 := to_lower (f_name f)). set (s1 := with_last _ _). 
    destruct (feed_more (f_more f) s1 (mset k0 (hvals (Some m) k0 ++ [f_value f]) m) (hvals (Some m) k0) (f_value f) Hmore eq_refl) as [s2 [m2 [E1 [E2 [E3 [E4 E5]]]]]].
    { cbn [s1 with_last s_last]. unfold hvals at 1, hlook. rewrite mget_mset_same. reflexivity. }
    rewrite E1. change (s_last s1) with k0 in *. destruct (IH s2 m2 Hp' E2) as [s3 [m3 [F1 [F2 F3]]]]. exists s3, m3. split; [exact F1|]. split; [assumption|].
    intros k. rewrite F3. fold k0. destruct (bytes_eqb k0 k) eqn:Ek.
    + apply bytes_eqb_eq in Ek. subst k. unfold hvals at 1, hlook. rewrite E4. cbn [map]. rewrite <- app_assoc. reflexivity.
    + f_equal. unfold hvals, hlook. rewrite E5; [rewrite mget_mset_other; [reflexivity|]|]; intros ->; rewrite bytes_eqb_refl in Ek; discriminate.
Qed.
(** In a map without empty entries, GetHeader is the lookup. *)
Lemma get_header_vals m n : (forall k, mget k m <> Some []) -> get_header (Some m) n = hvals (Some m) (to_lower n).
Proof. intros H. unfold get_header, hvals, hlook. specialize (H (to_lower n)). destruct (mget (to_lower n) m) as [[|v l]|]; [congruence|reflexivity|reflexivity]. Qed.
Lemma plain_no_empty m : plain_headers m -> forall k, mget k m <> Some [].
Proof. intros [_ H] k E. apply mget_in in E. rewrite Forall_forall in H. destruct (H _ E) as [_ [v [C _]]]. discriminate. Qed.
Lemma parsed_same order s x : plain_message s -> iteration order -> parsed_as s x order -> same_message s x.
Proof.
  intros Hm Ho [P1 [P2 [P3 [P4 P5]]]]. destruct (sip_bytes_text order s Hm Ho) as [_ [_ [Hw Hl]]]. destruct Hm as [Hf [[m [Em Hp]] [Ha Hlen]]].
  split; [|split; [assumption|split; [assumption|split; [|assumption]]]].
  - intros n. rewrite P1. rewrite get_header_vals by (now apply plain_no_empty). unfold hvals at 1. cbn [hlook]. rewrite Hl. change (str "content-length") with cl.
    destruct (bytes_eqb (to_lower n) cl); [reflexivity|]. rewrite Em, get_header_vals by (now apply plain_no_empty). reflexivity.
  - destruct (s_isresp s); [assumption|]. destruct P4 as [P4 [r [E1 E2]]]. split; [assumption|]. exists r, (request_stored r). repeat split; assumption.
Qed.

(** * Bytes leaves nothing to change for a second Bytes *)
Lemma mset_mset {A} k (v w : A) m : mset k v (mset k w m) = mset k v m.
Proof.
  induction m as [|[k' u] m IH]; cbn [mset]; [rewrite bytes_eqb_refl; reflexivity|].
  destruct (bytes_eqb k k') eqn:E; cbn [mset]; rewrite ?E; [|now rewrite IH]. rewrite bytes_eqb_refl. reflexivity.
Qed.
