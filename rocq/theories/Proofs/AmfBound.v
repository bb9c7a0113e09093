(** How long the encoding of a decoded AMF0 value can be at most, references included. *)
From Coq Require Import String Permutation.
From Verif Require Import Base.Go Base.GoFacts Model.AmfTypes Spec.Amf Spec.AmfDoc Spec.Amf3Doc Spec.Amf3Ref Spec.AmfAll Spec.AmfVal Spec.AmfAgain
  Proofs.AmfFacts Proofs.Amf0Doc Proofs.AmfHeap Proofs.AmfVal Proofs.AmfAgain Proofs.AmfGrow.
Import ListNotations.
Local Open Scope list_scope.
Local Open Scope Z_scope.

Lemma pow_one a : 0 <= a -> 1 <= 2 ^ a.
Proof. intros H. pose proof (Z.pow_pos_nonneg 2 a ltac:(lia) H). lia. Qed.
Lemma pow_grow a n : 0 <= a -> 0 <= n -> n + 2 ^ a <= 2 ^ (a + n).
Proof.
  intros Ha Hn. rewrite Z.pow_add_r by lia. pose proof (pow_one a Ha). pose proof (Z.pow_gt_lin_r 2 n ltac:(lia) Hn). nia.
Qed.
Lemma pow_up a b : 0 <= a <= b -> 2 ^ a <= 2 ^ b.
Proof. intros H. apply Z.pow_le_mono_r; lia. Qed.

(** Every complete entry of the table is at most 2^a long. *)
Definition env_small (a : Z) (env : list (option pval)) : Prop := Forall (fun o => match o with Some p => wsize p <= 2 ^ a | None => True end) env.
Lemma env_small_up a b env : 0 <= a <= b -> env_small a env -> env_small b env.
Proof. intros H G. unfold env_small in *. eapply Forall_impl; [|exact G]. intros [p|] K; [|exact I]. pose proof (pow_up a b H). cbv beta in *. lia. Qed.
Lemma small_complete a i p env : wsize p <= 2 ^ a -> env_small a env -> env_small a (complete i p env).
Proof.
  intros H G. unfold env_small, complete in *. apply Forall_app. split.
  - rewrite <- (firstn_skipn i env) in G. apply Forall_app in G. apply G.
  - constructor; [exact H|]. rewrite <- (firstn_skipn (S i) env) in G. apply Forall_app in G. apply G.
Qed.
Lemma small_snoc a env o : env_small a env -> match o with Some p => wsize p <= 2 ^ a | None => True end -> env_small a (env ++ [o]).
Proof. intros H G. apply Forall_app. split; [exact H|]. constructor; [exact G|constructor]. Qed.

Definition flen (fs : list (bytes * doc0)) : Z := len (concat (map (fun p => wire_utf8 (fst p) ++ layout0 (snd p)) fs)).
Definition elen (l : list doc0) : Z := len (concat (map layout0 l)).
Definition Q_doc (W : world) env t (c : nat) p (W' : world) env' : Prop := no_amf3 t -> doc_ok true t -> is_bytes (layout0 t) -> forall a, 0 <= a -> env_small a env ->
  wsize p + 2 ^ a <= 2 ^ (a + len (layout0 t)) /\ env_small (a + len (layout0 t)) env'.
Definition Q_fields (W : world) env (fs : list (bytes * doc0)) ps (W' : world) env' : Prop := Forall field_good fs -> forall a, 0 <= a -> env_small a env ->
  fsize ps + 2 ^ a <= 2 ^ (a + flen fs) /\ env_small (a + flen fs) env'.
Definition Q_elems (W : world) env (l : list doc0) (c : nat) ps (W' : world) env' : Prop := Forall (fun t => no_amf3 t /\ doc_ok true t /\ is_bytes (layout0 t)) l -> forall a, 0 <= a -> env_small a env ->
  asize ps + 2 ^ a <= 2 ^ (a + elen l) /\ env_small (a + elen l) env'.

Lemma simple_plain t : simple t -> plain t.
Proof. destruct t; cbn [simple]; intros HS; try exact (False_ind _ HS); exact I. Qed.
(** What surrounds the members: m bytes before them, n after them. *)
Lemma around a m n f F x : 0 <= a -> 1 <= m -> 0 <= n -> 0 <= F -> x <= m + n -> f + 2 ^ (a + m) <= 2 ^ (a + m + F) -> x + f + 2 ^ a <= 2 ^ (a + (m + F + n)).
Proof.
  intros Ha Hm Hn HF Hx H. pose proof (pow_grow a m Ha ltac:(lia)). pose proof (pow_grow (a + m + F) n ltac:(lia) Hn). replace (a + (m + F + n)) with (a + m + F + n) by lia. lia.
Qed.

Lemma reads_small : (forall W env t c p W' env', reads W env t c p W' env' -> Q_doc W env t c p W' env') /\
  (forall W env fs ps W' env', fields_read W env fs ps W' env' -> Q_fields W env fs ps W' env') /\
  (forall W env l c ps W' env', elems_read W env l c ps W' env' -> Q_elems W env l c ps W' env').
Proof.
  apply reads_mutind; unfold Q_doc, Q_fields, Q_elems.
  - intros W env t HS _ H B a Ha G. pose proof (len_nonneg (layout0 t)). split; [|eapply env_small_up; [|exact G]; lia].
    destruct (plain_small t H (simple_plain t HS) B) as [_ L]. pose proof (pow_grow a (len (layout0 t)) Ha ltac:(lia)). lia.
  - intros W env i p HN _ _ _ a Ha G. cbn [layout0]. rewrite len_cons, len_be16. apply nth_error_In in HN. split; [|eapply env_small_up; [|exact G]; lia]. unfold env_small in G. rewrite Forall_forall in G. specialize (G _ HN). cbv beta iota in G.
    pose proof (pow_up (a + 1) (a + (1 + 2)) ltac:(lia)) as X. rewrite Z.pow_add_r in X by lia. change (2 ^ 1) with 2 in X. lia.
  - intros W env s c p W' _ HF. destruct HF.
  - intros W env fs ps W' env' p _ IH -> HA HO HB a Ha G. cbn [no_amf3 doc_ok layout0] in *. assert (FG : Forall field_good fs) by (eapply fields_good; [exact HA|exact HO|apply is_bytes_cons in HB; exact HB]).
    destruct (IH FG (a + 1) ltac:(lia)) as [F G']; [apply small_snoc; [eapply env_small_up; [|exact G]; lia|exact I]|]. rewrite len_cons, len_app. fold (flen fs). change (len [0; 0; 9]) with 3. pose proof (len_nonneg (concat (map (fun p => wire_utf8 (fst p) ++ layout0 (snd p)) fs))) as HN. fold (flen fs) in HN.
    pose proof (fsize_members ps). rewrite wsize_obj. pose proof (around a 1 3 (fsize ps) (flen fs) 4 Ha ltac:(lia) ltac:(lia) HN ltac:(lia) F) as K. replace (a + (1 + (flen fs + 3))) with (a + (1 + flen fs + 3)) by lia.
    assert (K2 : 4 + fsize (members ps) + 2 ^ a <= 2 ^ (a + (1 + flen fs + 3))) by lia. split; [exact K2|]. pose proof (pow_one a Ha).
    apply small_complete; [rewrite wsize_obj; lia|]. eapply env_small_up; [|exact G']. lia.
  - intros W env n fs ps W' env' p _ IH -> HA HO HB a Ha G. cbn [no_amf3 doc_ok layout0] in *. destruct HO as [_ HO]. apply is_bytes_cons in HB. apply is_bytes_app in HB. destruct HB as [_ HB].
    assert (FG : Forall field_good fs) by (eapply fields_good; [exact HA|exact HO|exact HB]).
    destruct (IH FG (a + 5) ltac:(lia)) as [F G']; [apply small_snoc; [eapply env_small_up; [|exact G]; lia|exact I]|]. rewrite len_cons, !len_app, len_be32. fold (flen fs). change (len [0; 0; 9]) with 3. pose proof (len_nonneg (concat (map (fun p => wire_utf8 (fst p) ++ layout0 (snd p)) fs))) as HN. fold (flen fs) in HN.
    pose proof (fsize_members ps). rewrite wsize_obj. pose proof (around a 5 3 (fsize ps) (flen fs) 4 Ha ltac:(lia) ltac:(lia) HN ltac:(lia) F) as K. replace (a + (1 + (4 + (flen fs + 3)))) with (a + (5 + flen fs + 3)) by lia.
    assert (K2 : 4 + fsize (members ps) + 2 ^ a <= 2 ^ (a + (5 + flen fs + 3))) by lia. split; [exact K2|]. pose proof (pow_one a Ha).
    apply small_complete; [rewrite wsize_obj; lia|]. eapply env_small_up; [|exact G']. lia.
  - intros W env ty fs ps W' env' _ IH HA HO HB a Ha G. cbn [no_amf3 doc_ok layout0] in *. destruct HO as [HL HO]. apply is_bytes_cons in HB. apply is_bytes_app in HB. destruct HB as [_ HB].
    assert (FG : Forall field_good fs) by (eapply fields_good; [exact HA|exact HO|exact HB]). pose proof (len_nonneg ty) as HT.
    destruct (IH FG (a + (3 + len ty)) ltac:(lia)) as [F G'].
    { change [Some (PTyped [] []); None] with ([Some (PTyped [] [])] ++ [@None pval]). rewrite app_assoc. apply small_snoc; [|exact I]. apply small_snoc; [eapply env_small_up; [|exact G]; lia|].
      change (wsize (PTyped [] [])) with 6. pose proof (pow_up 3 (a + (3 + len ty)) ltac:(lia)). change (2 ^ 3) with 8 in *. lia. }
    rewrite len_cons, !len_app, len_utf8. fold (flen fs). change (len [0; 0; 9]) with 3. pose proof (len_nonneg (concat (map (fun p => wire_utf8 (fst p) ++ layout0 (snd p)) fs))) as HN. fold (flen fs) in HN.
    pose proof (fsize_members ps). rewrite wsize_typed. pose proof (around a (3 + len ty) 3 (fsize ps) (flen fs) (6 + len ty) Ha ltac:(lia) ltac:(lia) HN ltac:(lia) F) as K. replace (a + (1 + (2 + len ty + (flen fs + 3)))) with (a + (3 + len ty + flen fs + 3)) by lia.
    split; [lia|]. pose proof (pow_one a Ha). apply small_complete; [rewrite wsize_obj; lia|]. eapply env_small_up; [|exact G']. lia.
  - intros W env l c ps W' env' _ IH HA HO HB a Ha G. cbn [no_amf3 doc_ok layout0] in *. destruct HO as [HL HO]. apply is_bytes_cons in HB. apply is_bytes_app in HB. destruct HB as [_ HB].
    apply all_of_map in HA. apply all_of_map in HO. destruct (IH) with (a := a + 5) as [F G']; [|lia| |].
    + rewrite Forall_forall in *. intros t Ht. split; [exact (HA _ Ht)|]. split; [exact (HO _ Ht)|]. exact (bytes_prefix layout0 l t HB Ht).
    + apply small_snoc; [eapply env_small_up; [|exact G]; lia|]. change (wsize (PArr [])) with 5. pose proof (pow_up 5 (a + 5) ltac:(lia)). change (2 ^ 5) with 32 in *. lia.
    + rewrite len_cons, !len_app, len_be32. fold (elen l). pose proof (len_nonneg (concat (map layout0 l))) as HN. fold (elen l) in HN. rewrite wsize_arr.
      pose proof (around a 5 0 (asize ps) (elen l) 5 Ha ltac:(lia) ltac:(lia) HN ltac:(lia) F) as K. replace (a + (1 + (4 + elen l))) with (a + (5 + elen l + 0)) by lia. split; [exact K|]. eapply env_small_up; [|exact G']. lia.
  - intros W env _ a Ha G. unfold flen. cbn [map concat fsize]. change (len (@nil Z)) with 0. rewrite Z.add_0_r. split; [lia|exact G].
  - intros W env k t p W1 env1 fs ps W2 env2 _ IH1 _ IH2 HF a Ha G. inversion HF as [|? ? (A & (K & O) & B) HF']; subst. cbn [fst snd] in *. apply is_bytes_app in B. destruct B as [B1 B2]. pose proof (len_nonneg k) as Hk.
    destruct (IH1 A O B2 (a + (2 + len k)) ltac:(lia) (env_small_up a (a + (2 + len k)) env ltac:(lia) G)) as [H1 G1]. pose proof (len_nonneg (layout0 t)) as Ht. destruct (IH2 HF' (a + (2 + len k) + len (layout0 t)) ltac:(lia) G1) as [H2 G2].
    unfold flen. cbn [map concat fst snd fsize]. rewrite !len_app, len_utf8. fold (flen fs). replace (a + (2 + len k + len (layout0 t) + flen fs)) with (a + (2 + len k) + len (layout0 t) + flen fs) by lia. split; [|exact G2].
    pose proof (pow_grow a (2 + len k) Ha ltac:(lia)). lia.
  - intros W env _ a Ha G. unfold elen. cbn [map concat asize]. change (len (@nil Z)) with 0. rewrite Z.add_0_r. split; [lia|exact G].
  - intros W env t c1 p W1 env1 l c2 ps W2 env2 _ IH1 _ IH2 _ HF a Ha G. inversion HF as [|? ? (A & O & B) HF']; subst.
    destruct (IH1 A O B a Ha G) as [H1 G1]. pose proof (len_nonneg (layout0 t)) as Ht. destruct (IH2 HF' (a + len (layout0 t)) ltac:(lia) G1) as [H2 G2].
    unfold elen. cbn [map concat asize]. rewrite len_app. fold (elen l). rewrite Z.add_assoc. split; [lia|exact G2].
Qed.
