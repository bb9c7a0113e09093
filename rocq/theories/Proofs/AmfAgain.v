(** Proofs about encoding again what AMF0 Decode returned. *)
From Coq Require Import Permutation.
From Verif Require Import Base.Go Base.GoFacts Model.AmfTypes Spec.Amf Spec.AmfDoc Spec.Amf3Doc Spec.Amf3Ref Spec.AmfAll Spec.AmfVal Spec.AmfAgain
  Proofs.AmfFacts Proofs.Amf0Doc Proofs.AmfHeap Proofs.AmfVal.
Local Ltac Zify.zify_post_hook ::= Z.div_mod_to_equations.

Definition good_fields (fs : list (bytes * pval)) : Prop :=
  NoDup (map fst fs) /\ Forall (fun f => (is_bytes (fst f) /\ 0 < len (fst f) <= 65535) /\ ok0 (go_value (snd f))) fs.
Lemma ok_arr l : ok0 (go_value (PArr l)) <-> len l < 4294967296 /\ Forall (fun p => ok0 (go_value p)) l.
Proof.
  cbn [go_value ok0]. rewrite all_of_map. unfold len. rewrite map_length, Forall_map. reflexivity.
Qed.
Lemma ok_obj fs : ok0 (go_value (PObj fs)) <-> good_fields fs.
Proof.
  cbn [go_value ok0]. unfold good_fields. rewrite all_of_map, Forall_map, map_map. reflexivity.
Qed.
Lemma ok_typed ty fs : ok0 (go_value (PTyped ty fs)) <-> is_bytes ty /\ len ty <= 65535 /\ good_fields fs.
Proof.
  cbn [go_value ok0]. unfold good_fields. rewrite all_of_map, Forall_map, map_map. reflexivity.
Qed.

Lemma go_img p : ok0 (go_value p) -> img0 (go_value p) = p.
Proof.
  induction p as [p IH] using (well_founded_induction (Wf_nat.well_founded_ltof _ psize)). unfold Wf_nat.ltof in IH.
  assert (FS : forall fs, (forall f, In f fs -> psize (snd f) < psize p)%nat -> good_fields fs -> map (fun f => (fst f, img0 (snd f))) (map (fun f => (fst f, go_value (snd f))) fs) = fs).
  { intros fs Hs [_ G]. rewrite map_map. rewrite <- (map_id fs) at 2. apply map_ext_in. intros [k q] Hq. cbn [fst snd]. rewrite Forall_forall in G. f_equal. apply IH; [exact (Hs _ Hq)|apply (G _ Hq)]. }
  destruct p as [ | | | | | | |l| |fs|ty fs]; intros H; try reflexivity; try exact (False_ind _ H).
  - apply ok_arr in H. destruct H as [_ H]. cbn [go_value img0]. rewrite map_map. f_equal. rewrite <- (map_id l) at 2. apply map_ext_in. intros q Hq. rewrite Forall_forall in H. apply IH; [|exact (H _ Hq)].
    apply psize_in in Hq. cbn [psize]. lia.
  - apply ok_obj in H. cbn [go_value img0]. f_equal. apply FS; [|exact H]. intros f Hf. apply psize_in_f in Hf. cbn [psize]. lia.
  - apply ok_typed in H. destruct H as (_ & _ & H). cbn [go_value img0]. f_equal. apply FS; [|exact H]. intros f Hf. apply psize_in_f in Hf. cbn [psize]. lia.
Qed.

Lemma Forall2_same {A B C} (P : A -> B -> Prop) (Q : A -> C -> Prop) l m n : Forall2 P l m -> Forall2 Q l n -> Forall2 (fun b c => exists a, P a b /\ Q a c) m n.
Proof.
  intros H. revert n. induction H as [|a b l m H F IH]; intros n G; inversion G; subst; constructor; [exists a; split; assumption|apply IH; assumption].
Qed.
Lemma Forall2_len {A B} (P : A -> B -> Prop) l m : Forall2 P l m -> length l = length m.
Proof. induction 1; cbn [length]; congruence. Qed.

(** The same value in another order of its maps. *)
Lemma other_order h p : ok0 (go_value p) -> forall v q, unfolds h v p -> unfolds h v q -> ok0 (go_value q).
Proof.
  induction p as [p IH] using (well_founded_induction (Wf_nat.well_founded_ltof _ psize)). unfold Wf_nat.ltof in IH. intros Hok v q Hp Hq.
  assert (FS : forall m fs fs' gs gs', (forall f, In f fs' -> psize (snd f) < psize p)%nat -> good_fields fs' ->
    Forall2 (fun a b => fst a = fst b /\ unfolds h (snd a) (snd b)) m fs -> Permutation fs fs' ->
    Forall2 (fun a b => fst a = fst b /\ unfolds h (snd a) (snd b)) m gs -> Permutation gs gs' -> good_fields gs').
  { intros m fs fs' gs gs' Hs [HN HF] F1 P1 F2 P2.
    assert (N1 : NoDup (map fst fs)) by (eapply Permutation_NoDup; [apply Permutation_map, Permutation_sym, P1|exact HN]).
    assert (G1 : Forall (fun f : bytes * pval => (psize (snd f) < psize p)%nat /\ (is_bytes (fst f) /\ 0 < len (fst f) <= 65535) /\ ok0 (go_value (snd f))) fs).
    { rewrite Forall_forall in *. intros f Hf. apply (Permutation_in _ P1) in Hf. split; [exact (Hs _ Hf)|exact (HF _ Hf)]. }
    pose proof (Forall2_same _ _ _ _ _ F1 F2) as F. clear F1 F2 P1 Hs HN HF.
    assert (G2 : good_fields gs).
    { split.
      - assert (E : map fst gs = map fst fs) by (clear - F; induction F as [|b c fs gs (a & (E1 & _) & (E2 & _)) F IHF]; cbn [map]; congruence). rewrite E. exact N1.
      - clear N1 P2. induction F as [|b c fs gs (a & (E1 & U1) & (E2 & U2)) F IHF]; constructor.
        + inversion G1 as [|? ? (Hs & Hk & Ho) G1']; subst. rewrite <- E2, E1. split; [exact Hk|]. exact (IH _ Hs Ho _ _ U1 U2).
        + apply IHF. inversion G1; assumption. }
    destruct G2 as [N2 G2]. split; [eapply Permutation_NoDup; [apply Permutation_map, P2|exact N2]|]. rewrite Forall_forall in *. intros f Hf. apply G2. apply (Permutation_in _ (Permutation_sym P2) Hf). }
  destruct Hp as [ | | | | | | |l ps HF|l ps loc m fs fs' HA Hn HF HP|l ps HF|loc m fs fs' Hn HF HP|ty loc m fs fs' Hn HF HP|ty]; try exact (False_ind _ Hok); try (inversion Hq; subst; exact Hok).
  - apply ok_arr in Hok. destruct Hok as [HL HO]. inversion Hq as [ | | | | | | |? qs HG| | | | |]; subst. apply ok_arr. pose proof (Forall2_same _ _ _ _ _ HF HG) as F. split.
    + unfold len in *. rewrite <- (Forall2_len _ _ _ F). exact HL.
    + assert (Hs : forall x, In x ps -> (psize x < psize (PArr ps))%nat) by (intros x Hx; apply psize_in in Hx; cbn [psize]; lia).
      revert IH Hs. generalize (psize (PArr ps)) as N. clear - F HO. intros N IH Hs. induction F as [|b c ps qs (a & U1 & U2) F IHF]; constructor.
      * apply (IH b) with (v := a); [apply Hs; left; reflexivity|inversion HO; assumption|exact U1|exact U2].
      * apply IHF; [inversion HO; assumption|]. intros x Hx. apply Hs. right. exact Hx.
  - apply ok_obj in Hok. inversion Hq as [ | | | | | | | | | |? m2 gs gs' Hn2 HG HP2| |]; subst. rewrite Hn in Hn2. injection Hn2 as <-. apply ok_obj. refine (FS m fs fs' gs gs' _ Hok HF HP HG HP2).
    intros f Hf. apply psize_in_f in Hf. cbn [psize]. lia.
  - apply ok_typed in Hok. destruct Hok as (H1 & H2 & Hok). inversion Hq as [ | | | | | | | | | | |? ? m2 gs gs' Hn2 HG HP2|]; subst. rewrite Hn in Hn2. injection Hn2 as <-. apply ok_typed. split; [exact H1|]. split; [exact H2|].
    refine (FS m fs fs' gs gs' _ Hok HF HP HG HP2). intros f Hf. apply psize_in_f in Hf. cbn [psize]. lia.
Qed.

(** The members of an object. *)
Lemma put_fields k p fs : (is_bytes k /\ 0 < len k <= 65535) /\ ok0 (go_value p) -> good_fields fs -> good_fields (put k p fs).
Proof.
  intros Hk [HN HF]. 
  revert HN HF. unfold good_fields.  induction fs as [|[k' v'] fs IH]; cbn [put map fst]; intros HN HF.
  - split; [constructor; [intros []|constructor]|constructor; [exact Hk|constructor]].
  - inversion HN as [|? ? N1 N2]; subst. inversion HF as [|? ? F1 F2]; subst. destruct (bytes_eqb k k') eqn:E; cbn [map fst].
    + split; [constructor; assumption|]. constructor; [|exact F2]. cbn [fst snd] in *. split; [apply F1|apply Hk].
    + destruct (IH N2 F2) as [A B]. split; [|constructor; assumption]. constructor; [|exact A]. intros H.
      assert (K : forall x fs, In x (map fst (put k p fs)) -> x = k \/ In x (map fst fs)).
      { clear. induction fs as [|[k' v'] fs IH]; cbn [put map fst In]; [intros [<-|[]]; left; reflexivity|]. destruct (bytes_eqb k k') eqn:E; cbn [map fst In]; [intros H; right; exact H|].
        intros [<-|H]; [right; left; reflexivity|]. destruct (IH H) as [->|H1]; [left; reflexivity|right; right; exact H1]. }
      destruct (K _ _ H) as [->|H']; [|exact (N1 H')]. assert (bytes_eqb k k = true) by (apply bytes_eqb_eq; reflexivity). congruence.
Qed.
Lemma members_good ps : Forall (fun f => (is_bytes (fst f) /\ 0 < len (fst f) <= 65535) /\ ok0 (go_value (snd f))) ps -> good_fields (members ps).
Proof.
  intros H. unfold members. assert (G : good_fields []) by (split; constructor). revert G. generalize (@nil (bytes * pval)) as acc. induction H as [|[k p] ps H F IH]; intros acc G; cbn [fold_left]; [exact G|].
  apply IH. apply put_fields; [exact H|exact G].
Qed.

(** Every document without AMF3 values is read as a value that can be encoded. *)
Definition env_ok (env : list (option pval)) : Prop := Forall (fun o => match o with Some p => ok0 (go_value p) | None => True end) env.
Lemma complete_ok i p env : ok0 (go_value p) -> env_ok env -> env_ok (complete i p env).
Proof.
  intros H G. unfold env_ok, complete in *. apply Forall_app. split.
  - rewrite <- (firstn_skipn i env) in G. apply Forall_app in G. apply G.
  - constructor; [exact H|]. rewrite <- (firstn_skipn (S i) env) in G. apply Forall_app in G. apply G.
Qed.
Lemma bytes_prefix {A} (f : A -> bytes) l x : is_bytes (concat (map f l)) -> In x l -> is_bytes (f x).
Proof. intros H Hx. unfold is_bytes in *. rewrite Forall_forall in *. intros b Hb. apply H. apply in_concat. exists (f x). split; [apply in_map, Hx|exact Hb]. Qed.
Lemma is_bytes_cons b l : is_bytes (b :: l) -> is_bytes l.
Proof. intros H. inversion H. assumption. Qed.

Definition P_doc (W : world) env t (c : nat) p (W' : world) env' : Prop := no_amf3 t -> doc_ok true t -> is_bytes (layout0 t) -> env_ok env -> ok0 (go_value p) /\ env_ok env'.
Definition field_good (f : bytes * doc0) : Prop := no_amf3 (snd f) /\ (0 < len (fst f) <= 65535 /\ doc_ok true (snd f)) /\ is_bytes (wire_utf8 (fst f) ++ layout0 (snd f)).
Definition P_fields (W : world) env (fs : list (bytes * doc0)) ps (W' : world) env' : Prop := Forall field_good fs -> env_ok env ->
  Forall (fun f => (is_bytes (fst f) /\ 0 < len (fst f) <= 65535) /\ ok0 (go_value (snd f))) ps /\ env_ok env'.
Definition P_elems (W : world) env (l : list doc0) (c : nat) ps (W' : world) env' : Prop := Forall (fun t => no_amf3 t /\ doc_ok true t /\ is_bytes (layout0 t)) l -> env_ok env ->
  length ps = length l /\ Forall (fun p => ok0 (go_value p)) ps /\ env_ok env'.
Lemma fields_good fs tail : all_of (map (fun p : bytes * doc0 => no_amf3 (snd p)) fs) -> all_of (map (fun p : bytes * doc0 => 0 < len (fst p) <= 65535 /\ doc_ok true (snd p)) fs) ->
  is_bytes (concat (map (fun p => wire_utf8 (fst p) ++ layout0 (snd p)) fs) ++ tail) -> Forall field_good fs.
Proof.
  intros H1 H2 H3. apply all_of_map in H1. apply all_of_map in H2. apply is_bytes_app in H3. destruct H3 as [H3 _]. rewrite Forall_forall in *. intros f Hf. split; [exact (H1 _ Hf)|]. split; [exact (H2 _ Hf)|].
  exact (bytes_prefix (fun p => wire_utf8 (fst p) ++ layout0 (snd p)) fs f H3 Hf).
Qed.
Lemma env_snoc env o : env_ok env -> match o with Some p => ok0 (go_value p) | None => True end -> env_ok (env ++ [o]).
Proof. intros H G. apply Forall_app. split; [exact H|]. constructor; [exact G|constructor]. Qed.
Lemma simple_good t : simple t -> doc_ok true t -> is_bytes (layout0 t) -> ok0 (go_value (read0 t)).
Proof.
  destruct t; cbn [simple]; intros HS; try exact (False_ind _ HS); cbn [doc_ok layout0 read0 meaning0 go_value ok0]; intros H B; try exact I; try lia.
  - split; [|lia]. apply is_bytes_cons in B. apply is_bytes_app in B. apply B.
  - split; [|lia]. apply is_bytes_cons in B. apply is_bytes_app in B. apply B.
  - split; [|lia]. apply is_bytes_cons in B. apply is_bytes_app in B. apply B.
Qed.
Lemma reads_good : (forall W env t c p W' env', reads W env t c p W' env' -> P_doc W env t c p W' env') /\
  (forall W env fs ps W' env', fields_read W env fs ps W' env' -> P_fields W env fs ps W' env') /\
  (forall W env l c ps W' env', elems_read W env l c ps W' env' -> P_elems W env l c ps W' env').
Proof.
  apply reads_mutind; unfold P_doc, P_fields, P_elems.
  - intros W env t HS _ H B G. split; [apply simple_good; assumption|exact G].
  - intros W env i p HN _ _ _ G. split; [|exact G]. apply nth_error_In in HN. unfold env_ok in G. rewrite Forall_forall in G. exact (G _ HN).
  - intros W env s c p W' _ HF. destruct HF.
  - intros W env fs ps W' env' p _ IH -> HA HO HB G. cbn [no_amf3 doc_ok layout0] in *. destruct IH as [F G']; [eapply fields_good; [exact HA|exact HO|apply is_bytes_cons in HB; exact HB]|apply env_snoc; [exact G|exact I]|].
    assert (K : ok0 (go_value (PObj (members ps)))) by (apply ok_obj, members_good, F). split; [exact K|apply complete_ok; assumption].
  - intros W env n fs ps W' env' p _ IH -> HA HO HB G. cbn [no_amf3 doc_ok layout0] in *. destruct HO as [_ HO]. apply is_bytes_cons in HB. apply is_bytes_app in HB. destruct HB as [_ HB].
    destruct IH as [F G']; [eapply fields_good; [exact HA|exact HO|exact HB]|apply env_snoc; [exact G|exact I]|].
    assert (K : ok0 (go_value (PObj (members ps)))) by (apply ok_obj, members_good, F). split; [exact K|apply complete_ok; assumption].
  - intros W env ty fs ps W' env' _ IH HA HO HB G. cbn [no_amf3 doc_ok layout0] in *. destruct HO as [HL HO]. apply is_bytes_cons in HB. apply is_bytes_app in HB. destruct HB as [HT HB]. apply is_bytes_app in HT. destruct HT as [_ HT].
    destruct IH as [F G']; [eapply fields_good; [exact HA|exact HO|exact HB]| |].
    { change [Some (PTyped [] []); None] with ([Some (PTyped [] [])] ++ [@None pval]). rewrite app_assoc. apply env_snoc; [apply env_snoc; [exact G|]|exact I]. apply ok_typed. split; [constructor|]. split; [vm_compute; congruence|]. split; constructor. }
    pose proof (members_good ps F) as K. split; [apply ok_typed; split; [exact HT|]; split; [exact HL|exact K]|]. apply complete_ok; [apply ok_obj, K|exact G'].
  - intros W env l c ps W' env' _ IH HA HO HB G. cbn [no_amf3 doc_ok layout0] in *. destruct HO as [HL HO]. apply is_bytes_cons in HB. apply is_bytes_app in HB. destruct HB as [_ HB].
    apply all_of_map in HA. apply all_of_map in HO. destruct IH as (L & F & G').
    + rewrite Forall_forall in *. intros t Ht. split; [exact (HA _ Ht)|]. split; [exact (HO _ Ht)|]. exact (bytes_prefix layout0 l t HB Ht).
    + apply env_snoc; [exact G|]. apply ok_arr. split; [vm_compute; reflexivity|constructor].
    + split; [|exact G']. apply ok_arr. split; [unfold len in *; rewrite L; lia|exact F].
  - intros W env _ G. split; [constructor|exact G].
  - intros W env k t p W1 env1 fs ps W2 env2 _ IH1 _ IH2 HF G. inversion HF as [|? ? (A & (K & O) & B) HF']; subst. cbn [fst snd] in *. apply is_bytes_app in B. destruct B as [B1 B2].
    destruct (IH1 A O B2 G) as [H1 G1]. destruct (IH2 HF' G1) as [H2 G2]. split; [|exact G2]. constructor; [|exact H2]. cbn [fst snd]. unfold wire_utf8 in B1. apply is_bytes_app in B1. split; [split; [apply B1|exact K]|exact H1].
  - intros W env _ G. split; [reflexivity|]. split; [constructor|exact G].
  - intros W env t c1 p W1 env1 l c2 ps W2 env2 _ IH1 _ IH2 _ HF G. inversion HF as [|? ? (A & O & B) HF']; subst.
    destruct (IH1 A O B G) as [H1 G1]. destruct (IH2 HF' G1) as (L & H2 & G2). split; [cbn [length]; congruence|]. split; [constructor; assumption|exact G2].
Qed.
(** No AMF3 value takes anything from the end of the input or changes the AMF3 tables. *)
Lemma chain_none {A} (f : A -> world -> nat -> world -> Prop) l W : Forall (fun x => f x W 0%nat W) l -> chain (map f l) W 0 W.
Proof. induction 1 as [|x l H F IH]; cbn [map chain]; [split; reflexivity|]. exists 0%nat, W, 0%nat. split; [exact H|]. split; [exact IH|]. split; [reflexivity|left; reflexivity]. Qed.
Lemma embedded_none t W : no_amf3 t -> embedded t W 0 W.
Proof.
  assert (FS : forall fs : list (bytes * doc0), Forall (fun p => no_amf3 (snd p) -> embedded (snd p) W 0 W) fs -> all_of (map (fun p => no_amf3 (snd p)) fs) -> 0%nat = 0%nat /\ chain (map (fun p => embedded (snd p)) fs) W 0 W).
  { intros fs IH H. split; [reflexivity|]. apply all_of_map in H. apply chain_none. rewrite Forall_forall in *. intros x Hx. apply (IH x Hx), H, Hx. }
  induction t as [b|b|s|fs IH| | |i|s|n fs IH|l IH|b z|s| |s|ty fs IH] using doc0_ind'; cbn [no_amf3 embedded]; intros H; try (split; reflexivity); try exact (False_ind _ H); try (apply FS; assumption).
  apply all_of_map in H. apply chain_none. rewrite Forall_forall in *. intros x Hx. apply (IH x Hx), H, Hx.
Qed.
