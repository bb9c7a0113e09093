(** Proofs about encoding again what AMF3 Decode returned. *)
From Coq Require Import Permutation.
From Verif Require Import Base.Go Base.GoFacts Model.AmfTypes Spec.Amf Spec.AmfDoc Spec.Amf3Doc Spec.Amf3Ref Spec.AmfRaw3 Spec.Amf3Again
  Proofs.AmfFacts Proofs.Amf3Doc Proofs.Amf3Ref Proofs.AmfHeap.
Import ListNotations.
Local Open Scope Z_scope.
Local Ltac Zify.zify_post_hook ::= Z.div_mod_to_equations.

Lemma is_bytes_tail b l : is_bytes (b :: l) -> byte b /\ is_bytes l.
Proof. intros H. inversion H. split; assumption. Qed.
Definition name_ok (s : bytes) : Prop := is_bytes s /\ len s < 268435456.
(** What AMF3 Decode returns. *)
Fixpoint fine (p : pval) : Prop :=
  match p with
  | PNum bits => 0 <= bits < 18446744073709551616
  | PStr s | PBytes s => name_ok s
  | PU32 n => 0 <= n < 536870912
  | PObj fs => len fs < 33554432 /\ NoDup (map fst fs) /\ all_of (map (fun f => name_ok (fst f) /\ fine (snd f)) fs)
  | PArr _ | PTyped _ _ => False
  | _ => True
  end.
Definition fine_fields (fs : list (bytes * pval)) : Prop :=
  len fs < 33554432 /\ NoDup (map fst fs) /\ Forall (fun f => name_ok (fst f) /\ fine (snd f)) fs.
Lemma fine_obj fs : fine (PObj fs) <-> fine_fields fs.
Proof. cbn [fine]. unfold fine_fields. rewrite all_of_map. reflexivity. Qed.
Lemma existsb_false {A} (f : A -> bool) l : existsb f l = false -> Forall (fun x => f x = false) l.
Proof. induction l as [|x l IH]; cbn [existsb]; intros H; [constructor|]. apply orb_false_iff in H. constructor; [apply H|apply IH, H]. Qed.

Lemma fine_ok p : fine p -> has_array p = false -> times_fit p -> ok3 (same_go p) /\ img3 (same_go p) = comes_as p.
Proof.
  induction p as [p IH] using (well_founded_induction (Wf_nat.well_founded_ltof _ psize)). unfold Wf_nat.ltof in IH.
  destruct p as [ | | | |n|sec|s|l|l fs|fs|ty fs]; intros F A T; try (exact (False_ind _ F)); try discriminate; cbn [same_go ok3 img3 comes_as fine times_fit] in *; try (split; [first [exact I|exact F|exact T|lia]|reflexivity]).
  - split; [lia|]. change (2 ^ 29 - 1) with 536870911. cbn [negb andb]. replace (0 <=? n) with true by (symmetry; lia). cbn [andb]. destruct (n =? 536870911) eqn:E; [replace (n <? 536870911) with false by (symmetry; lia)|replace (n <? 536870911) with true by (symmetry; lia)]; reflexivity.
  - apply fine_obj in F. destruct F as (L & N & F). cbn [has_array] in A. apply existsb_false in A. apply all_of_map in T.
    assert (G : forall f, In f fs -> name_ok (fst f) /\ ok3 (same_go (snd f)) /\ img3 (same_go (snd f)) = comes_as (snd f)).
    { intros f Hf. rewrite Forall_forall in *. destruct (F f Hf) as [F1 F2]. split; [exact F1|]. apply IH; [apply psize_in_f in Hf; cbn [psize]; lia|exact F2|exact (A f Hf)|exact (T f Hf)]. }
    split.
    + split; [unfold len in *; rewrite map_length; exact L|]. rewrite map_map. cbn [fst]. split; [exact N|]. rewrite map_map. cbn [fst snd]. apply all_of_map. rewrite Forall_forall. intros f Hf. destruct (G f Hf) as (G1 & G2 & _). split; assumption.
    + f_equal. rewrite map_map. cbn [fst snd]. apply map_ext_in. intros f Hf. f_equal. apply (G f Hf).
Qed.
Lemma fine_go p : fine p -> go_value (same_go p).
Proof.
  induction p as [p IH] using (well_founded_induction (Wf_nat.well_founded_ltof _ psize)). unfold Wf_nat.ltof in IH.
  destruct p as [ | | | |n|sec|s|l|l fs|fs|ty fs]; intros F; try (exact (False_ind _ F)); cbn [same_go go_value]; try exact I; [cbn [fine] in F; lia|].
  apply fine_obj in F. destruct F as (L & N & F). rewrite map_map. cbn [fst]. split; [exact N|]. rewrite map_map. cbn [snd]. apply all_of_map. rewrite Forall_forall in *. intros f Hf. apply IH; [apply psize_in_f in Hf; cbn [psize]; lia|apply (F f Hf)].
Qed.
Lemma name_short s : name_ok s -> short (len s) = true.
Proof. intros [_ H]. unfold short. change (2 ^ 31) with 2147483648. change (2 ^ 28) with 268435456. unfold len in *. lia. Qed.
Lemma fine_supported p : fine p -> supported3 (same_go p) = negb (has_array p).
Proof.
  induction p as [p IH] using (well_founded_induction (Wf_nat.well_founded_ltof _ psize)). unfold Wf_nat.ltof in IH.
  destruct p as [ | | | |n|sec|s|l|l fs|fs|ty fs]; intros F; try (exact (False_ind _ F)); cbn [same_go supported3 has_array]; try reflexivity; try (apply name_short, F).
  apply fine_obj in F. destruct F as (L & N & F).
  assert (E : len (map (fun f : bytes * pval => (fst f, same_go (snd f))) fs) mod 2 ^ 28 <? 2 ^ 25 = true).
  { change (2 ^ 28) with 268435456. change (2 ^ 25) with 33554432. unfold len in *. rewrite map_length. lia. }
  rewrite E. cbn [andb]. assert (G : forall f, In f fs -> short (len (fst f)) = true /\ supported3 (same_go (snd f)) = negb (has_array (snd f))).
  { intros f Hf. rewrite Forall_forall in F. destruct (F f Hf) as [F1 F2]. split; [apply name_short, F1|]. apply IH; [apply psize_in_f in Hf; cbn [psize]; lia|exact F2]. }
  clear - G. induction fs as [|f fs IH]; [reflexivity|]. cbn [map forallb existsb fst snd]. destruct (G f (or_introl eq_refl)) as [-> ->]. rewrite IH by (intros g Hg; apply G; right; exact Hg). cbn [andb]. rewrite negb_orb. reflexivity.
Qed.
Lemma comes_same p : no_largest p -> comes_as p = p.
Proof.
  induction p as [p IH] using (well_founded_induction (Wf_nat.well_founded_ltof _ psize)). unfold Wf_nat.ltof in IH.
  assert (FS : forall fs : list (bytes * pval), (forall f, In f fs -> psize (snd f) < psize p)%nat -> all_of (map (fun f => no_largest (snd f)) fs) -> map (fun f => (fst f, comes_as (snd f))) fs = fs).
  { intros fs Hs H. apply all_of_map in H. rewrite <- (map_id fs) at 2. apply map_ext_in. intros [k q] Hq. cbn [fst snd]. rewrite Forall_forall in H. f_equal. apply IH; [exact (Hs _ Hq)|exact (H _ Hq)]. }
  destruct p as [ | | | |n|sec|s|l|l fs|fs|ty fs]; intros H; try reflexivity; cbn [no_largest comes_as] in *.
  - apply Z.eqb_neq in H. rewrite H. reflexivity.
  - f_equal. apply all_of_map in H. rewrite <- (map_id l) at 2. apply map_ext_in. intros q Hq. rewrite Forall_forall in H. apply IH; [|exact (H _ Hq)]. apply psize_in in Hq. cbn [psize]. lia.
  - f_equal. apply FS; [|exact H]. intros f Hf. apply psize_in_f in Hf. cbn [psize]. lia.
  - f_equal. apply FS; [|exact H]. intros f Hf. apply psize_in_f in Hf. cbn [psize]. lia.
Qed.

Lemma Forall2_both {A B C} (P : A -> B -> Prop) (Q : A -> C -> Prop) l m n : Forall2 P l m -> Forall2 Q l n -> Forall2 (fun b c => exists a, P a b /\ Q a c) m n.
Proof.
  intros H. revert n. induction H as [|a b l m H F IH]; intros n G; inversion G; subst; constructor; [exists a; split; assumption|apply IH; assumption].
Qed.
(** The same value in another order of its maps. *)
Lemma fine_order h p : fine p -> forall v q, unfolds h v p -> unfolds h v q -> fine q.
Proof.
  induction p as [p IH] using (well_founded_induction (Wf_nat.well_founded_ltof _ psize)). unfold Wf_nat.ltof in IH. intros Hok v q Hp Hq.
  destruct Hp as [ | | | | | | |l ps HF|l ps loc m fs fs' HA Hn HF HP|l ps HF|loc m fs fs' Hn HF HP|ty loc m fs fs' Hn HF HP|ty]; try exact (False_ind _ Hok); try (inversion Hq; subst; exact Hok).
  apply fine_obj in Hok. inversion Hq as [ | | | | | | | | | |? m2 gs gs' Hn2 HG HP2| |]; subst. rewrite Hn in Hn2. injection Hn2 as <-. apply fine_obj. destruct Hok as (HL & HN & HO).
  assert (N1 : NoDup (map fst fs)) by (eapply Permutation_NoDup; [apply Permutation_map, Permutation_sym, HP|exact HN]).
  assert (G1 : Forall (fun f : bytes * pval => (psize (snd f) < psize (PObj fs'))%nat /\ name_ok (fst f) /\ fine (snd f)) fs).
  { rewrite Forall_forall in *. intros f Hf. apply (Permutation_in _ HP) in Hf. split; [apply psize_in_f in Hf; cbn [psize]; lia|exact (HO _ Hf)]. }
  assert (L1 : len fs < 33554432) by (unfold len in *; rewrite (Permutation_length HP); exact HL).
  pose proof (Forall2_both _ _ _ _ _ HF HG) as F. clear HF HG HP HO HL HN Hq Hn.
  assert (G2 : fine_fields gs).
  { split; [unfold len in *; replace (length gs) with (length fs) by (clear - F; induction F; cbn [length]; congruence); exact L1|]. split.
    - assert (E : map fst gs = map fst fs) by (clear - F; induction F as [|b c fs gs (a & (E1 & _) & (E2 & _)) F IHF]; cbn [map]; congruence). rewrite E. exact N1.
    - clear N1 L1 HP2. revert IH G1. generalize (psize (PObj fs')) as N. intros N IH G1. induction F as [|b c fs gs (a & (E1 & U1) & (E2 & U2)) F IHF]; constructor.
      + inversion G1 as [|? ? (Hs & Hk & Ho) G1']; subst. rewrite <- E2, E1. split; [exact Hk|]. exact (IH _ Hs Ho _ _ U1 U2).
      + apply IHF. inversion G1; assumption. }
  destruct G2 as (L2 & N2 & G2). split; [unfold len in *; rewrite <- (Permutation_length HP2); exact L2|]. split; [eapply Permutation_NoDup; [apply Permutation_map, HP2|exact N2]|].
  rewrite Forall_forall in *. intros f Hf. apply G2. apply (Permutation_in _ (Permutation_sym HP2) Hf).
Qed.

(** The members of an object. *)
Lemma put_fine k p fs : name_ok k -> fine p -> NoDup (map fst fs) -> Forall (fun f => name_ok (fst f) /\ fine (snd f)) fs ->
  NoDup (map fst (put k p fs)) /\ Forall (fun f => name_ok (fst f) /\ fine (snd f)) (put k p fs) /\ (length (put k p fs) <= S (length fs))%nat.
Proof.
  intros Hk Hp. induction fs as [|[k' v'] fs IH]; cbn [put map fst]; intros HN HF.
  - split; [constructor; [intros []|constructor]|]. split; [constructor; [split; assumption|constructor]|cbn [length]; lia].
  - inversion HN as [|? ? N1 N2]; subst. inversion HF as [|? ? F1 F2]; subst. destruct (bytes_eqb k k') eqn:E; cbn [map fst].
    + split; [constructor; assumption|]. split; [|cbn [length]; lia]. constructor; [|exact F2]. cbn [fst snd] in *. split; [apply F1|exact Hp].
    + destruct (IH N2 F2) as (A & B & C). split; [|split; [constructor; assumption|cbn [length]; lia]]. constructor; [|exact A]. intros H.
      assert (K : forall x fs, In x (map fst (put k p fs)) -> x = k \/ In x (map fst fs)).
      { clear. induction fs as [|[k' v'] fs IH]; cbn [put map fst In]; [intros [<-|[]]; left; reflexivity|]. destruct (bytes_eqb k k') eqn:E; cbn [map fst In]; [intros H; right; exact H|].
        intros [<-|H]; [right; left; reflexivity|]. destruct (IH H) as [->|H1]; [left; reflexivity|right; right; exact H1]. }
      destruct (K _ _ H) as [->|H']; [|exact (N1 H')]. assert (bytes_eqb k k = true) by (apply bytes_eqb_eq; reflexivity). congruence.
Qed.
Lemma members_fine ps : len ps < 33554432 -> Forall (fun f => name_ok (fst f) /\ fine (snd f)) ps -> fine_fields (members ps).
Proof.
  intros HL H. unfold members.
  assert (G : forall acc, NoDup (map fst acc) -> Forall (fun f => name_ok (fst f) /\ fine (snd f)) acc ->
    let r := fold_left (fun acc p => put (fst p) (snd p) acc) ps acc in NoDup (map fst r) /\ Forall (fun f => name_ok (fst f) /\ fine (snd f)) r /\ (length r <= length ps + length acc)%nat).
  { clear HL. induction H as [|[k p] ps [H1 H2] F IH]; intros acc N G; cbn [fold_left fst snd]; [split; [exact N|]; split; [exact G|cbn [length]; lia]|].
    destruct (put_fine k p acc H1 H2 N G) as (A & B & C). destruct (IH _ A B) as (D & E & L). split; [exact D|]. split; [exact E|]. cbn [length]. lia. }
  destruct (G [] ltac:(constructor) ltac:(constructor)) as (A & B & C). split; [|split; assumption]. unfold len in *. cbn [length] in C. lia.
Qed.

(** Every layout is read as such a value. *)
Definition table_ok (T : tables) : Prop := Forall name_ok (t_strings T) /\ Forall (fun c => Forall name_ok (snd c) /\ len (snd c) < 33554432) (t_classes T).
Definition world_ok (W : world) : Prop := table_ok (w_tables W) /\ Forall (fun o => match o with Some p => fine p | None => True end) (w_places W).
Lemma place_ok o W : world_ok W -> match o with Some p => fine p | None => True end -> world_ok (place o W).
Proof. intros [A B] H. split; [exact A|]. cbn [place w_places]. apply Forall_app. split; [exact B|]. constructor; [exact H|constructor]. Qed.
Lemma entered_ok s p W : world_ok W -> fine p -> world_ok (entered Library s p W).
Proof. intros H F. destruct s; [exact H|]. apply place_ok; assumption. Qed.
Lemma utf8_ok st b s st' : utf8vr st b s st' -> is_bytes b -> Forall name_ok st -> name_ok s /\ Forall name_ok st'.
Proof.
  intros H HB HS. destruct H as [st i s b _ E|st b _|st s b _ U].
  - split; [|exact HS]. apply nth_error_In in E. rewrite Forall_forall in HS. exact (HS _ E).
  - split; [|exact HS]. split; [constructor|vm_compute; reflexivity].
  - apply is_bytes_app in HB. assert (N : name_ok s) by (split; [apply HB|apply u29_range in U; lia]). split; [exact N|]. apply Forall_app. split; [exact HS|constructor; [exact N|constructor]].
Qed.
Lemma utf8s_ok st b ss st' : utf8vrs st b ss st' -> is_bytes b -> Forall name_ok st -> Forall name_ok ss /\ Forall name_ok st'.
Proof.
  induction 1 as [st|st b s st1 bs ss st2 H _ IH]; intros HB HS; [split; [constructor|exact HS]|]. apply is_bytes_app in HB. destruct HB as [B1 B2].
  destruct (utf8_ok _ _ _ _ H B1 HS) as [N S1]. destruct (IH B2 S1) as [N2 S2]. split; [constructor; assumption|exact S2].
Qed.
Lemma traits_ok T b ty props T' : traits3 true T b (ty, props) T' -> is_bytes b -> table_ok T -> Forall name_ok props /\ len props < 33554432 /\ table_ok T'.
Proof.
  intros H HB HT. inversion H as [? i ? ? _ E|? flags b0 b1 ? st1 b2 ? st2 HF U U1 U2]; subst.
  - destruct HT as [HS HC]. apply nth_error_In in E. rewrite Forall_forall in HC. pose proof (HC _ E) as [A B]. cbn [snd] in *. split; [exact A|]. split; [exact B|]. split; [exact HS|rewrite Forall_forall; exact HC].
  - apply is_bytes_app in HB. destruct HB as [_ HB]. apply is_bytes_app in HB. destruct HB as [B1 B2]. destruct HT as [HS HC].
    destruct (utf8_ok _ _ _ _ U1 B1 HS) as [_ S1]. destruct (utf8s_ok _ _ _ _ U2 B2 S1) as [N S2]. apply u29_range in U.
    assert (L : len props < 33554432) by lia. split; [exact N|]. split; [exact L|]. split; [exact S2|]. cbn [t_classes]. apply Forall_app. split; [exact HC|]. constructor; [split; assumption|constructor].
Qed.
Lemma combine_fine props vs : Forall name_ok props -> Forall fine vs -> Forall (fun f => name_ok (fst f) /\ fine (snd f)) (combine props vs).
Proof. intros H. revert vs. induction H as [|k props Hk _ IH]; intros [|v vs] F; try constructor; inversion F; subst; [split; assumption|apply IH; assumption]. Qed.
Lemma value_fine :
  (forall W b c p W', value3r Library W b c p W' -> is_bytes b -> world_ok W -> fine p /\ world_ok W') /\
  (forall W b c ps W', values3r Library W b c ps W' -> is_bytes b -> world_ok W -> Forall fine ps /\ world_ok W') /\
  (forall W b fs W', assoc3r Library W b fs W' -> is_bytes b -> world_ok W -> world_ok W').
Proof.
  apply value3r_mutind.
  - intros W _ H. split; [exact I|exact H].
  - intros W _ H. split; [exact I|exact H].
  - intros W _ H. split; [exact I|exact H].
  - intros W _ H. split; [exact I|exact H].
  - intros W n b _ U _ H. split; [exact (u29_range _ _ U)|exact H].
  - intros W bits HB _ H. split; [exact HB|exact H].
  - intros W b s st U HB [[HS HC] HP]. apply is_bytes_tail in HB. destruct (utf8_ok _ _ _ _ U (proj2 HB) HS) as [N S1]. split; [exact N|]. split; [split; [exact S1|exact HC]|exact HP].
  - intros W m b s c _ U _ HB H. apply is_bytes_tail in HB. destruct HB as [_ HB]. apply is_bytes_app in HB. assert (N : name_ok s) by (split; [apply HB|apply u29_range in U; lia]). split; [exact N|apply entered_ok; [exact H|exact N]].
  - intros W k b bits p _ _ -> _ H. split; [exact I|]. apply place_ok; [exact H|exact I].
  - intros W b bk assoc W1 bd c dense W2 p _ -> _ IH1 _ IH2 HB H. apply is_bytes_tail in HB. destruct HB as [_ HB]. apply is_bytes_app in HB. destruct HB as [_ HB]. apply is_bytes_app in HB. destruct HB as [B1 B2].
    split; [exact I|]. cbn [completed]. apply IH2; [exact B2|]. apply IH1; [exact B1|]. apply place_ok; [exact H|exact I].
  - intros W b ty props T1 bv c vs W2 p HT -> _ IH HL HB [HT0 HP]. apply is_bytes_tail in HB. destruct HB as [_ HB]. apply is_bytes_app in HB. destruct HB as [B1 B2].
    destruct (traits_ok _ _ _ _ _ HT B1 HT0) as (N & L & HT1). destruct (IH B2) as [F H2]; [apply place_ok; [split; [exact HT1|exact HP]|exact I]|].
    split; [|exact H2]. apply fine_obj, members_fine; [unfold len in *; rewrite combine_length, HL, Nat.min_id; exact L|apply combine_fine; assumption].
  - intros W b s c U _ HB H. apply is_bytes_tail in HB. destruct HB as [_ HB]. apply is_bytes_app in HB. assert (N : name_ok s) by (split; [apply HB|apply u29_range in U; lia]). split; [exact N|apply entered_ok; [exact H|exact N]].
  - intros W m i b p _ E _ _ H. split; [|exact H]. apply nth_error_In in E. destruct H as [_ HP]. rewrite Forall_forall in HP. exact (HP _ E).
  - intros W _ H. split; [constructor|exact H].
  - intros W b c1 p W1 bs c2 ps W2 _ IH1 _ IH2 _ HB H. apply is_bytes_app in HB. destruct HB as [B1 B2]. destruct (IH1 B1 H) as [F1 H1]. destruct (IH2 B2 H1) as [F2 H2]. split; [constructor; assumption|exact H2].
  - intros W b st U HB [[HS HC] HP]. destruct (utf8_ok _ _ _ _ U HB HS) as [_ S1]. split; [split; [exact S1|exact HC]|exact HP].
  - intros W bk k st bv p W1 bs fs W2 U _ _ IH1 _ IH2 HB [[HS HC] HP]. apply is_bytes_app in HB. destruct HB as [B1 HB]. apply is_bytes_app in HB. destruct HB as [B2 B3].
    destruct (utf8_ok _ _ _ _ U B1 HS) as [_ S1]. apply IH2; [exact B3|]. apply IH1; [exact B2|]. split; [split; [exact S1|exact HC]|exact HP].
Qed.
