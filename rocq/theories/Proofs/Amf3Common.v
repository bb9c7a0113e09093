(** AMF3: a layout of the common reading is one of both others (Spec/Amf3Ref.v). *)
From Verif Require Import Base.Go Base.GoFacts Base.Float64 Model.AmfTypes Spec.Amf Spec.AmfDoc Spec.Amf3Doc Spec.Amf3Ref Proofs.Amf3Doc Proofs.Amf3Ref.

Lemma below_refl W : below W W.
Proof. split; [reflexivity|]. induction (w_places W); constructor; auto. Qed.
Lemma below_tables T W A : below W A -> below (with_tables T W) (with_tables T A).
Proof. intros [_ H]. split; [reflexivity|exact H]. Qed.
Lemma below_place o o' W A : o = None \/ o = o' -> below W A -> below (place o W) (place o' A).
Proof. intros Ho [H1 H2]. split; [exact H1|]. cbn [place w_places]. apply Forall2_app; [exact H2|]. constructor; [exact Ho|constructor]. Qed.
Lemma below_nth W A i p : below W A -> nth_error (w_places W) i = Some (Some p) -> nth_error (w_places A) i = Some (Some p).
Proof.
  intros [_ H]. revert i. induction H as [|a b l l' Hab _ IH]; intros [|i] E; cbn in *; try discriminate; [|apply IH, E]. destruct Hab as [->| ->]; [discriminate|exact E].
Qed.
Lemma below_set (l a : list (option pval)) w l' o : Forall2 (fun a b => a = None \/ a = b) l a -> l = w ++ None :: l' ->
  Forall2 (fun a b => a = None \/ a = b) l (firstn (length w) a ++ o :: skipn (S (length w)) a).
Proof.
  intros H ->. revert a H. induction w as [|x w IH]; intros a H; inversion H; subst; cbn [app length firstn skipn].
  - constructor; [left; reflexivity|assumption].
  - constructor; [assumption|]. apply IH. assumption.
Qed.
Lemma below_completed r W0 p W A l : below W A -> w_places W = w_places W0 ++ None :: l -> forall n, n = length (w_places W0) -> below W (completed r n p A).
Proof. intros [H1 H2] E n ->. destruct r; cbn [completed]; [|split; assumption|split; assumption]. split; [exact H1|]. cbn [w_places]. eapply below_set; eassumption. Qed.
Lemma below_length W A : below W A -> length (w_places W) = length (w_places A).
Proof. intros [_ H]. induction H; cbn; congruence. Qed.
Lemma traits3_loose l T b c T' : traits3 false T b c T' -> traits3 l T b c T'.
Proof. intros H. inversion H; subst; [eapply tr_ref; eassumption|]. eapply tr_new; try eassumption. left. destruct H0 as [->|[X _]]; [reflexivity|discriminate]. Qed.

Definition ext_places (W W' : world) : Prop := exists l, w_places W' = w_places W ++ l.
Lemma ext_refl W : ext_places W W. Proof. exists []. symmetry. apply app_nil_r. Qed.
Lemma ext_tables T W : ext_places W (with_tables T W). Proof. exists []. symmetry. apply app_nil_r. Qed.
Lemma ext_trans W1 W2 W3 : ext_places W1 W2 -> ext_places W2 W3 -> ext_places W1 W3.
Proof. intros [l1 E1] [l2 E2]. exists (l1 ++ l2). rewrite E2, E1, app_assoc. reflexivity. Qed.
Lemma ext_place o W : ext_places W (place o W). Proof. exists [o]. reflexivity. Qed.

Theorem common_in r0 r : (forall W b c p W', value3r r0 W b c p W' -> r0 = Common -> c = 0%nat /\ ext_places W W' /\ forall A, below W A -> exists A', value3r r A b 0 p A' /\ below W' A') /\
  (forall W b c ps W', values3r r0 W b c ps W' -> r0 = Common -> c = 0%nat /\ ext_places W W' /\ forall A, below W A -> exists A', values3r r A b 0 ps A' /\ below W' A') /\
  (forall W b fs W', assoc3r r0 W b fs W' -> r0 = Common -> ext_places W W' /\ forall A, below W A -> exists A', assoc3r r A b fs A' /\ below W' A').
Proof.
  assert (EN : forall s p W A, s <> [] -> below W A -> below (entered Common s p W) (entered r s p A)).
  { intros s p W A Hs HB. destruct s; [congruence|]. destruct r; apply below_place; auto. }
  assert (MM : forall s, s <> [] -> may_miss r s 0) by (intros s Hs; destruct r; cbn; auto).
  assert (BG : forall p W A, below W A -> below (begun Common p W) (begun r p A)) by (intros p W A HB; apply below_place; auto).
  apply value3r_mutind.
  - intros W _. split; [reflexivity|]. split; [apply ext_refl|]. intros A HB. eexists. split; [constructor|exact HB].
  - intros W _. split; [reflexivity|]. split; [apply ext_refl|]. intros A HB. eexists. split; [constructor|exact HB].
  - intros W _. split; [reflexivity|]. split; [apply ext_refl|]. intros A HB. eexists. split; [constructor|exact HB].
  - intros W _. split; [reflexivity|]. split; [apply ext_refl|]. intros A HB. eexists. split; [constructor|exact HB].
  - intros W n b Hn Hb ->. split; [reflexivity|]. split; [apply ext_refl|]. intros A HB. eexists. split; [constructor; [left; destruct Hn; [assumption|discriminate]|exact Hb]|exact HB].
  - intros W bits Hb _. split; [reflexivity|]. split; [apply ext_refl|]. intros A HB. eexists. split; [constructor; exact Hb|exact HB].
  - intros W b s st Hb _. split; [reflexivity|]. split; [apply ext_tables|]. intros A HB. rewrite (proj1 HB) in *. eexists. split; [constructor; exact Hb|]. apply below_tables, HB.
  - intros W m b s c Hm Hb Hc ->. destruct Hc as [-> Hs]. split; [reflexivity|]. split; [apply ext_place|]. intros A HB. eexists. split; [apply vr3_xml; [exact Hm|exact Hb|apply MM, Hs]|]. apply EN; assumption.
  - intros W k b bits p Hb Hbits -> ->. split; [reflexivity|]. split; [apply ext_place|]. intros A HB. eexists. split; [eapply vr3_date; [exact Hb|exact Hbits|reflexivity]|]. apply below_place; auto.
  - intros W b bk assoc W1 bd c dense W2 p Hb -> HA IHA HV IHV L. destruct (IHA L) as (X1 & IHA'). destruct (IHV L) as (-> & X2 & IHV'). subst r0. split; [reflexivity|]. cbn [completed].
    destruct (ext_trans _ _ _ X1 X2) as [l El]. split; [exists ([None] ++ l); rewrite El; cbn [begun place w_places]; symmetry; apply app_assoc|].
    intros A HB. destruct (IHA' (begun r (PEcma [] []) A) (BG _ _ _ HB)) as (A1 & H1 & B1). destruct (IHV' A1 B1) as (A2 & H2 & B2).
    eexists. split; [eapply vr3_array; [exact Hb|reflexivity|exact H1|exact H2]|]. eapply (below_completed r W); [exact B2| |symmetry; apply below_length, HB].
    rewrite El. cbn [begun place w_places]. rewrite <- app_assoc. reflexivity.
  - intros W b ty props T1 bv c vs W2 p Htr -> HV IHV HL L. destruct (IHV L) as (-> & [l El] & IHV'). subst r0. split; [reflexivity|]. cbn [completed].
    split; [exists ([None] ++ l); rewrite El; cbn [begun place w_places with_tables]; symmetry; apply app_assoc|].
    intros A HB. destruct (IHV' (begun r PNil (with_tables T1 A))) as (A2 & H2 & B2); [apply BG, below_tables, HB|].
    eexists. split; [eapply vr3_object; [rewrite <- (proj1 HB); apply traits3_loose; exact Htr|reflexivity|exact H2|exact HL]|]. eapply (below_completed r W); [exact B2| |symmetry; apply below_length, HB].
    rewrite El. cbn [begun place w_places with_tables]. rewrite <- app_assoc. reflexivity.
  - intros W b s c Hb Hc ->. destruct Hc as [-> Hs]. split; [reflexivity|]. split; [apply ext_place|]. intros A HB. eexists. split; [apply vr3_bytes; [exact Hb|apply MM, Hs]|]. apply EN; assumption.
  - intros W m i b p Hb Hn HR ->. split; [reflexivity|]. split; [apply ext_refl|]. intros A HB. exists A. split; [|exact HB]. eapply vr3_reference; [exact Hb|eapply below_nth; eassumption|].
    unfold refers in *. destruct HR as [H|[H|[H|[(H & [X|H'])|H]]]]; try discriminate; tauto.
  - intros W _. split; [reflexivity|]. split; [apply ext_refl|]. intros A HB. exists A. split; [constructor|exact HB].
  - intros W b c1 p W1 bs c2 ps W2 H1 IH1 H2 IH2 HC L. destruct (IH1 L) as (-> & X1 & IH1'). destruct (IH2 L) as (-> & X2 & IH2'). split; [reflexivity|]. split; [eapply ext_trans; eassumption|].
    intros A HB. destruct (IH1' A HB) as (A1 & K1 & B1). destruct (IH2' A1 B1) as (A2 & K2 & B2). exists A2. split; [|exact B2]. apply (vsr3_cons r A b 0 p A1 bs 0 ps A2); auto.
  - intros W b st Hb _. split; [apply ext_tables|]. intros A HB. rewrite (proj1 HB) in *. eexists. split; [constructor; exact Hb|]. apply below_tables, HB.
  - intros W bk k st bv p W1 bs fs W2 Hk Hne H1 IH1 H2 IH2 L. destruct (IH1 L) as (_ & X1 & IH1'). destruct (IH2 L) as (X2 & IH2'). split; [eapply ext_trans; [apply ext_tables|eapply ext_trans; eassumption]|].
    intros A HB. rewrite (proj1 HB) in *. destruct (IH1' _ (below_tables (with_strings st (w_tables A)) _ _ HB)) as (A1 & K1 & B1). destruct (IH2' A1 B1) as (A2 & K2 & B2). exists A2. split; [|exact B2].
    eapply asr3_cons; eassumption.
Qed.
