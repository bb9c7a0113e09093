(** AMF3: what Encode writes is a layout of Spec/Amf3Doc.v. *)
From Coq Require Import Permutation.
From Verif Require Import Base.Go Base.GoFacts Base.IO Base.Float64 Proofs.IOFacts Proofs.Float64
  Model.AmfTypes Model.Amf3 Spec.Amf Spec.AmfDoc Spec.Amf3Doc Proofs.AmfFacts Proofs.Amf0Enc Proofs.Amf0RT Proofs.Amf0Spec Proofs.Amf3Enc Proofs.Amf3RT.
Local Ltac Zify.zify_post_hook ::= Z.div_mod_to_equations.

Lemma Forall2_len {A B} (R : A -> B -> Prop) l l' : Forall2 R l l' -> length l = length l'.
Proof. induction 1; cbn; congruence. Qed.
Lemma u29_wire v : 0 <= v < 2 ^ 29 -> u29 v (wire_u29 v).
Proof.
  change (2 ^ 29) with 536870912. intros Hv. unfold wire_u29.
  destruct (Z.ltb_spec v 128); [constructor; lia|]. destruct (Z.ltb_spec v 16384).
  { replace v with (v / 128 * 128 + v mod 128) at 1 by lia. constructor; lia. }
  destruct (Z.ltb_spec v 2097152).
  { replace v with ((v / 16384 * 128 + (v / 128) mod 128) * 128 + v mod 128) at 1 by lia. constructor; lia. }
  replace v with (((v / 4194304 * 128 + (v / 32768) mod 128) * 128 + (v / 256) mod 128) * 256 + v mod 256) at 1 by lia. constructor; lia.
Qed.
Lemma wire_str3_vr st s : len s < 268435456 -> exists st', utf8vr st (wire_str3 s) s st'.
Proof.
  intros H. unfold wire_str3. pose proof (len_nonneg s). destruct s as [|x s].
  - exists st. rewrite app_nil_r. apply vr_empty. apply (u29_wire 1). lia.
  - eexists. apply vr_lit; [discriminate|]. apply u29_wire. change (2 ^ 29) with 536870912. lia.
Qed.
Lemma wire_strs3_vrs ss : Forall (fun s => len s < 268435456) ss -> forall st, exists st', utf8vrs st (concat (map wire_str3 ss)) ss st'.
Proof.
  induction 1 as [|s ss Hs _ IH]; intros st; [exists st; constructor|]. destruct (wire_str3_vr st s Hs) as [st1 H1]. destruct (IH st1) as [st2 H2]. exists st2. cbn [map concat]. econstructor; eassumption.
Qed.
Definition good (t : tree) : Prop := forall T, exists p T', value3 false T (w3 t) p T' /\ same_value p (img3 t).
Lemma good_values l : Forall good l -> forall T, exists ps T', values3 false T (concat (map w3 l)) ps T' /\ Forall2 same_value ps (map img3 l).
Proof.
  induction 1 as [|t l Ht _ IH]; intros T; [exists [], T; split; constructor|]. destruct (Ht T) as (p & T1 & H1 & S1). destruct (IH T1) as (ps & T2 & H2 & S2).
  exists (p :: ps), T2. cbn [map concat]. split; [econstructor; eassumption|constructor; assumption].
Qed.
Lemma good_object ty fs T : len ty < 268435456 -> len fs < 33554432 -> NoDup (map fst fs) -> Forall (fun p => len (fst p) < 268435456) fs -> Forall (fun p => good (snd p)) fs ->
  exists p T', value3 false T (10 :: wire_u29 (16 * len fs + 3) ++ wire_str3 ty ++ concat (map wire_str3 (map fst (sort_keys fs))) ++ concat (map snd (sort_keys (map (fun p => (fst p, w3 (snd p))) fs)))) p T' /\
    same_value p (PObj (map (fun p => (fst p, img3 (snd p))) fs)).
Proof.
  intros Hty Hl HN Hk Hg. rewrite sort_keys_map, (map_map _ snd). cbn [snd]. pose proof (sort_keys_perm fs) as HP. set (gs := sort_keys fs) in *. clearbody gs.
  assert (Hk' : Forall (fun s => len s < 268435456) (map fst gs)) by (apply Forall_map; eapply Permutation_Forall; [exact HP|exact Hk]).
  assert (Hg' : Forall good (map snd gs)) by (apply Forall_map; eapply Permutation_Forall; [exact HP|exact Hg]).
  assert (HN' : NoDup (map fst gs)) by (eapply Permutation_NoDup; [apply Permutation_map, HP|exact HN]).
  assert (HL : len fs = len (map fst gs)) by (rewrite len_map; unfold len; rewrite (Permutation_length HP); reflexivity).
  destruct (wire_str3_vr (t_strings T) ty Hty) as [st1 H1]. destruct (wire_strs3_vrs _ Hk' st1) as [st2 H2].
  destruct (good_values _ Hg' (mkTables st2 (t_classes T ++ [(ty, map fst gs)]))) as (ps & T' & H3 & S3). rewrite map_map in H3, S3.
  assert (Lps : length ps = length gs) by (pose proof (Forall2_len _ _ _ S3) as X; rewrite map_length in X; exact X).
  exists (PObj (members (combine (map fst gs) ps))), T'. split.
  - rewrite !app_assoc. rewrite <- (app_assoc (wire_u29 _)). eapply v3_object; [|exact H3|rewrite map_length; exact Lps].
    eapply tr_new; [left; reflexivity| |exact H1|exact H2]. rewrite <- HL. replace (16 * len fs + 4 * 0 + 3) with (16 * len fs + 3) by lia. apply u29_wire. pose proof (len_nonneg fs). change (2 ^ 29) with 536870912. lia.
  - rewrite members_nodup by (replace (map fst (combine (map fst gs) ps)) with (map fst gs); [exact HN'|]; clear - Lps; revert ps Lps; induction gs as [|g gs IH]; intros [|p ps] L; cbn in *; try lia; [reflexivity|f_equal; apply IH; lia]).
    apply same_obj with (fs1 := map (fun p => (fst p, img3 (snd p))) gs); [|apply Permutation_map, Permutation_sym, HP].
    clear - S3. revert ps S3. induction gs as [|g gs IH]; intros ps S3; inversion S3; subst; cbn [map combine]; constructor; [cbn; split; [reflexivity|assumption]|apply IH; assumption].
Qed.
Theorem w3_doc t : ok3 t -> ints_fit t -> good t.
Proof.
  induction t as [|b|b|w z|w z|s|s|s|l IH|fs IH|ty fs IH|] using tree_ind'; cbn [ok3 ints_fit]; intros Hok Hfit T; try contradiction; cbn [w3 img3].
  - exists PNil, T. split; constructor.
  - exists (PBool b), T. split; [destruct b; constructor|constructor].
  - exists (PNum b), T. split; [apply v3_double, Hok|constructor].
  - destruct (negb w && (0 <=? z) && (z <? 536870911)) eqn:E.
    + destruct w; [discriminate|]. cbn [negb andb] in E. exists (PU32 z), T. split; [|constructor]. apply v3_integer; [left; change (2 ^ 29) with 536870912 in *; lia|apply u29_wire; change (2 ^ 29) with 536870912; lia].
    + exists (PNum (f64_of_Z z)), T. split; [apply v3_double, f64_of_Z_range|constructor].
  - destruct (negb w && (0 <=? z) && (z <? 536870911)) eqn:E.
    + destruct w; [discriminate|]. cbn [negb andb] in E. exists (PU32 z), T. split; [|constructor]. apply v3_integer; [left; change (2 ^ 29) with 536870912 in *; lia|apply u29_wire; change (2 ^ 29) with 536870912; lia].
    + exists (PNum (f64_of_Z z)), T. split; [apply v3_double, f64_of_Z_range|constructor].
  - destruct (wire_str3_vr (t_strings T) s (proj2 Hok)) as [st H]. exists (PStr s), (with_strings st T). split; [apply v3_string, H|constructor].
  - eexists _, T. split; [apply (v3_date false T 0 [1]); [apply (u29_wire 1); lia|]|]. 2: rewrite date_back by exact Hok; constructor. apply f64_mul_c_range; [apply f64_of_Z_range|lia].
  - exists (PBytes s), T. split; [unfold wire_str3; apply v3_bytes, u29_wire; pose proof (len_nonneg s); change (2 ^ 29) with 536870912; lia|constructor].
  - destruct Hok as [Hl Hall]. apply AmfFacts.all_of_map in Hall. apply AmfFacts.all_of_map in Hfit. assert (HG : Forall good l).
    { clear Hl. induction l as [|x l IHl]; constructor; inversion IH; inversion Hall; inversion Hfit; subst; auto. }
    destruct (good_values l HG T) as (ps & T' & H1 & S1). exists (PEcma ps (members [])), T'. split.
    + eapply (v3_array false T _ [1] [] (with_strings (t_strings T) T)).
      * assert (len ps = len l) as -> by (unfold len; pose proof (Forall2_len _ _ _ S1) as X; rewrite map_length in X; congruence). apply u29_wire; pose proof (len_nonneg l); change (2 ^ 29) with 536870912; lia.
      * apply as3_nil. apply vr_empty, (u29_wire 1). lia.
      * destruct T; exact H1.
    + constructor. exact S1.
  - destruct Hok as (Hl & HN & Hall). apply AmfFacts.all_of_map in Hall. apply AmfFacts.all_of_map in Hfit. apply good_object; [unfold len; cbn; lia|exact Hl|exact HN| |].
    + eapply Forall_impl; [|exact Hall]. cbn beta. tauto.
    + clear Hl HN. induction fs as [|[k t] fs IHl]; constructor; inversion IH; inversion Hall; inversion Hfit; subst; cbn [snd fst] in *; auto. tauto.
  - destruct Hok as ((_ & Hty) & Hl & HN & Hall). apply AmfFacts.all_of_map in Hall. apply AmfFacts.all_of_map in Hfit. apply good_object; [exact Hty|exact Hl|exact HN| |].
    + eapply Forall_impl; [|exact Hall]. cbn beta. tauto.
    + clear Hl HN. induction fs as [|[k t] fs IHl]; constructor; inversion IH; inversion Hall; inversion Hfit; subst; cbn [snd fst] in *; auto. tauto.
Qed.
