(** The tables of a decoder after any calls of Decode, on any readers, whatever these calls returned. *)
From Verif Require Import Base.Go Base.GoFacts Base.IO Base.Float64 Proofs.IOFacts Model.AmfTypes Model.Amf3 Model.Amf0 Spec.Amf Spec.AmfDoc Spec.Amf3Doc Spec.Amf3Ref
  Proofs.AmfFacts Proofs.Amf3RT Proofs.AmfTame Proofs.Amf3Again.
Import ListNotations.
Local Open Scope Z_scope.
Local Ltac Zify.zify_post_hook ::= Z.div_mod_to_equations.

Definition trait_ok (t : trait) : Prop := t_ext t = false /\ t_dyn t = false /\ Forall name_ok (t_props t) /\ len (t_props t) < 33554432.
Definition kept_ok (v : value) : Prop := exists p, holds (Some p) v /\ fine p.
Definition inv (d : dstate) : Prop := is_bytes (r_rest (d_r d)) /\ Forall name_ok (d_str3 d) /\ Forall trait_ok (d_trait3 d) /\ Forall kept_ok (d_obj3 d).
Definition pr {A} (m : Dm A) (Q : A -> Prop) : Prop := forall d, inv d -> inv (fst (m d)) /\ forall a, snd (m d) = Ok a -> Q a.
Lemma pr_ret {A} (a : A) (Q : A -> Prop) : Q a -> pr (dret a) Q.
Proof. intros H d I. split; [exact I|]. intros b E. injection E as <-. exact H. Qed.
Lemma pr_fail {A} e (Q : A -> Prop) : pr (dfail e) Q.
Proof. intros d I. split; [exact I|discriminate]. Qed.
Lemma pr_fuel {A} (Q : A -> Prop) : pr (fun d => (d, OutOfFuel)) Q.
Proof. intros d I. split; [exact I|discriminate]. Qed.
Lemma pr_bind {A B} (m : Dm A) (k : A -> Dm B) Q R : pr m Q -> (forall a, Q a -> pr (k a) R) -> pr (dbind m k) R.
Proof.
  intros Hm Hk d I. unfold dbind. destruct (Hm d I) as [H1 H2]. destruct (m d) as [d1 [a|e| |]]; cbn [fst snd] in *; try (split; [exact H1|discriminate]).
  exact (Hk a (H2 a eq_refl) d1 H1).
Qed.
Lemma pr_weak {A} (m : Dm A) (Q R : A -> Prop) : pr m Q -> (forall a, Q a -> R a) -> pr m R.
Proof. intros H W d I. destruct (H d I) as [A1 A2]. split; [exact A1|]. intros a E. apply W, A2, E. Qed.
Definition any {A} (a : A) : Prop := True.

Lemma inv_r d r : inv d -> is_bytes (r_rest r) -> inv (set_r r d).
Proof. intros (_ & H) B. exact (conj B H). Qed.
Lemma read_inv n r : is_bytes (r_rest r) -> is_bytes (r_rest (fst (read n r))) /\ forall s, snd (read n r) = Ok s -> is_bytes s /\ (0 <= n -> len s <= n).
Proof.
  unfold r_rest, read. destruct (r_chunks r) as [|c cs] eqn:E; cbn [concat]; intros B.
  - destruct ((n =? 0) && negb (e_zero (r_end r))); cbn [fst snd]; rewrite E; (split; [exact B|]); intros s X; [|discriminate]. injection X as <-. split; [constructor|]. unfold len. cbn [length]. lia.
  - apply is_bytes_app in B. destruct B as [B1 B2]. destruct (n =? 0) eqn:EN.
    + cbn [fst snd]. rewrite E. split; [cbn [concat]; apply is_bytes_app; split; assumption|]. intros s X. injection X as <-. split; [constructor|unfold len; cbn [length]; lia].
    + destruct (len c <=? n) eqn:EL; cbn [fst snd r_chunks].
      * split; [exact B2|]. intros s X. assert (Ec : c = s) by (destruct cs; [destruct (r_with r); congruence|congruence]). subst s. split; [exact B1|lia].
      * cbn [concat]. rewrite <- (take_drop c n) in B1. apply is_bytes_app in B1. split; [apply is_bytes_app; split; [apply B1|exact B2]|]. intros s X. injection X as <-. split; [apply B1|]. intros Hn. unfold len, take in *. rewrite firstn_length. lia.
Qed.
Lemma read_full_inv e cs : forall n acc, is_bytes (concat cs) -> is_bytes (concat (fst (read_full_chunks e n acc cs))).
Proof.
  induction cs as [|c cs IH]; intros n acc B; cbn [read_full_chunks]; [exact B|]. cbn [concat] in B. apply is_bytes_app in B. destruct B as [B1 B2].
  destruct (len c <? n); [apply IH, B2|]. destruct (len c =? n); cbn [fst]; [exact B2|]. cbn [concat]. rewrite <- (take_drop c n) in B1. apply is_bytes_app in B1. apply is_bytes_app. split; [apply B1|exact B2].
Qed.
Lemma pr_read_bytes n : 0 <= n -> pr (read_bytes n) (fun s => is_bytes s /\ len s = n).
Proof.
  intros Hn d I. unfold read_bytes. destruct (read_inv n (d_r d) (proj1 I)) as [B S]. destruct (read n (d_r d)) as [r' [s|e| |]]; cbn [fst snd] in *; (split; [apply inv_r; assumption|]); try discriminate.
  intros a E. destruct (S s eq_refl) as [S1 S2]. destruct (len s =? n) eqn:EL; [|discriminate]. injection E as <-. split; [exact S1|lia].
Qed.
Lemma pr_read_into n : 0 <= n -> pr (read_into n) (fun s => is_bytes s /\ len s = n).
Proof.
  intros Hn d I. unfold read_into. destruct (read_inv n (d_r d) (proj1 I)) as [B S]. destruct (read n (d_r d)) as [r' [s|e| |]]; cbn [fst snd] in *; (split; [apply inv_r; assumption|]); try discriminate.
  intros a E. destruct (S s eq_refl) as [S1 S2]. injection E as <-. split; [apply is_bytes_app; split; [exact S1|]|].
  - apply Forall_forall. intros x Hx. apply repeat_spec in Hx. subst x. unfold byte. lia.
  - unfold len in *. rewrite app_length, repeat_length. lia.
Qed.
Lemma pr_read_be n : pr (read_be n) any.
Proof.
  intros d I. unfold read_be, read_full. pose proof (read_full_inv (e_err (r_end (d_r d))) (r_chunks (d_r d)) n [] (proj1 I)) as B.
  destruct (read_full_chunks (e_err (r_end (d_r d))) n [] (r_chunks (d_r d))) as [cs [s|e| |]]; cbn [fst snd] in *; (split; [apply inv_r; [exact I|exact B]|intros; exact Logic.I]).
Qed.
Lemma pr_byte : pr read_byte byte.
Proof.
  unfold read_byte. eapply pr_bind; [apply pr_read_bytes; lia|]. intros s [B L]. apply pr_ret. destruct s as [|x s]; [discriminate|]. inversion B; subst. assumption.
Qed.
Lemma land127 b : byte b -> 0 <= Z.land b 127 < 128.
Proof. intros H. change 127 with (Z.ones 7). rewrite Z.land_ones by lia. apply Z.mod_pos_bound. lia. Qed.
Lemma pr_u29 : pr read_u29 (fun v => 0 <= v < 536870912).
Proof.
  unfold read_u29. eapply pr_bind; [apply pr_byte|]. intros b1 H1. pose proof (land127 b1 H1) as L1. cbv zeta.
  assert (S7 : forall v, Z.shiftl v 7 = v * 128) by (intros v; rewrite Z.shiftl_mul_pow2 by lia; reflexivity).
  assert (S8 : forall v, Z.shiftl v 8 = v * 256) by (intros v; rewrite Z.shiftl_mul_pow2 by lia; reflexivity).
  assert (U : forall v, 0 <= v < 4294967296 -> u32 v = v) by (intros v Hv; unfold u32; apply Z.mod_small; exact Hv).
  rewrite !S7. rewrite (U (0 * 128 + _)) by lia.
  destruct (Z.land b1 128 =? 0); [apply pr_ret; lia|]. eapply pr_bind; [apply pr_byte|]. intros b2 H2. pose proof (land127 b2 H2) as L2. rewrite (U ((0 * 128 + Z.land b1 127) * 128 + Z.land b2 127)) by lia.
  destruct (Z.land b2 128 =? 0); [apply pr_ret; lia|]. eapply pr_bind; [apply pr_byte|]. intros b3 H3. pose proof (land127 b3 H3) as L3. rewrite !S7. rewrite (U (((0 * 128 + Z.land b1 127) * 128 + Z.land b2 127) * 128 + Z.land b3 127)) by lia.
  destruct (Z.land b3 128 =? 0); [apply pr_ret; lia|]. eapply pr_bind; [apply pr_byte|]. intros b4 H4. rewrite S8. unfold byte in H4.
  assert (R : 0 <= (((0 * 128 + Z.land b1 127) * 128 + Z.land b2 127) * 128 + Z.land b3 127) * 256 + b4 < 536870912) by (revert L1 L2 L3; generalize (Z.land b1 127) (Z.land b2 127) (Z.land b3 127); clear - H4; intros; lia).
  rewrite U by (split; [apply R|eapply Z.lt_trans; [apply R|reflexivity]]). apply pr_ret. exact R.
Qed.
Lemma pr_du29 : pr decode_u29 (fun x => 0 <= snd x < 268435456).
Proof. unfold decode_u29. eapply pr_bind; [apply pr_u29|]. intros u H. cbv beta in H. apply pr_ret. cbn [snd]. rewrite Z.shiftr_div_pow2 by lia. change (2 ^ 1) with 2. lia. Qed.
Lemma pr_string : pr decode_string3 name_ok.
Proof.
  unfold decode_string3. eapply pr_bind; [apply pr_du29|]. intros [r v] H. cbn [snd] in H. destruct r.
  - intros d I. destruct (len (d_str3 d) <=? v) eqn:E; (split; [exact I|]); [discriminate|]. intros a X. injection X as <-. destruct I as (_ & HS & _). rewrite Forall_forall in HS. apply HS. apply nth_In. unfold len in E. lia.
  - destruct (v =? 0); [apply pr_ret; split; [constructor|vm_compute; reflexivity]|]. eapply pr_bind; [apply pr_read_bytes; lia|]. intros s [B L] d (I1 & I2 & I3 & I4). assert (N : name_ok s) by (split; [exact B|lia]).
    split; [|intros a X; injection X as <-; exact N]. split; [exact I1|]. split; [|split; [exact I3|exact I4]]. cbn [fst set_str3 d_str3]. apply Forall_app. split; [exact I2|constructor; [exact N|constructor]].
Qed.
Lemma pr_ref v : pr (obj3_ref v) any.
Proof. unfold obj3_ref. intros d I. destruct (len (d_obj3 d) <=? v); (split; [exact I|intros; exact Logic.I]). Qed.
Lemma pr_push v : kept_ok v -> pr (obj3_push v) any.
Proof.
  intros H d (I1 & I2 & I3 & I4). split; [|intros; exact Logic.I]. split; [exact I1|]. split; [exact I2|]. split; [exact I3|]. cbn [fst obj3_push set_obj3 d_obj3]. apply Forall_app. split; [exact I4|constructor; [exact H|constructor]].
Qed.
Lemma pr_same {A} (m : Dm A) : (forall d, d_r (fst (m d)) = d_r d /\ d_str3 (fst (m d)) = d_str3 d /\ d_obj3 (fst (m d)) = d_obj3 d /\ d_trait3 (fst (m d)) = d_trait3 d) -> pr m any.
Proof. intros H d (I1 & I2 & I3 & I4). destruct (H d) as (E1 & E2 & E3 & E4). split; [|intros; exact Logic.I]. unfold inv. rewrite E1, E2, E3, E4. tauto. Qed.
Lemma pr_alloc : pr alloc any. Proof. apply pr_same. intros d. repeat split. Qed.
Lemma pr_obj_set l k v : pr (obj_set l k v) any. Proof. apply pr_same. intros d. repeat split. Qed.
Lemma pr_ref0 v : pr (ref0_push v) any. Proof. apply pr_same. intros d. repeat split. Qed.
Lemma pr_wrap {A} (m : Dm A) Q : pr m Q -> pr (fun d => match m d with (d', Err _) => (d', Err EOther) | x => x end) Q.
Proof. intros H d I. destruct (H d I) as [A1 A2]. destruct (m d) as [d' [a|e| |]]; cbn [fst snd] in *; (split; [exact A1|]); try discriminate. exact A2. Qed.
Lemma pr_date : pr decode_date3 any.
Proof.
  unfold decode_date3. eapply pr_bind; [apply pr_du29|]. intros [r v] H. destruct r.
  - eapply pr_bind; [apply pr_ref|]. intros x _. destruct x; try apply pr_fail; apply pr_ret; exact I.
  - eapply pr_bind; [apply pr_wrap, pr_read_be|]. intros bits _. cbv zeta. eapply pr_bind; [apply pr_push; eexists; split; [constructor|exact I]|]. intros _ _. apply pr_ret. exact I.
Qed.
Lemma pr_xml : pr decode_xmldoc3 any.
Proof.
  unfold decode_xmldoc3. eapply pr_bind; [apply pr_du29|]. intros [r v] H. cbn [snd] in H. destruct r.
  - eapply pr_bind; [apply pr_ref|]. intros x _. destruct x; try apply pr_fail; apply pr_ret; exact I.
  - destruct (v =? 0); [apply pr_ret; exact I|]. eapply pr_bind; [apply pr_read_into; lia|]. intros s [B L]. eapply pr_bind; [apply pr_push; exists (PStr s); split; [constructor|split; [exact B|lia]]|]. intros _ _. apply pr_ret. exact I.
Qed.
Lemma pr_ba : pr decode_bytearray3 any.
Proof.
  unfold decode_bytearray3. eapply pr_bind; [apply pr_du29|]. intros [r v] H. cbn [snd] in H. destruct r.
  - eapply pr_bind; [apply pr_ref|]. intros x _. destruct x; try apply pr_fail; apply pr_ret; exact I.
  - destruct (v =? 0); [apply pr_ret; exact I|]. eapply pr_bind; [apply pr_read_into; lia|]. intros s [B L]. eapply pr_bind; [apply pr_push; exists (PBytes s); split; [constructor|split; [exact B|lia]]|]. intros _ _. apply pr_ret. exact I.
Qed.
Lemma pr_loop {A} (m : Dm A) Q : pr m Q -> forall fuel n, pr (loop_n m fuel n) (fun l => Forall Q l /\ (0 <= n -> len l = n)).
Proof.
  intros H. induction fuel as [|f IH]; intros n; cbn [loop_n]; destruct (n <=? 0) eqn:E; try (apply pr_ret; split; [constructor|unfold len; cbn [length]; lia]); [apply pr_fuel|].
  eapply pr_bind; [exact H|]. intros x Hx. eapply pr_bind; [apply IH|]. intros xs [Hxs L]. apply pr_ret. split; [constructor; assumption|]. intros Hn. specialize (L ltac:(lia)). unfold len in *. cbn [length]. lia.
Qed.
Lemma pr_trait fuel v : 0 <= v < 268435456 -> pr (decode_trait fuel v) trait_ok.
Proof.
  intros Hv. unfold decode_trait. destruct (Z.land v 1 =? 0) eqn:E1.
  - intros d I. cbv zeta. destruct (len (d_trait3 d) <=? Z.shiftr v 1) eqn:E; (split; [exact I|]); [discriminate|]. intros a X. injection X as <-. destruct I as (_ & _ & HT & _). rewrite Forall_forall in HT. apply HT, nth_In.
    pose proof (proj2 (Z.shiftr_nonneg v 1) ltac:(lia)). unfold len in E. lia.
  - cbv zeta. eapply pr_bind; [apply pr_string|]. intros ty _. eapply pr_bind; [apply pr_loop, pr_string|]. intros props [HP HL] d (I1 & I2 & I3 & I4).
    assert (T : trait_ok (mkTrait ty (Z.land v 2 =? 1) (Z.land v 4 =? 1) props)).
    { assert (B : forall k, 0 < k -> Z.land v (2 ^ k) <> 1).
      { intros k Hk EQ. assert (F : Z.testbit (Z.land v (2 ^ k)) 0 = true) by (rewrite EQ; reflexivity). rewrite Z.land_spec in F. apply andb_prop in F. destruct F as [_ F]. rewrite Z.pow2_bits_false in F by lia. discriminate. }
      split; [cbn [t_ext]; apply Z.eqb_neq, (B 1); lia|]. split; [cbn [t_dyn]; apply Z.eqb_neq, (B 2); lia|]. split; [exact HP|]. cbn [t_props]. rewrite Z.shiftr_div_pow2 in HL by lia. change (2 ^ 3) with 8 in HL. lia. }
    split; [|intros a X; injection X as <-; exact T]. split; [exact I1|]. split; [exact I2|]. split; [|exact I4]. cbn [fst set_trait3 d_trait3]. apply Forall_app. split; [exact I3|constructor; [exact T|constructor]].
Qed.
Section Dec.
  Variable dec : Dm value.
  Hypothesis HD : pr dec any.
  Lemma pr_assoc loc : forall fuel key, pr (assoc_loop dec fuel loc key) any.
  Proof.
    induction fuel as [|f IH]; intros [|c key]; cbn [assoc_loop]; try (apply pr_ret; exact I); [apply pr_fuel|]. eapply pr_bind; [exact HD|]. intros v _. eapply pr_bind; [apply pr_obj_set|]. intros _ _.
    eapply pr_bind; [apply pr_string|]. intros key' _. apply IH.
  Qed.
  Lemma pr_array fuel : pr (decode_array3 dec fuel) any.
  Proof.
    unfold decode_array3. eapply pr_bind; [apply pr_du29|]. intros [r v] H. destruct r.
    - eapply pr_bind; [apply pr_ref|]. intros x _. destruct x; try apply pr_fail; apply pr_ret; exact I.
    - eapply pr_bind; [apply pr_string|]. intros key _. eapply pr_bind; [apply pr_push; eexists; split; [apply holds_array|exact I]|]. intros _ _. eapply pr_bind; [apply pr_alloc|]. intros loc _.
      eapply pr_bind; [apply pr_assoc|]. intros _ _. eapply pr_bind; [apply pr_loop, HD|]. intros l _. apply pr_ret. exact I.
  Qed.
  Lemma pr_props loc : forall ks, pr (props_loop dec loc ks) any.
  Proof. induction ks as [|k ks IH]; cbn [props_loop]; [apply pr_ret; exact I|]. eapply pr_bind; [exact HD|]. intros v _. eapply pr_bind; [apply pr_obj_set|]. intros _ _. exact IH. Qed.
  Lemma pr_object fuel : pr (decode_object3 dec fuel) any.
  Proof.
    unfold decode_object3. eapply pr_bind; [apply pr_du29|]. intros [r v] H. cbn [snd] in H. destruct r; [apply pr_ref|]. eapply pr_bind; [apply pr_trait, H|]. intros t (TE & TD & _).
    eapply pr_bind; [apply pr_push; eexists; split; [apply holds_null|exact I]|]. intros _ _. rewrite TE, TD. eapply pr_bind; [apply pr_alloc|]. intros loc _. eapply pr_bind; [apply pr_props|]. intros _ _.
    eapply pr_bind; [apply (pr_ret tt any); exact I|]. intros _ _. apply pr_ret. exact I.
  Qed.
  Lemma pr_string0 : pr decode_string0 any.
  Proof. intros d HI. unfold decode_string0. assert (G : pr (d* n := read_be 2 in read_bytes n) any); [|exact (G d HI)]. eapply pr_bind; [apply pr_read_be|]. intros n _ d1 I1. split; [|intros; exact I].
    unfold read_bytes. pose proof (proj1 (read_inv n (d_r d1) (proj1 I1))) as B. destruct (read n (d_r d1)) as [r' [s|e| |]]; cbn [fst snd] in *; apply inv_r; assumption. Qed.
  Lemma pr_long0 : pr decode_longstring0 any.
  Proof. unfold decode_longstring0. eapply pr_bind; [apply pr_read_be|]. intros n _ d1 I1. split; [|intros; exact I].
    unfold read_bytes. pose proof (proj1 (read_inv n (d_r d1) (proj1 I1))) as B. destruct (read n (d_r d1)) as [r' [s|e| |]]; cbn [fst snd] in *; apply inv_r; assumption. Qed.
  Lemma pr_obj_loop loc : forall fuel, pr (obj_loop dec fuel loc) any.
  Proof.
    induction fuel as [|f IH]; cbn [obj_loop]; [apply pr_fuel|]. eapply pr_bind; [apply pr_string0|]. intros [|c key] _.
    - unfold next_byte_must_be. eapply pr_bind; [apply pr_byte|]. intros b _. destruct (b =? 9); [apply pr_ret; exact I|apply pr_fail].
    - eapply pr_bind; [exact HD|]. intros v _. eapply pr_bind; [apply pr_obj_set|]. intros _ _. exact IH.
  Qed.
  Lemma pr_object0 fuel : pr (decode_object0 dec fuel) any.
  Proof. unfold decode_object0. eapply pr_bind; [apply pr_alloc|]. intros loc _. eapply pr_bind; [apply pr_ref0|]. intros _ _. eapply pr_bind; [apply pr_obj_loop|]. intros _ _. apply pr_ret. exact I. Qed.
End Dec.
Lemma pr_dec3 : forall fuel, pr (dec3 fuel) any.
Proof.
  induction fuel as [|f IH]; cbn [dec3]; [apply pr_fuel|]. eapply pr_bind; [apply pr_byte|]. intros m _.
  destruct ((m =? 0) || (m =? 1)); [apply pr_ret; exact I|]. destruct (m =? 2); [apply pr_ret; exact I|]. destruct (m =? 3); [apply pr_ret; exact I|].
  destruct (m =? 4); [eapply pr_bind; [apply pr_u29|]; intros u _; apply pr_ret; exact I|]. destruct (m =? 5); [eapply pr_bind; [apply pr_read_be|]; intros u _; apply pr_ret; exact I|].
  destruct (m =? 6); [eapply pr_bind; [apply pr_string|]; intros u _; apply pr_ret; exact I|]. destruct (m =? 7); [apply pr_xml|]. destruct (m =? 8); [apply pr_date|]. destruct (m =? 9); [apply pr_array, IH|].
  destruct (m =? 10); [apply pr_object, IH|]. destruct (m =? 11); [apply pr_xml|]. destruct (m =? 12); [apply pr_ba|apply pr_fail].
Qed.
Lemma pr_dec0 : forall fuel, pr (dec0 fuel) any.
Proof.
  induction fuel as [|f IH]; cbn [dec0]; [apply pr_fuel|]. eapply pr_bind; [apply pr_byte|]. intros m _.
  destruct (m =? 0); [eapply pr_bind; [apply pr_read_be|]; intros u _; apply pr_ret; exact I|]. destruct (m =? 1); [eapply pr_bind; [apply pr_byte|]; intros u _; apply pr_ret; exact I|].
  destruct (m =? 2); [eapply pr_bind; [apply pr_string0|]; intros u _; apply pr_ret; exact I|]. destruct (m =? 3); [eapply pr_bind; [apply pr_object0, IH|]; intros u _; apply pr_ret; exact I|].
  destruct (m =? 4); [apply pr_fail|]. destruct ((m =? 5) || (m =? 6) || (m =? 13)); [apply pr_ret; exact I|].
  destruct (m =? 7). { unfold decode_reference0. eapply pr_bind; [apply pr_read_be|]. intros ref _ d HI. destruct (len (d_ref0 d) <? ref); [split; [exact HI|intros; exact I]|]. destruct (ref =? len (d_ref0 d)); (split; [exact HI|intros; exact I]). }
  destruct (m =? 8). { unfold decode_ecma0. eapply pr_bind; [apply pr_read_be|]. intros u _. eapply pr_bind; [apply pr_object0, IH|]. intros loc _. apply pr_ret. exact I. }
  destruct (m =? 10). { unfold decode_strict0. eapply pr_bind; [apply pr_read_be|]. intros u _. eapply pr_bind; [apply pr_ref0|]. intros _ _. eapply pr_bind; [apply pr_loop, IH|]. intros l _. apply pr_ret. exact I. }
  destruct (m =? 11). { unfold decode_date0. eapply pr_bind; [apply pr_read_be|]. intros u _. eapply pr_bind; [apply pr_read_bytes; lia|]. intros s _. apply pr_ret. exact I. }
  destruct (m =? 12); [eapply pr_bind; [apply pr_long0|]; intros u _; apply pr_ret; exact I|]. destruct (m =? 14); [apply pr_fail|]. destruct (m =? 15); [eapply pr_bind; [apply pr_long0|]; intros u _; apply pr_ret; exact I|].
  destruct (m =? 16). { unfold decode_typed0. eapply pr_bind; [apply pr_ref0|]. intros _ _. eapply pr_bind; [apply pr_string0|]. intros ty _. eapply pr_bind; [apply pr_object0, IH|]. intros loc _. apply pr_ret. exact I. }
  destruct (m =? 17); [apply pr_dec3|apply pr_fail].
Qed.
(** The tables are those of a world. *)
Lemma inv_world d : inv d -> exists W, knows W d /\ world_ok W.
Proof.
  intros (_ & HS & HT & HO).
  assert (P : exists ps, Forall2 holds ps (d_obj3 d) /\ Forall (fun o => match o with Some p => fine p | None => True end) ps).
  { clear - HO. induction HO as [|v l (p & Hp & Fp) _ (ps & A & B)]; [exists []; split; constructor|]. exists (Some p :: ps). split; constructor; assumption. }
  destruct P as (ps & P1 & P2). exists (mkWorld (mkTables (d_str3 d) (map (fun t => (t_type t, t_props t)) (d_trait3 d))) ps). split.
  - split; [reflexivity|]. split; [|exact P1]. cbn [w_tables t_classes]. rewrite map_map. cbn [fst snd]. rewrite <- (map_id (d_trait3 d)) at 1. apply map_ext_in. intros t Ht. rewrite Forall_forall in HT. destruct (HT t Ht) as (A & B & _). destruct t as [ty ex dy pr]. cbn [t_ext t_dyn t_type t_props] in *. subst. reflexivity.
  - split; [|exact P2]. split; [exact HS|]. cbn [w_tables t_classes]. rewrite Forall_map. eapply Forall_impl; [|exact HT]. intros t (_ & _ & A & B). split; assumption.
Qed.
