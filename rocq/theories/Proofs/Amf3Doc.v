(** AMF3 Decode reads the layouts of Spec/Amf3Doc.v. *)
From Verif Require Import Base.Go Base.GoFacts Base.IO Base.Float64 Proofs.IOFacts
  Model.AmfTypes Model.Amf3 Model.Amf0 Spec.Amf Spec.AmfDoc Spec.Amf3Doc Proofs.AmfFacts Proofs.Amf0RT Proofs.Amf3Enc Proofs.Amf3RT Proofs.Amf0Doc.
Local Ltac Zify.zify_post_hook ::= Z.div_mod_to_equations.

Lemma u29_range v b : u29 v b -> 0 <= v < 536870912.
Proof. intros H. inversion H; subst; lia. Qed.
Lemma u29_nonempty v b : u29 v b -> (1 <= length b)%nat.
Proof. intros H. inversion H; cbn [length]; lia. Qed.

Lemma read_u29_any_form d v b rest e : u29 v b -> d_r d = contr (b ++ rest) e -> read_u29 d = (set_r (contr rest e) d, Ok v).
Proof.
  intros Hu Hr. unfold read_u29. inversion Hu; subst; cbn [app] in Hr.
  - erewrite dbind_ok by (eapply read_byte_contr; exact Hr). rewrite land128 by (unfold byte; lia).
    replace (v <? 128) with true by lia. rewrite Z.eqb_refl, land127, shiftl_mul by lia. unfold dret. rewrite u32_id by lia. do 2 f_equal. lia.
  - erewrite dbind_ok by (eapply read_byte_contr; exact Hr). rewrite land128 by (unfold byte; lia). replace (128 + a <? 128) with false by lia.
    cbn [Z.eqb]. step_byte. rewrite land128 by (unfold byte; lia). replace (b0 <? 128) with true by lia. cbn [Z.eqb].
    rewrite !land127, !shiftl_mul by lia. change (2 ^ 7) with 128. unfold dret, u32. do 2 f_equal. lia.
  - erewrite dbind_ok by (eapply read_byte_contr; exact Hr). rewrite land128 by (unfold byte; lia). replace (128 + a <? 128) with false by lia.
    cbn [Z.eqb]. step_byte. rewrite land128 by (unfold byte; lia). replace (128 + b0 <? 128) with false by lia. cbn [Z.eqb].
    step_byte. rewrite land128 by (unfold byte; lia). replace (c <? 128) with true by lia. cbn [Z.eqb].
    rewrite !land127, !shiftl_mul by lia. change (2 ^ 7) with 128. unfold dret, u32. do 2 f_equal. lia.
  - erewrite dbind_ok by (eapply read_byte_contr; exact Hr). rewrite land128 by (unfold byte; lia). replace (128 + a <? 128) with false by lia.
    cbn [Z.eqb]. step_byte. rewrite land128 by (unfold byte; lia). replace (128 + b0 <? 128) with false by lia. cbn [Z.eqb].
    step_byte. rewrite land128 by (unfold byte; lia). replace (128 + c <? 128) with false by lia. cbn [Z.eqb]. step_byte.
    rewrite !land127, !shiftl_mul by lia. change (2 ^ 7) with 128. change (2 ^ 8) with 256. unfold dret, u32. do 2 f_equal. lia.
Qed.
Lemma decode_u29_form d v b rest e : u29 v b -> d_r d = contr (b ++ rest) e -> decode_u29 d = (set_r (contr rest e) d, Ok (v mod 2 =? 0, v / 2)).
Proof.
  intros Hu Hr. unfold decode_u29. erewrite dbind_ok by (eapply read_u29_any_form; [exact Hu|exact Hr]). unfold dret.
  change 1 with (2 ^ 1 - 1) at 1. rewrite land_ones, shiftr_div by lia. reflexivity.
Qed.
Lemma du29_val d k b rest e : u29 (2 * k + 1) b -> d_r d = contr (b ++ rest) e -> decode_u29 d = (set_r (contr rest e) d, Ok (false, k)).
Proof.
  intros Hu Hr. rewrite (decode_u29_form _ _ _ _ _ Hu Hr). replace ((2 * k + 1) mod 2 =? 0) with false by lia. replace ((2 * k + 1) / 2) with k by lia. reflexivity.
Qed.
Lemma du29_ref d k b rest e : u29 (2 * k) b -> d_r d = contr (b ++ rest) e -> decode_u29 d = (set_r (contr rest e) d, Ok (true, k)).
Proof.
  intros Hu Hr. rewrite (decode_u29_form _ _ _ _ _ Hu Hr). replace ((2 * k) mod 2 =? 0) with true by lia. replace ((2 * k) / 2) with k by lia. reflexivity.
Qed.

Lemma string_form d st b s st' rest e : utf8vr st b s st' -> d_str3 d = st -> d_r d = contr (b ++ rest) e ->
  decode_string3 d = (set_str3 st' (set_r (contr rest e) d), Ok s).
Proof.
  intros Hv Hs Hr. unfold decode_string3. inversion Hv; subst.
  - erewrite dbind_ok by (eapply du29_ref; [eassumption|exact Hr]). cbn iota beta.
    assert (L : (i < length (d_str3 d))%nat) by (apply nth_error_Some; congruence).
    cbn [d_str3 set_r]. unfold len. replace (Z.of_nat (length (d_str3 d)) <=? Z.of_nat i) with false by lia. rewrite Nat2Z.id.
    rewrite (nth_error_nth _ _ _ H0). destruct d; reflexivity.
  - erewrite dbind_ok by (eapply (du29_val _ 0); [eassumption|exact Hr]). cbn iota beta. destruct d; reflexivity.
  - rewrite <- app_assoc in Hr. erewrite dbind_ok by (eapply du29_val; [eassumption|exact Hr]). cbn iota beta.
    assert (0 < len s) by (destruct s; [congruence|rewrite len_cons; pose proof (len_nonneg s); lia]).
    replace (len s =? 0) with false by lia. erewrite dbind_ok by (eapply read_bytes_contr; [reflexivity|lia]). reflexivity.
Qed.
Lemma utf8vr_nonempty st b s st' : utf8vr st b s st' -> (1 <= length b)%nat.
Proof. intros H. inversion H; subst; try (eapply u29_nonempty; eassumption). rewrite app_length. pose proof (u29_nonempty _ _ H1). lia. Qed.
Lemma utf8vrs_length st b ss st' : utf8vrs st b ss st' -> (length ss <= length b)%nat.
Proof. induction 1 as [|? ? ? ? ? ? ? H _ IH]; cbn [length]; [lia|]. rewrite app_length. pose proof (utf8vr_nonempty _ _ _ _ H). lia. Qed.

Lemma strings_form st b ss st' : utf8vrs st b ss st' -> forall k d rest e, (length ss <= k)%nat -> d_str3 d = st -> d_r d = contr (b ++ rest) e ->
  loop_n decode_string3 k (len ss) d = (set_str3 st' (set_r (contr rest e) d), Ok ss).
Proof.
  induction 1 as [st|st b s st1 bs ss st2 H HS IH]; intros k d rest e Hk Hs Hr.
  - subst st. cbn [app] in Hr. rewrite <- Hr. destruct k, d; reflexivity.
  - destruct k as [|k]; [cbn [length] in Hk; lia|]. cbn [loop_n]. rewrite len_cons. pose proof (len_nonneg ss).
    replace (1 + len ss <=? 0) with false by lia. rewrite <- app_assoc in Hr. erewrite dbind_ok by (eapply string_form; [exact H|exact Hs|exact Hr]).
    replace (1 + len ss - 1) with (len ss) by lia. erewrite dbind_ok by (eapply IH; [cbn [length] in Hk; lia|reflexivity|reflexivity]). destruct d; reflexivity.
Qed.

(** * Values *)
Definition plain (c : bytes * list bytes) : trait := mkTrait (fst c) false false (snd c).
Definition rel (T : tables) (d : dstate) : Prop := d_str3 d = t_strings T /\ d_trait3 d = map plain (t_classes T).

Lemma not_bit0 x b : b = 2 \/ b = 4 -> (Z.land x b =? 1) = false.
Proof.
  intros Hb. apply Z.eqb_neq. intros X. assert (Y : Z.testbit (Z.land x b) 0 = true) by (rewrite X; reflexivity).
  rewrite Z.land_spec in Y. apply andb_true_iff in Y. destruct Y as [_ Y]. destruct Hb; subst b; discriminate.
Qed.

Lemma traits_form loose T b c T' : traits3 loose T b c T' -> forall k d rest e, (length b <= k)%nat -> rel T d -> d_r d = contr (b ++ rest) e ->
  exists d1 v d', decode_u29 d = (d1, Ok (false, v)) /\ decode_trait k v d1 = (d', Ok (plain c)) /\ d_r d' = contr rest e /\
    d_heap d' = d_heap d /\ rel T' d' /\ d_obj3 d' = d_obj3 d.
Proof.
  intros H k d rest e Hk [RS RT] Hr. inversion H; subst.
  - replace (4 * Z.of_nat i + 1) with (2 * (2 * Z.of_nat i) + 1) in H0 by lia.
    eexists _, _, _. split; [eapply du29_val; [exact H0|exact Hr]|]. unfold decode_trait. change 1 with (2 ^ 1 - 1) at 1. rewrite land_ones by lia.
    replace ((2 * Z.of_nat i) mod 2 ^ 1 =? 0) with true by (change (2 ^ 1) with 2; lia). cbn [d_trait3 set_r].
    assert (L : (i < length (t_classes T'))%nat) by (apply nth_error_Some; congruence).
    rewrite shiftr_div by lia. change (2 ^ 1) with 2. replace (2 * Z.of_nat i / 2) with (Z.of_nat i) by lia. cbv zeta. rewrite RT. unfold len. rewrite map_length.
    replace (Z.of_nat (length (t_classes T')) <=? Z.of_nat i) with false by lia. rewrite Nat2Z.id.
    split; [apply f_equal2; [reflexivity|]; do 2 f_equal; apply nth_error_nth; apply map_nth_error; exact H1|]. split; [reflexivity|]. split; [reflexivity|]. split; [split; assumption|reflexivity].
  - assert (Hf : 0 <= flags < 4) by (destruct H0 as [->|[_ H0]]; lia). clear H0 H. rename H1 into Hb, H2 into H1, H3 into H2.
    replace (16 * len props + 4 * flags + 3) with (2 * (8 * len props + 2 * flags + 1) + 1) in Hb by lia.
    rewrite <- !app_assoc in Hr. eexists _, _. pose proof (len_nonneg props) as HL.
    pose proof (string_form (set_r (contr (b1 ++ b2 ++ rest) e) d) _ _ _ _ (b2 ++ rest) e H1 RS eq_refl) as E1.
    pose proof (strings_form _ _ _ _ H2 k (set_str3 st1 (set_r (contr (b2 ++ rest) e) (set_r (contr (b1 ++ b2 ++ rest) e) d))) rest e) as E2.
    eexists. split; [eapply du29_val; [exact Hb|exact Hr]|]. unfold decode_trait. change 1 with (2 ^ 1 - 1) at 2. rewrite land_ones by lia.
    replace ((8 * len props + 2 * flags + 1) mod 2 ^ 1 =? 0) with false by (change (2 ^ 1) with 2; lia). cbv zeta. rewrite !not_bit0 by auto.
    split; [|split; [|split; [|split]]].
    + erewrite dbind_ok by exact E1. rewrite shiftr_div by lia. change (2 ^ 3) with 8. replace ((8 * len props + 2 * flags + 1) / 8) with (len props) by lia.
      erewrite dbind_ok by (apply E2; [|reflexivity|reflexivity]; pose proof (utf8vrs_length _ _ _ _ H2); rewrite !app_length in Hk; lia). reflexivity.
    + reflexivity.
    + reflexivity.
    + split; [reflexivity|]. cbn [d_trait3 set_trait3 set_str3 set_r t_classes]. rewrite RT, map_app. reflexivity.
    + reflexivity.
Qed.

Scheme value3_mind := Minimality for value3 Sort Prop
  with values3_mind := Minimality for values3 Sort Prop
  with assoc3_mind := Minimality for assoc3 Sort Prop.
Combined Scheme value3_mutind from value3_mind, values3_mind, assoc3_mind.

Lemma value3_nonempty loose T b p T' : value3 loose T b p T' -> (1 <= length b)%nat.
Proof. intros H. inversion H; cbn [length]; lia. Qed.
Lemma values3_length loose T b ps T' : values3 loose T b ps T' -> (length ps <= length b)%nat.
Proof.
  revert T b ps T'. fix IH 5. intros T b ps T' H. destruct H as [|T b p T1 bs ps T2 H1 H2]; cbn [length]; [lia|].
  rewrite app_length. pose proof (value3_nonempty _ _ _ _ _ H1). pose proof (IH _ _ _ _ H2). lia.
Qed.

Definition PV (T : tables) (b : bytes) (p : pval) (T' : tables) : Prop := forall fuel d rest e, (length b < fuel)%nat -> d_r d = contr (b ++ rest) e -> rel T d ->
  exists d' v hs, dec3 fuel d = (d', Ok v) /\ d_r d' = contr rest e /\ d_heap d' = d_heap d ++ hs /\
    local_unfolds (d_heap d') (length (d_heap d)) (length (d_heap d')) v p /\ rel T' d'.
Definition PVS (T : tables) (b : bytes) (ps : list pval) (T' : tables) : Prop :=
  (forall fuel k d rest e, (length b < fuel)%nat -> (length ps <= k)%nat -> d_r d = contr (b ++ rest) e -> rel T d ->
   exists d' vs hs, loop_n (dec3 fuel) k (len ps) d = (d', Ok vs) /\ d_r d' = contr rest e /\ d_heap d' = d_heap d ++ hs /\
     (forall H, agree H (d_heap d') (length (d_heap d)) (length (d_heap d')) -> Forall2 (unfolds H) vs ps) /\ rel T' d') /\
  (forall fuel d rest e h m hs keys, (length b < fuel)%nat -> length keys = length ps -> d_r d = contr (b ++ rest) e -> rel T d -> d_heap d = h ++ m :: hs ->
   exists d' m' hs', props_loop (dec3 fuel) (length h) keys d = (d', Ok tt) /\ d_r d' = contr rest e /\ d_heap d' = h ++ m' :: hs ++ hs' /\
     (forall H qs, agree H (d_heap d') (length h + 1 + length hs) (length (d_heap d')) -> frel H m qs -> frel H m' (putall qs (combine keys ps))) /\ rel T' d').
Definition PA (T : tables) (b : bytes) (fs : list (bytes * pval)) (T' : tables) : Prop :=
  exists key st bk b', b = bk ++ b' /\ utf8vr (t_strings T) bk key st /\
  forall fuel k d rest e h m hs, (length b < fuel)%nat -> (length fs <= k)%nat -> d_r d = contr (b' ++ rest) e -> rel (with_strings st T) d -> d_heap d = h ++ m :: hs ->
   exists d' m' hs', assoc_loop (dec3 fuel) k (length h) key d = (d', Ok tt) /\ d_r d' = contr rest e /\ d_heap d' = h ++ m' :: hs ++ hs' /\
     (forall H qs, agree H (d_heap d') (length h + 1 + length hs) (length (d_heap d')) -> frel H m qs -> frel H m' (putall qs fs)) /\ rel T' d'.

Lemma leaf_value T p fuel d rest e d' v : dec3 fuel d = (d', Ok v) -> d_r d' = contr rest e -> d_heap d' = d_heap d -> rel T d' -> (forall H, unfolds H v p) ->
  exists d' v hs, dec3 fuel d = (d', Ok v) /\ d_r d' = contr rest e /\ d_heap d' = d_heap d ++ hs /\
    local_unfolds (d_heap d') (length (d_heap d)) (length (d_heap d')) v p /\ rel T d'.
Proof. intros E R Hh HT U. exists d', v, []. rewrite app_nil_r. split; [exact E|]. split; [exact R|]. split; [exact Hh|]. split; [intros H _; apply U|exact HT]. Qed.

Ltac step3 Hr := cbn [dec3]; erewrite dbind_ok by (eapply read_byte_contr; exact Hr); cbn [Z.eqb orb Pos.eqb].

(** One more member stored in the map at h: what is known of the new map. *)
Lemma store_member H h m m' hs hs1 hs' key v p fs d1h d3h qs :
  d1h = h ++ m :: (hs ++ hs1) -> d3h = h ++ m' :: (hs ++ hs1) ++ hs' ->
  local_unfolds d1h (length (h ++ m :: hs)) (length d1h) v p ->
  (forall H qs, agree H d3h (length h + 1 + length (hs ++ hs1)) (length d3h) -> frel H (map_set key v m) qs -> frel H m' (putall qs fs)) ->
  agree H d3h (length h + 1 + length hs) (length d3h) -> frel H m qs -> frel H m' (putall (put key p qs) fs).
Proof.
  intros -> -> U1 U3 HA HR. apply U3.
  - intros i Hi. apply HA. rewrite app_length in Hi. lia.
  - apply map_set_rel; [|exact HR]. apply U1. intros i Hi. rewrite !app_length in Hi. cbn [length] in Hi. rewrite ?app_length in Hi.
    rewrite HA.
    + apply nth_error_mid. rewrite ?app_length. lia.
    + rewrite !app_length. cbn [length]. rewrite !app_length. lia.
Qed.

Theorem dec3_doc loose : (forall T b p T', value3 loose T b p T' -> loose = false -> PV T b p T') /\
  (forall T b ps T', values3 loose T b ps T' -> loose = false -> PVS T b ps T') /\
  (forall T b fs T', assoc3 loose T b fs T' -> loose = false -> PA T b fs T').
Proof.
  apply value3_mutind.
  - intros T _ [|fuel] d rest e Hf Hr HT; [cbn [length] in Hf; lia|]. eapply leaf_value; [step3 Hr; reflexivity|reflexivity|reflexivity|exact HT|constructor].
  - intros T _ [|fuel] d rest e Hf Hr HT; [cbn [length] in Hf; lia|]. eapply leaf_value; [step3 Hr; reflexivity|reflexivity|reflexivity|exact HT|constructor].
  - intros T _ [|fuel] d rest e Hf Hr HT; [cbn [length] in Hf; lia|]. eapply leaf_value; [step3 Hr; reflexivity|reflexivity|reflexivity|exact HT|constructor].
  - intros T _ [|fuel] d rest e Hf Hr HT; [cbn [length] in Hf; lia|]. eapply leaf_value; [step3 Hr; reflexivity|reflexivity|reflexivity|exact HT|constructor].
  - intros T n b _ Hb _ [|fuel] d rest e Hf Hr HT; [cbn [length] in Hf; lia|].
    eapply leaf_value; [step3 Hr; erewrite dbind_ok by (eapply read_u29_any_form; [exact Hb|reflexivity]); reflexivity|reflexivity|reflexivity|exact HT|constructor].
  - intros T bits Hb _ [|fuel] d rest e Hf Hr HT; [cbn [length] in Hf; lia|].
    eapply leaf_value; [apply dec3_double; [exact Hb|exact Hr]|reflexivity|reflexivity|exact HT|constructor].
  - intros T b s st Hb _ [|fuel] d rest e Hf Hr HT; [cbn [length] in Hf; lia|]. cbn [app] in Hr.
    pose proof (string_form (set_r (contr (b ++ rest) e) d) _ _ _ _ rest e Hb (proj1 HT) eq_refl) as E.
    eapply leaf_value; [step3 Hr; erewrite dbind_ok by exact E; reflexivity|reflexivity|reflexivity|split; [reflexivity|exact (proj2 HT)]|constructor].
  - intros T m b s Hm Hb _ [|fuel] d rest e Hf Hr HT; [cbn [length] in Hf; lia|]. cbn [app] in Hr. rewrite <- app_assoc in Hr.
    assert (E : exists c, decode_xmldoc3 (set_r (contr (b ++ s ++ rest) e) d) = (set_obj3 c (set_r (contr rest e) d), Ok (VStr s))).
    { unfold decode_xmldoc3. erewrite dbind_ok by (eapply du29_val; [exact Hb|reflexivity]). cbn iota beta. pose proof (len_nonneg s). destruct (len s =? 0) eqn:E0.
      - assert (s = []) by (apply len_zero; lia). subst s. exists (d_obj3 d). destruct d; reflexivity.
      - erewrite dbind_ok by (eapply read_into_contr; [reflexivity|lia]). erewrite dbind_ok by reflexivity. eexists. reflexivity. }
    destruct E as [c E]. eapply leaf_value with (d' := set_obj3 c (set_r (contr rest e) d)) (v := VStr s); [|reflexivity|reflexivity|exact HT|constructor]. destruct Hm as [-> | ->]; step3 Hr; exact E.
  - intros T k b bits Hb Hbits _ [|fuel] d rest e Hf Hr HT; [cbn [length] in Hf; lia|]. cbn [app] in Hr. rewrite <- app_assoc in Hr.
    eapply leaf_value with (v := VTime _); [|shelve..]. step3 Hr. unfold decode_date3. erewrite dbind_ok by (eapply du29_val; [exact Hb|reflexivity]). cbn iota beta.
    erewrite dbind_ok.
    2:{ change 8 with (len (be64 bits)). erewrite read_be_contr; [|reflexivity|reflexivity]. rewrite be_val_be64, Z.mod_small by exact Hbits. reflexivity. }
    erewrite dbind_ok by reflexivity. reflexivity.
    Unshelve. all: [> reflexivity|reflexivity|exact HT|constructor].
  - (* array *) intros T b bk assoc T1 bd dense T2 Hb HA IHA HV IHV L [|fuel] d rest e Hf Hr HT; [cbn [length] in Hf; lia|].
    destruct (IHA L) as (key & st & b1 & b2 & -> & Hk & IHA'). destruct (IHV L) as [IHV' _]. cbn [app] in Hr. rewrite <- !app_assoc in Hr. cbn [length] in Hf. rewrite !app_length in Hf.
    pose proof (string_form (set_r (contr (b1 ++ b2 ++ bd ++ rest) e) d) _ _ _ _ (b2 ++ bd ++ rest) e Hk (proj1 HT) eq_refl) as E1.
    set (d1 := set_str3 st _) in E1. set (d2 := set_heap (d_heap d ++ [[]]) (set_obj3 (d_obj3 d ++ [VEcma [] None]) d1)).
    pose proof (values3_length _ _ _ _ _ HV) as LV.
    assert (LA : (length assoc <= length b1 + length b2)%nat).
    { rewrite <- app_length. clear - HA. revert HA. generalize (b1 ++ b2). intros b HA. induction HA; cbn [length]; [lia|]. rewrite !app_length. pose proof (utf8vr_nonempty _ _ _ _ H). lia. }
    destruct (IHA' fuel fuel d2 (bd ++ rest) e (d_heap d) [] []) as (d3 & m' & hs' & E3 & R3 & H3 & U3 & T3); [rewrite app_length; lia|lia|reflexivity|split; [reflexivity|exact (proj2 HT)]|reflexivity|].
    destruct (IHV' fuel fuel d3 rest e) as (d4 & vs & hs4 & E4 & R4 & H4 & U4 & T4); [lia|lia|exact R3|exact T3|].
    exists d4, (VEcma vs (Some (length (d_heap d)))), (m' :: hs' ++ hs4). split; [|split; [exact R4|split; [|split; [|exact T4]]]].
    + step3 Hr. unfold decode_array3. erewrite dbind_ok by (eapply du29_val; [exact Hb|reflexivity]). cbn iota beta. erewrite dbind_ok by exact E1. erewrite dbind_ok by reflexivity. erewrite dbind_ok by reflexivity.
      erewrite dbind_ok by exact E3. erewrite dbind_ok by exact E4. reflexivity.
    + rewrite H4, H3, <- app_assoc. reflexivity.
    + intros H HAg. rewrite H4, H3 in HAg. eapply U_ecma.
      * apply U4. intros i Hi. rewrite H4, H3. apply HAg. rewrite H4, H3, !app_length in Hi. rewrite !app_length. cbn [length app] in *. lia.
      * rewrite HAg by (rewrite !app_length; cbn [length]; lia). rewrite <- app_assoc. apply nth_error_len.
      * apply (U3 H []); [|constructor]. intros i Hi. rewrite H3 in Hi |- *. rewrite HAg.
        -- rewrite nth_error_app1 by lia. reflexivity.
        -- cbn [length] in Hi. rewrite app_length. lia.
      * apply Permutation.Permutation_refl.
  - (* object *) intros T b ty props T1 bv vs T2 Htr HV IHV HL L [|fuel] d rest e Hf Hr HT; [cbn [length] in Hf; lia|]. destruct (IHV L) as [_ IHV'].
    cbn [app] in Hr. rewrite <- !app_assoc in Hr. cbn [length] in Hf. rewrite !app_length in Hf.
    destruct (traits_form _ _ _ _ _ Htr fuel (set_r (contr (b ++ bv ++ rest) e) d) (bv ++ rest) e) as (d1 & v & d2 & E1 & E2 & R2 & H2 & T2' & _); [lia|exact HT|reflexivity|].
    cbn [d_heap set_r] in H2. set (d3 := set_heap (d_heap d ++ [[]]) (set_obj3 (d_obj3 d2 ++ [VNil]) d2)).
    destruct (IHV' fuel d3 rest e (d_heap d) [] [] props) as (d4 & m' & hs' & E4 & R4 & H4 & U4 & T4); [lia|congruence|exact R2|exact T2'|reflexivity|].
    exists d4, (VObj (length (d_heap d))), (m' :: hs'). split; [|split; [exact R4|split; [exact H4|split; [|exact T4]]]].
    + step3 Hr. unfold decode_object3. erewrite dbind_ok by exact E1. cbn iota beta. erewrite dbind_ok by exact E2. erewrite dbind_ok by reflexivity. cbn [t_ext plain].
      assert (EA : alloc (set_obj3 (d_obj3 d2 ++ [VNil]) d2) = (d3, Ok (length (d_heap d)))) by (unfold alloc, d3; cbn [d_heap set_obj3]; rewrite H2; reflexivity).
      erewrite dbind_ok by exact EA. erewrite dbind_ok by exact E4. erewrite dbind_ok by reflexivity. reflexivity.
    + intros H HAg. rewrite H4 in HAg. eapply U_obj.
      * rewrite HAg by (rewrite !app_length; cbn [length]; lia). apply nth_error_len.
      * apply (U4 H []); [|constructor]. rewrite H4. intros i Hi. apply HAg. cbn [length] in Hi. lia.
      * apply Permutation.Permutation_refl.
  - (* byte array *) intros T b s Hb _ [|fuel] d rest e Hf Hr HT; [cbn [length] in Hf; lia|]. cbn [app] in Hr. rewrite <- app_assoc in Hr.
    assert (E : exists c, decode_bytearray3 (set_r (contr (b ++ s ++ rest) e) d) = (set_obj3 c (set_r (contr rest e) d), Ok (VBytes s))).
    { unfold decode_bytearray3. erewrite dbind_ok by (eapply du29_val; [exact Hb|reflexivity]). cbn iota beta. pose proof (len_nonneg s). destruct (len s =? 0) eqn:E0.
      - assert (s = []) by (apply len_zero; lia). subst s. exists (d_obj3 d). destruct d; reflexivity.
      - erewrite dbind_ok by (eapply read_into_contr; [reflexivity|lia]). erewrite dbind_ok by reflexivity. eexists. reflexivity. }
    destruct E as [c E]. eapply leaf_value; [step3 Hr; exact E|reflexivity|reflexivity|exact HT|constructor].
  - intros; congruence.
  - intros T _. split.
    + intros fuel k d rest e Hf Hk Hr HT. exists d, [], []. split; [destruct k; reflexivity|]. split; [exact Hr|]. split; [symmetry; apply app_nil_r|]. split; [constructor|exact HT].
    + intros fuel d rest e h m hs keys Hf Hk Hr HT Hh. destruct keys; [|discriminate]. exists d, m, []. split; [reflexivity|]. split; [exact Hr|]. split; [rewrite Hh, app_nil_r; reflexivity|]. split; [intros H qs _ X; exact X|exact HT].
  - intros T b p T1 bs ps T2 H1 IH1 H2 IH2 L. destruct (IH2 L) as [IHa IHb]. specialize (IH1 L). split.
    + intros fuel k d rest e Hf Hk Hr HT. rewrite app_length in Hf. rewrite <- app_assoc in Hr. cbn [length] in Hk. destruct k as [|k]; [lia|].
      destruct (IH1 fuel d (bs ++ rest) e ltac:(lia) Hr HT) as (d1 & v & hs1 & E1 & R1 & Hh1 & U1 & HT1).
      destruct (IHa fuel k d1 rest e ltac:(lia) ltac:(lia) R1 HT1) as (d2 & vs & hs2 & E2 & R2 & Hh2 & U2 & HT2).
      exists d2, (v :: vs), (hs1 ++ hs2). split; [|split; [exact R2|split; [rewrite Hh2, Hh1, app_assoc; reflexivity|split; [|exact HT2]]]].
      * cbn [loop_n]. rewrite len_cons. pose proof (len_nonneg ps). replace (1 + len ps <=? 0) with false by lia. erewrite dbind_ok by exact E1.
        replace (1 + len ps - 1) with (len ps) by lia. erewrite dbind_ok by exact E2. reflexivity.
      * intros H HA. constructor.
        -- apply U1. intros i Hi. rewrite HA; [|rewrite Hh2, app_length; lia]. rewrite Hh2. rewrite nth_error_app1 by lia. reflexivity.
        -- apply U2. intros i Hi. apply HA. rewrite Hh1, app_length in Hi. lia.
    + intros fuel d rest e h m hs keys Hf Hk Hr HT Hh. rewrite app_length in Hf. rewrite <- app_assoc in Hr. destruct keys as [|key keys]; [discriminate|]. cbn [length] in Hk.
      destruct (IH1 fuel d (bs ++ rest) e ltac:(lia) Hr HT) as (d1 & v & hs1 & E1 & R1 & Hh1 & U1 & HT1). rewrite Hh in Hh1, U1. rewrite <- app_assoc in Hh1. cbn [app] in Hh1.
      set (d2 := set_heap (upd_nth (length h) (map_set key v) (d_heap d1)) d1).
      assert (Hd2 : d_heap d2 = h ++ (map_set key v m) :: (hs ++ hs1)) by (unfold d2; cbn [d_heap set_heap]; rewrite Hh1, upd_nth_app; reflexivity).
      destruct (IHb fuel d2 rest e h (map_set key v m) (hs ++ hs1) keys) as (d3 & m' & hs' & E3 & R3 & Hh3 & U3 & HT3); [lia|lia|exact R1|exact HT1|exact Hd2|].
      exists d3, m', (hs1 ++ hs'). split; [|split; [exact R3|split; [rewrite Hh3, <- !app_assoc; reflexivity|split; [|exact HT3]]]].
      * cbn [props_loop]. erewrite dbind_ok by exact E1. erewrite dbind_ok by reflexivity. exact E3.
      * intros H qs HA HR. cbn [combine putall fold_left fst snd]. eapply store_member; [exact Hh1|exact Hh3|exact U1|exact U3|exact HA|exact HR].
  - intros T b st Hb _. exists [], st, b, []. rewrite app_nil_r. split; [reflexivity|]. split; [exact Hb|].
    intros fuel k d rest e h m hs Hf Hk Hr HT Hh. exists d, m, []. split; [destruct k; reflexivity|]. split; [exact Hr|]. split; [rewrite Hh, app_nil_r; reflexivity|]. split; [intros H qs _ X; exact X|exact HT].
  - intros T bk k st bv p T1 bs fs T2 Hk Hne H1 IH1 H2 IH2 L. specialize (IH1 L). destruct (IH2 L) as (key2 & st2 & b1 & b2 & -> & Hk2 & IHb).
    exists k, st, bk, (bv ++ b1 ++ b2). split; [reflexivity|]. split; [exact Hk|].
    intros fuel n d rest e h m hs Hf Hn Hr HT Hh. rewrite !app_length in Hf. rewrite <- !app_assoc in Hr. cbn [length] in Hn. destruct n as [|n]; [lia|].
    destruct (IH1 fuel d (b1 ++ b2 ++ rest) e ltac:(lia) Hr HT) as (d1 & v & hs1 & E1 & R1 & Hh1 & U1 & HT1). rewrite Hh in Hh1, U1. rewrite <- app_assoc in Hh1. cbn [app] in Hh1.
    set (d2 := set_heap (upd_nth (length h) (map_set k v) (d_heap d1)) d1).
    assert (Hd2 : d_heap d2 = h ++ (map_set k v m) :: (hs ++ hs1)) by (unfold d2; cbn [d_heap set_heap]; rewrite Hh1, upd_nth_app; reflexivity).
    pose proof (string_form d2 _ _ _ _ (b2 ++ rest) e Hk2 (proj1 HT1) R1) as E2. set (d3 := set_str3 st2 _) in E2.
    destruct (IHb fuel n d3 rest e h (map_set k v m) (hs ++ hs1)) as (d4 & m' & hs' & E4 & R4 & Hh4 & U4 & HT4); [rewrite app_length; lia|lia|reflexivity|split; [reflexivity|exact (proj2 HT1)]|exact Hd2|].
    exists d4, m', (hs1 ++ hs'). split; [|split; [exact R4|split; [rewrite Hh4, <- !app_assoc; reflexivity|split; [|exact HT4]]]].
    + cbn [assoc_loop]. destruct k as [|k0 k]; [congruence|]. erewrite dbind_ok by exact E1. erewrite dbind_ok by reflexivity. erewrite dbind_ok by exact E2. exact E4.
    + intros H qs HA HR. cbn [putall fold_left fst snd]. eapply store_member; [exact Hh1|exact Hh4|exact U1|exact U4|exact HA|exact HR].
Qed.
