(** AMF3 Decode reads the layouts of Spec/Amf3Ref.v, in the reading of the library. *)
From Verif Require Import Base.Go Base.GoFacts Base.IO Base.Float64 Proofs.IOFacts
  Model.AmfTypes Model.Amf3 Model.Amf0 Spec.Amf Spec.AmfDoc Spec.Amf3Doc Spec.Amf3Ref Proofs.AmfFacts Proofs.Amf0RT Proofs.Amf3Enc Proofs.Amf3RT Proofs.Amf0Doc Proofs.Amf3Doc Proofs.Amf0More Proofs.AmfTame Proofs.Amf3More Proofs.AmfHeap.
Local Ltac Zify.zify_post_hook ::= Z.div_mod_to_equations.

Definition relw (W : world) (d : dstate) : Prop := rel (w_tables W) d /\ Forall2 holds (w_places W) (d_obj3 d).
Lemma relw_knows W d : relw W d <-> knows W d.
Proof. unfold relw, rel, knows. tauto. Qed.

Lemma holds_unfolds p v H : holds (Some p) v -> unfolds H v p.
Proof. intros X. inversion X; subst; constructor. constructor. Qed.
Lemma places_nth W d i p : Forall2 holds (w_places W) (d_obj3 d) -> nth_error (w_places W) i = Some (Some p) -> exists v, nth_error (d_obj3 d) i = Some v /\ holds (Some p) v.
Proof.
  generalize (w_places W) (d_obj3 d). intros l l' H. revert i. induction H as [|a b l l' Hab _ IH]; intros [|i] E; cbn in *; try discriminate; [|apply IH, E]. inversion E; subst. eauto.
Qed.
Lemma places_nth_val W d i v : Forall2 holds (w_places W) (d_obj3 d) -> nth_error (d_obj3 d) i = Some v -> exists p, nth_error (w_places W) i = Some (Some p) /\ holds (Some p) v.
Proof.
  generalize (w_places W) (d_obj3 d). intros l l' H. revert i. induction H as [|a b l l' Hab _ IH]; intros [|i] E; cbn in *; try discriminate; [|apply IH, E]. inversion E; subst. inversion Hab; subst; eauto.
Qed.
Lemma places_push l l' o v : Forall2 holds l l' -> holds o v -> Forall2 holds (l ++ [o]) (l' ++ [v]).
Proof. intros H1 H2. apply Forall2_app; [exact H1|]. constructor; [exact H2|constructor]. Qed.

Scheme value3r_mind := Minimality for value3r Sort Prop
  with values3r_mind := Minimality for values3r Sort Prop
  with assoc3r_mind := Minimality for assoc3r Sort Prop.
Combined Scheme value3r_mutind from value3r_mind, values3r_mind, assoc3r_mind.

Lemma may_miss_lt r s c : may_miss r s c -> (c = 0 \/ c < length s)%nat.
Proof. destruct r; cbn; intros; tauto. Qed.
Lemma cut_lengths r : (forall W b c p W', value3r r W b c p W' -> (c < length b)%nat) /\
  (forall W b c ps W', values3r r W b c ps W' -> (length ps + c <= length b)%nat) /\
  (forall W b fs W', assoc3r r W b fs W' -> (length fs <= length b)%nat).
Proof.
  apply value3r_mutind; intros; cbn [length]; rewrite ?app_length; try (match goal with H : may_miss _ _ _ |- _ => apply may_miss_lt in H end); try lia.
Qed.

(** Splitting an input with missing bytes. *)
Lemma cut_split (s : bytes) c1 c2 b bs rest : s ++ repeat 0 (c1 + c2) = b ++ bs ++ rest -> (c1 + c2 = 0)%nat \/ rest = [] -> (c2 <= length bs)%nat -> c1 = 0%nat \/ bs = [] ->
  exists s2, s ++ repeat 0 c1 = b ++ s2 /\ (c1 = 0%nat \/ s2 = []) /\ s2 ++ repeat 0 c2 = bs ++ rest /\ (c2 = 0%nat \/ rest = []).
Proof.
  intros E K L K1. destruct K1 as [->| ->].
  - cbn [Nat.add repeat] in *. assert (LL : (length b <= length s)%nat).
    { pose proof (f_equal (@length Z) E) as X. rewrite !app_length, repeat_length in X. lia. }
    assert (P : s = b ++ skipn (length b) s).
    { rewrite <- (firstn_skipn (length b) s) at 1. f_equal. pose proof (f_equal (firstn (length b)) E) as X. rewrite !firstn_app, Nat.sub_diag in X. replace (length b - length s)%nat with 0%nat in X by lia. cbn [firstn] in X. rewrite !app_nil_r, firstn_all in X. exact X. }
    exists (skipn (length b) s). split; [rewrite app_nil_r; exact P|]. split; [left; reflexivity|]. split; [|tauto].
    rewrite P in E. rewrite <- app_assoc in E. apply app_inv_head in E. exact E.
  - cbn [length] in L. assert (c2 = 0%nat) by lia. subst c2. rewrite Nat.add_0_r in *. exists rest. cbn [app] in *. split; [exact E|]. split; [exact K|]. split; [apply app_nil_r|left; reflexivity].
Qed.
Lemma cut_none (s : bytes) x : s ++ repeat 0 0 = x -> s = x.
Proof. cbn. rewrite app_nil_r. auto. Qed.

Definition RV (W : world) (b : bytes) (c : nat) (p : pval) (W' : world) : Prop := forall fuel d s rest e, (length b < fuel + c)%nat -> s ++ repeat 0 c = b ++ rest -> c = 0%nat \/ rest = [] -> d_r d = contr s e -> relw W d ->
  exists d' v hs, dec3 fuel d = (d', Ok v) /\ d_r d' = contr rest e /\ d_heap d' = d_heap d ++ hs /\
    local_unfolds (d_heap d') (length (d_heap d)) (length (d_heap d')) v p /\ relw W' d'.
Definition RVS (W : world) (b : bytes) (c : nat) (ps : list pval) (W' : world) : Prop :=
  (forall fuel k d s rest e, (length b < fuel + c)%nat -> (length ps <= k)%nat -> s ++ repeat 0 c = b ++ rest -> c = 0%nat \/ rest = [] -> d_r d = contr s e -> relw W d ->
   exists d' vs hs, loop_n (dec3 fuel) k (len ps) d = (d', Ok vs) /\ d_r d' = contr rest e /\ d_heap d' = d_heap d ++ hs /\
     (forall H, agree H (d_heap d') (length (d_heap d)) (length (d_heap d')) -> Forall2 (unfolds H) vs ps) /\ relw W' d') /\
  (forall fuel d s rest e h m hs keys, (length b < fuel + c)%nat -> length keys = length ps -> s ++ repeat 0 c = b ++ rest -> c = 0%nat \/ rest = [] -> d_r d = contr s e -> relw W d -> d_heap d = h ++ m :: hs ->
   exists d' m' hs', props_loop (dec3 fuel) (length h) keys d = (d', Ok tt) /\ d_r d' = contr rest e /\ d_heap d' = h ++ m' :: hs ++ hs' /\
     (forall H qs, agree H (d_heap d') (length h + 1 + length hs) (length (d_heap d')) -> frel H m qs -> frel H m' (putall qs (combine keys ps))) /\ relw W' d').
Definition RA (W : world) (b : bytes) (fs : list (bytes * pval)) (W' : world) : Prop :=
  exists key st bk b', b = bk ++ b' /\ utf8vr (t_strings (w_tables W)) bk key st /\
  forall fuel k d rest e h m hs, (length b < fuel)%nat -> (length fs <= k)%nat -> d_r d = contr (b' ++ rest) e -> relw (with_tables (with_strings st (w_tables W)) W) d -> d_heap d = h ++ m :: hs ->
   exists d' m' hs', assoc_loop (dec3 fuel) k (length h) key d = (d', Ok tt) /\ d_r d' = contr rest e /\ d_heap d' = h ++ m' :: hs ++ hs' /\
     (forall H qs, agree H (d_heap d') (length h + 1 + length hs) (length (d_heap d')) -> frel H m qs -> frel H m' (putall qs fs)) /\ relw W' d'.

Lemma leaf_ref W p fuel d rest e d' v : dec3 fuel d = (d', Ok v) -> d_r d' = contr rest e -> d_heap d' = d_heap d -> relw W d' -> (forall H, unfolds H v p) ->
  exists d' v hs, dec3 fuel d = (d', Ok v) /\ d_r d' = contr rest e /\ d_heap d' = d_heap d ++ hs /\
    local_unfolds (d_heap d') (length (d_heap d)) (length (d_heap d')) v p /\ relw W d'.
Proof. intros E R Hh HT U. exists d', v, []. rewrite app_nil_r. split; [exact E|]. split; [exact R|]. split; [exact Hh|]. split; [intros H _; apply U|exact HT]. Qed.

(** A counted read of a text whose last c bytes are missing. *)
Lemma read_into_cut d t s c rest e : d_r d = contr t e -> t ++ repeat 0 c = s ++ rest -> c = 0%nat \/ rest = [] -> (c < length s)%nat ->
  read_into (len s) d = (set_r (contr rest e) d, Ok s).
Proof.
  intros Hr E K L. assert (LS : 0 < len s) by (unfold len; lia). destruct K as [->| ->].
  - apply cut_none in E. subst t. apply read_into_contr; [exact Hr|exact LS].
  - rewrite app_nil_r in E. assert (LT : len s = len t + Z.of_nat c) by (subst s; unfold len; rewrite app_length, repeat_length; lia).
    destruct t as [|x t]; [pose proof (f_equal (@length Z) E) as X; cbn [app] in X; rewrite repeat_length in X; lia|].
    unfold read_into. rewrite Hr. unfold read. cbn [contr r_chunks r_end r_with]. replace (len s =? 0) with false by lia. replace (len (x :: t) <=? len s) with true by lia.
    cbn [fst snd]. replace (Z.to_nat (len s - len (x :: t))) with c by lia. rewrite E. reflexivity.
Qed.

Lemma ref_value d m i b rest e p : Forall2 holds (w_places p) (d_obj3 d) -> u29 (2 * Z.of_nat i) b -> forall q, nth_error (w_places p) i = Some (Some q) -> refers Library m q ->
  d_r d = contr (m :: b ++ rest) e -> forall fuel, exists v, dec3 (S fuel) d = (set_r (contr rest e) d, Ok v) /\ forall H, unfolds H v q.
Proof.
  intros HP Hu q Hn HR Hr fuel. destruct (places_nth _ _ _ _ HP Hn) as (v & Hv & HH). exists v. split; [|intros H; apply holds_unfolds, HH].
  assert (EO : forall r, obj3_ref (Z.of_nat i) (set_r r d) = (set_r r d, Ok v)).
  { intros r. unfold obj3_ref. cbn [d_obj3 set_r]. assert (L : (i < length (d_obj3 d))%nat) by (apply nth_error_Some; congruence). unfold len. replace (Z.of_nat (length (d_obj3 d)) <=? Z.of_nat i) with false by lia.
    rewrite Nat2Z.id, (nth_error_nth _ _ _ Hv). reflexivity. }
  destruct HR as [([->| ->] & s & ->)|[(-> & s & ->)|[(-> & l & fs & ->)|[(-> & _)|(-> & s & ->)]]]];
    (step3 Hr; unfold decode_xmldoc3, decode_date3, decode_array3, decode_object3, decode_bytearray3; erewrite dbind_ok by (eapply du29_ref; [exact Hu|reflexivity]); cbn iota beta; rewrite set_r_set_r);
    try (erewrite dbind_ok by apply EO; inversion HH; subst; reflexivity).
  apply EO.
Qed.

Theorem dec3_ref r : (forall W b c p W', value3r r W b c p W' -> r = Library -> RV W b c p W') /\
  (forall W b c ps W', values3r r W b c ps W' -> r = Library -> RVS W b c ps W') /\
  (forall W b fs W', assoc3r r W b fs W' -> r = Library -> RA W b fs W').
Proof.
  destruct (cut_lengths Library) as (LV & LVS & LA).
  apply value3r_mutind.
  - intros W _ [|fuel] d s rest e Hf Es _ Hr HT; [cbn [length] in Hf; lia|]. apply cut_none in Es. subst s. eapply leaf_ref; [step3 Hr; reflexivity|reflexivity|reflexivity|exact HT|constructor].
  - intros W _ [|fuel] d s rest e Hf Es _ Hr HT; [cbn [length] in Hf; lia|]. apply cut_none in Es. subst s. eapply leaf_ref; [step3 Hr; reflexivity|reflexivity|reflexivity|exact HT|constructor].
  - intros W _ [|fuel] d s rest e Hf Es _ Hr HT; [cbn [length] in Hf; lia|]. apply cut_none in Es. subst s. eapply leaf_ref; [step3 Hr; reflexivity|reflexivity|reflexivity|exact HT|constructor].
  - intros W _ [|fuel] d s rest e Hf Es _ Hr HT; [cbn [length] in Hf; lia|]. apply cut_none in Es. subst s. eapply leaf_ref; [step3 Hr; reflexivity|reflexivity|reflexivity|exact HT|constructor].
  - intros W n b _ Hb _ [|fuel] d s rest e Hf Es _ Hr HT; [cbn [length] in Hf; lia|]. apply cut_none in Es. subst s.
    eapply leaf_ref; [step3 Hr; erewrite dbind_ok by (eapply read_u29_any_form; [exact Hb|reflexivity]); reflexivity|reflexivity|reflexivity|exact HT|constructor].
  - intros W bits Hb _ [|fuel] d s rest e Hf Es _ Hr HT; [cbn [length] in Hf; lia|]. apply cut_none in Es. subst s.
    eapply leaf_ref; [apply dec3_double; [exact Hb|exact Hr]|reflexivity|reflexivity|exact HT|constructor].
  - intros W b t st Hb _ [|fuel] d s rest e Hf Es _ Hr HT; [cbn [length] in Hf; lia|]. apply cut_none in Es. subst s. cbn [app] in Hr. destruct HT as [HT HP].
    pose proof (string_form (set_r (contr (b ++ rest) e) d) _ _ _ _ rest e Hb (proj1 HT) eq_refl) as E.
    eapply leaf_ref; [step3 Hr; erewrite dbind_ok by exact E; reflexivity|reflexivity|reflexivity|split; [split; [reflexivity|exact (proj2 HT)]|exact HP]|constructor].
  - intros W m b t c Hm Hb Hc -> [|fuel] d s rest e Hf Es K Hr HT; [cbn [length] in Hf; rewrite app_length in Hf; cbn in Hc; lia|].
    change (m :: b ++ t) with ((m :: b) ++ t) in Es. rewrite <- app_assoc in Es. cbn [may_miss] in Hc. destruct (cut_split s 0 c (m :: b) t rest Es K ltac:(lia) ltac:(auto)) as (s2 & E1 & _ & E2 & _). apply cut_none in E1. subst s. cbn [app] in Hr. destruct HT as [HT HP].
    assert (E : exists d1, decode_xmldoc3 (set_r (contr (b ++ s2) e) d) = (d1, Ok (VStr t)) /\ d_r d1 = contr rest e /\ d_heap d1 = d_heap d /\ relw (entered Library t (PStr t) W) d1).
    { unfold decode_xmldoc3. erewrite dbind_ok by (eapply du29_val; [exact Hb|reflexivity]). cbn iota beta. destruct t as [|x t].
      - cbn [length] in Hc. assert (c = 0%nat) by lia. subst c. apply cut_none in E2. subst s2. eexists. split; [reflexivity|]. split; [reflexivity|]. split; [reflexivity|]. split; [exact HT|exact HP].
      - assert (N : len (x :: t) =? 0 = false) by (rewrite len_cons; pose proof (len_nonneg t); lia). rewrite N.
        erewrite dbind_ok by (eapply read_into_cut with (c := c); [reflexivity|exact E2|exact K|cbn [length] in *; lia]). erewrite dbind_ok by reflexivity.
        eexists. split; [reflexivity|]. split; [reflexivity|]. split; [reflexivity|]. split; [exact HT|]. cbn [entered place w_places d_obj3 set_obj3 set_r]. apply places_push; [exact HP|constructor]. }
    destruct E as (d1 & E & R1 & H1 & T1). eapply leaf_ref with (d' := d1) (v := VStr t); [destruct Hm as [-> | ->]; step3 Hr; exact E|exact R1|exact H1|exact T1|constructor].
  - intros W k b bits p Hb Hbits -> _ [|fuel] d s rest e Hf Es _ Hr HT; [cbn [length] in Hf; lia|]. apply cut_none in Es. subst s. cbn [app] in Hr. rewrite <- app_assoc in Hr. destruct HT as [HT HP].
    eapply leaf_ref with (v := VTime _); [|shelve..]. step3 Hr. unfold decode_date3. erewrite dbind_ok by (eapply du29_val; [exact Hb|reflexivity]). cbn iota beta.
    erewrite dbind_ok.
    2:{ change 8 with (len (be64 bits)). erewrite read_be_contr; [|reflexivity|reflexivity]. rewrite be_val_be64, Z.mod_small by exact Hbits. reflexivity. }
    erewrite dbind_ok by reflexivity. reflexivity.
    Unshelve. all: [> reflexivity|reflexivity|split; [exact HT|apply places_push; [exact HP|constructor]]|constructor].
  - (* array *) intros W b bk assoc W1 bd c dense W2 p Hb -> HA IHA HV IHV L [|fuel] d s rest e Hf Es K Hr HT.
    { cbn [length] in Hf. rewrite !app_length in Hf. subst r. pose proof (LVS _ _ _ _ _ HV). lia. }
    destruct (IHA L) as (key & st & b1 & b2 & -> & Hk & IHA'). destruct (IHV L) as [IHV' _]. subst r. pose proof (LVS _ _ _ _ _ HV) as LB. pose proof (LA _ _ _ _ HA) as LAS.
    replace ((9 :: b ++ (b1 ++ b2) ++ bd) ++ rest) with ((9 :: b ++ b1 ++ b2) ++ bd ++ rest) in Es by (cbn [app]; rewrite <- !app_assoc; reflexivity).
    destruct (cut_split s 0 c (9 :: b ++ b1 ++ b2) bd rest Es K ltac:(lia) ltac:(auto)) as (s2 & E1 & _ & E2 & _). apply cut_none in E1. subst s. cbn [app] in Hr. rewrite <- !app_assoc in Hr. cbn [length] in Hf. rewrite !app_length in Hf.
    destruct HT as [HT HP]. cbn [w_tables begun place] in Hk.
    pose proof (string_form (set_r (contr (b1 ++ b2 ++ s2) e) d) _ _ _ _ (b2 ++ s2) e Hk (proj1 HT) eq_refl) as EK.
    set (d1 := set_str3 st _) in EK. set (d2 := set_heap (d_heap d ++ [[]]) (set_obj3 (d_obj3 d ++ [VEcma [] None]) d1)).
    destruct (IHA' fuel fuel d2 s2 e (d_heap d) [] []) as (d3 & m' & hs' & E3 & R3 & H3 & U3 & T3); [rewrite app_length; lia|rewrite app_length in LAS; lia|reflexivity| |reflexivity|].
    { split; [split; [reflexivity|exact (proj2 HT)]|]. cbn [w_places with_tables begun place]. apply places_push; [exact HP|constructor]. }
    destruct (IHV' fuel fuel d3 s2 rest e) as (d4 & vs & hs4 & E4 & R4 & H4 & U4 & T4); [lia|lia|exact E2|exact K|exact R3|exact T3|].
    exists d4, (VEcma vs (Some (length (d_heap d)))), (m' :: hs' ++ hs4). split; [|split; [exact R4|split; [|split; [|exact T4]]]].
    + step3 Hr. unfold decode_array3. erewrite dbind_ok by (eapply du29_val; [exact Hb|reflexivity]). cbn iota beta. erewrite dbind_ok by exact EK. erewrite dbind_ok by reflexivity. erewrite dbind_ok by reflexivity.
      erewrite dbind_ok by exact E3. erewrite dbind_ok by exact E4. reflexivity.
    + rewrite H4, H3, <- app_assoc. reflexivity.
    + intros H HAg. rewrite H4, H3 in HAg. eapply U_ecma.
      * apply U4. intros i Hi. rewrite H4, H3. apply HAg. rewrite H4, H3, !app_length in Hi. rewrite !app_length. cbn [length app] in *. lia.
      * rewrite HAg by (rewrite !app_length; cbn [length]; lia). rewrite <- app_assoc. apply nth_error_len.
      * apply (U3 H []); [|constructor]. intros i Hi. rewrite H3 in Hi |- *. rewrite HAg.
        -- rewrite nth_error_app1 by lia. reflexivity.
        -- cbn [length] in Hi. rewrite app_length. lia.
      * apply Permutation.Permutation_refl.
  - (* object *) intros W b ty props T1 bv c vs W2 p Htr -> HV IHV HL L [|fuel] d s rest e Hf Es K Hr HT.
    { cbn [length] in Hf. rewrite !app_length in Hf. subst r. pose proof (LVS _ _ _ _ _ HV). lia. }
    destruct (IHV L) as [_ IHV']. subst r. pose proof (LVS _ _ _ _ _ HV) as LB.
    replace ((10 :: b ++ bv) ++ rest) with ((10 :: b) ++ bv ++ rest) in Es by (cbn [app]; rewrite <- !app_assoc; reflexivity).
    destruct (cut_split s 0 c (10 :: b) bv rest Es K ltac:(lia) ltac:(auto)) as (s2 & E1' & _ & E2' & _). apply cut_none in E1'. subst s. cbn [app] in Hr. cbn [length] in Hf. rewrite !app_length in Hf. destruct HT as [HT HP].
    destruct (traits_form _ _ _ _ _ Htr fuel (set_r (contr (b ++ s2) e) d) s2 e) as (d1 & v & d2 & E1 & E2 & R2 & H2 & T2' & O2); [lia|exact HT|reflexivity|].
    cbn [d_heap d_obj3 set_r] in H2, O2. set (d3 := set_heap (d_heap d ++ [[]]) (set_obj3 (d_obj3 d2 ++ [VNil]) d2)).
    destruct (IHV' fuel d3 s2 rest e (d_heap d) [] [] props) as (d4 & m' & hs' & E4 & R4 & H4 & U4 & T4); [lia|congruence|exact E2'|exact K|exact R2| |reflexivity|].
    { split; [exact T2'|]. cbn [w_places with_tables begun place d3 set_heap set_obj3 d_obj3]. rewrite O2. apply places_push; [exact HP|constructor]. }
    exists d4, (VObj (length (d_heap d))), (m' :: hs'). split; [|split; [exact R4|split; [exact H4|split; [|exact T4]]]].
    + step3 Hr. unfold decode_object3. erewrite dbind_ok by exact E1. cbn iota beta. erewrite dbind_ok by exact E2. erewrite dbind_ok by reflexivity. cbn [t_ext plain].
      assert (EA : alloc (set_obj3 (d_obj3 d2 ++ [VNil]) d2) = (d3, Ok (length (d_heap d)))) by (unfold alloc, d3; cbn [d_heap set_obj3]; rewrite H2; reflexivity).
      erewrite dbind_ok by exact EA. erewrite dbind_ok by exact E4. erewrite dbind_ok by reflexivity. reflexivity.
    + intros H HAg. rewrite H4 in HAg. eapply U_obj.
      * rewrite HAg by (rewrite !app_length; cbn [length]; lia). apply nth_error_len.
      * apply (U4 H []); [|constructor]. rewrite H4. intros i Hi. apply HAg. cbn [length] in Hi. lia.
      * apply Permutation.Permutation_refl.
  - (* byte array *) intros W b t c Hb Hc -> [|fuel] d s rest e Hf Es K Hr HT; [cbn [length] in Hf; rewrite app_length in Hf; cbn in Hc; lia|].
    change (12 :: b ++ t) with ((12 :: b) ++ t) in Es. rewrite <- app_assoc in Es. cbn [may_miss] in Hc. destruct (cut_split s 0 c (12 :: b) t rest Es K ltac:(lia) ltac:(auto)) as (s2 & E1 & _ & E2 & _). apply cut_none in E1. subst s. cbn [app] in Hr. destruct HT as [HT HP].
    assert (E : exists d1, decode_bytearray3 (set_r (contr (b ++ s2) e) d) = (d1, Ok (VBytes t)) /\ d_r d1 = contr rest e /\ d_heap d1 = d_heap d /\ relw (entered Library t (PBytes t) W) d1).
    { unfold decode_bytearray3. erewrite dbind_ok by (eapply du29_val; [exact Hb|reflexivity]). cbn iota beta. destruct t as [|x t].
      - cbn [length] in Hc. assert (c = 0%nat) by lia. subst c. apply cut_none in E2. subst s2. eexists. split; [reflexivity|]. split; [reflexivity|]. split; [reflexivity|]. split; [exact HT|exact HP].
      - assert (N : len (x :: t) =? 0 = false) by (rewrite len_cons; pose proof (len_nonneg t); lia). rewrite N.
        erewrite dbind_ok by (eapply read_into_cut with (c := c); [reflexivity|exact E2|exact K|cbn [length] in *; lia]). erewrite dbind_ok by reflexivity.
        eexists. split; [reflexivity|]. split; [reflexivity|]. split; [reflexivity|]. split; [exact HT|]. cbn [entered place w_places d_obj3 set_obj3 set_r]. apply places_push; [exact HP|constructor]. }
    destruct E as (d1 & E & R1 & H1 & T1). eapply leaf_ref with (d' := d1) (v := VBytes t); [step3 Hr; exact E|exact R1|exact H1|exact T1|constructor].
  - (* reference *) intros W m i b p Hu Hn HR -> [|fuel] d s rest e Hf Es _ Hr HT; [cbn [length] in Hf; lia|]. apply cut_none in Es. subst s. cbn [app] in Hr.
    destruct (ref_value d m i b rest e W (proj2 HT) Hu p Hn HR Hr fuel) as (v & E & U). eapply leaf_ref; [exact E|reflexivity|reflexivity|exact HT|exact U].
  - intros W _. split.
    + intros fuel k d s rest e Hf Hk Es _ Hr HT. apply cut_none in Es. subst s. exists d, [], []. split; [destruct k; reflexivity|]. split; [exact Hr|]. split; [symmetry; apply app_nil_r|]. split; [constructor|exact HT].
    + intros fuel d s rest e h m hs keys Hf Hk Es _ Hr HT Hh. apply cut_none in Es. subst s. destruct keys; [|discriminate]. exists d, m, []. split; [reflexivity|]. split; [exact Hr|]. split; [rewrite Hh, app_nil_r; reflexivity|]. split; [intros H qs _ X; exact X|exact HT].
  - intros W b c1 p W1 bs c2 ps W2 H1 IH1 H2 IH2 HC L. destruct (IH2 L) as [IHa IHb]. specialize (IH1 L). subst r. pose proof (LV _ _ _ _ _ H1) as L1. pose proof (LVS _ _ _ _ _ H2) as L2. split.
    + intros fuel k d s rest e Hf Hk Es K Hr HT. rewrite app_length in Hf. rewrite <- app_assoc in Es. cbn [length] in Hk. destruct k as [|k]; [lia|].
      destruct (cut_split s c1 c2 b bs rest Es K ltac:(lia) HC) as (s2 & X1 & K1 & X2 & K2).
      destruct (IH1 fuel d s s2 e ltac:(lia) X1 K1 Hr HT) as (d1 & v & hs1 & E1 & R1 & Hh1 & U1 & HT1).
      destruct (IHa fuel k d1 s2 rest e ltac:(lia) ltac:(lia) X2 K2 R1 HT1) as (d2 & vs & hs2 & E2 & R2 & Hh2 & U2 & HT2).
      exists d2, (v :: vs), (hs1 ++ hs2). split; [|split; [exact R2|split; [rewrite Hh2, Hh1, app_assoc; reflexivity|split; [|exact HT2]]]].
      * cbn [loop_n]. rewrite len_cons. pose proof (len_nonneg ps). replace (1 + len ps <=? 0) with false by lia. erewrite dbind_ok by exact E1.
        replace (1 + len ps - 1) with (len ps) by lia. erewrite dbind_ok by exact E2. reflexivity.
      * intros H HA. constructor.
        -- apply U1. intros i Hi. rewrite HA; [|rewrite Hh2, app_length; lia]. rewrite Hh2. rewrite nth_error_app1 by lia. reflexivity.
        -- apply U2. intros i Hi. apply HA. rewrite Hh1, app_length in Hi. lia.
    + intros fuel d s rest e h m hs keys Hf Hk Es K Hr HT Hh. rewrite app_length in Hf. rewrite <- app_assoc in Es. destruct keys as [|key keys]; [discriminate|]. cbn [length] in Hk.
      destruct (cut_split s c1 c2 b bs rest Es K ltac:(lia) HC) as (s2 & X1 & K1 & X2 & K2).
      destruct (IH1 fuel d s s2 e ltac:(lia) X1 K1 Hr HT) as (d1 & v & hs1 & E1 & R1 & Hh1 & U1 & HT1). rewrite Hh in Hh1, U1. rewrite <- app_assoc in Hh1. cbn [app] in Hh1.
      set (d2 := set_heap (upd_nth (length h) (map_set key v) (d_heap d1)) d1).
      assert (Hd2 : d_heap d2 = h ++ (map_set key v m) :: (hs ++ hs1)) by (unfold d2; cbn [d_heap set_heap]; rewrite Hh1, upd_nth_app; reflexivity).
      destruct (IHb fuel d2 s2 rest e h (map_set key v m) (hs ++ hs1) keys) as (d3 & m' & hs' & E3 & R3 & Hh3 & U3 & HT3); [lia|lia|exact X2|exact K2|exact R1|exact HT1|exact Hd2|].
      exists d3, m', (hs1 ++ hs'). split; [|split; [exact R3|split; [rewrite Hh3, <- !app_assoc; reflexivity|split; [|exact HT3]]]].
      * cbn [props_loop]. erewrite dbind_ok by exact E1. erewrite dbind_ok by reflexivity. exact E3.
      * intros H qs HA HR. cbn [combine putall fold_left fst snd]. eapply store_member; [exact Hh1|exact Hh3|exact U1|exact U3|exact HA|exact HR].
  - intros W b st Hb _. exists [], st, b, []. rewrite app_nil_r. split; [reflexivity|]. split; [exact Hb|].
    intros fuel k d rest e h m hs Hf Hk Hr HT Hh. exists d, m, []. split; [destruct k; reflexivity|]. split; [exact Hr|]. split; [rewrite Hh, app_nil_r; reflexivity|]. split; [intros H qs _ X; exact X|exact HT].
  - intros W bk k st bv p W1 bs fs W2 Hk Hne H1 IH1 H2 IH2 L. specialize (IH1 L). destruct (IH2 L) as (key2 & st2 & b1 & b2 & -> & Hk2 & IHb).
    exists k, st, bk, (bv ++ b1 ++ b2). split; [reflexivity|]. split; [exact Hk|].
    intros fuel n d rest e h m hs Hf Hn Hr HT Hh. rewrite !app_length in Hf. rewrite <- !app_assoc in Hr. cbn [length] in Hn. destruct n as [|n]; [lia|].
    destruct (IH1 fuel d (bv ++ b1 ++ b2 ++ rest) (b1 ++ b2 ++ rest) e ltac:(lia) ltac:(cbn; apply app_nil_r) ltac:(auto) Hr HT) as (d1 & v & hs1 & E1 & R1 & Hh1 & U1 & HT1). rewrite Hh in Hh1, U1. rewrite <- app_assoc in Hh1. cbn [app] in Hh1.
    set (d2 := set_heap (upd_nth (length h) (map_set k v) (d_heap d1)) d1).
    assert (Hd2 : d_heap d2 = h ++ (map_set k v m) :: (hs ++ hs1)) by (unfold d2; cbn [d_heap set_heap]; rewrite Hh1, upd_nth_app; reflexivity).
    pose proof (string_form d2 _ _ _ _ (b2 ++ rest) e Hk2 (proj1 (proj1 HT1)) R1) as E2. set (d3 := set_str3 st2 _) in E2.
    destruct (IHb fuel n d3 rest e h (map_set k v m) (hs ++ hs1)) as (d4 & m' & hs' & E4 & R4 & Hh4 & U4 & HT4); [rewrite app_length; lia|lia|reflexivity|split; [split; [reflexivity|exact (proj2 (proj1 HT1))]|exact (proj2 HT1)]|exact Hd2|].
    exists d4, m', (hs1 ++ hs'). split; [|split; [exact R4|split; [rewrite Hh4, <- !app_assoc; reflexivity|split; [|exact HT4]]]].
    + cbn [assoc_loop]. destruct k as [|k0 k]; [congruence|]. erewrite dbind_ok by exact E1. erewrite dbind_ok by reflexivity. erewrite dbind_ok by exact E2. exact E4.
    + intros H qs HA HR. cbn [putall fold_left fst snd]. eapply store_member; [exact Hh1|exact Hh4|exact U1|exact U4|exact HA|exact HR].
Qed.

Lemma decode3_ref W b c p W' d s rest e : value3r Library W b c p W' -> s ++ repeat 0 c = b ++ rest -> c = 0%nat \/ rest = [] -> d_r d = contr s e -> relw W d ->
  exists d' v hs, decode3 d = (d', Ok v) /\ d_r d' = contr rest e /\ d_heap d' = d_heap d ++ hs /\ unfolds (d_heap d') v p /\ relw W' d'.
Proof.
  intros H E K Hr HT. destruct (proj1 (dec3_ref Library) W b c p W' H eq_refl (fuel_for d) d s rest e) as (d' & v & hs & H1 & H2 & H3 & H4 & H5); try assumption.
  - rewrite (fuel_for_contr _ _ _ Hr). pose proof (f_equal (@length Z) E) as X. rewrite !app_length, repeat_length in X. lia.
  - exists d', v, hs. split; [exact H1|]. split; [exact H2|]. split; [exact H3|]. split; [apply H4; intros i _; reflexivity|exact H5].
Qed.
Lemma batch3_ref r W b c ps W' : values3r r W b c ps W' -> r = Library -> forall fuel d s e, (length ps < fuel)%nat -> s ++ repeat 0 c = b -> d_r d = contr s e -> relw W d ->
  exists d' vs, batch3 fuel d = (d', (vs, batch_end e)) /\ d_r d' = contr [] e /\ extends (d_heap d) (d_heap d') /\ Forall2 (unfolds (d_heap d')) vs ps /\ relw W' d'.
Proof.
  intros H L. subst r. revert W b c ps W' H. fix IH 6. intros W b c ps W' H. destruct H as [W|W b c1 p W1 bs c2 ps W2 H1 H2 HC]; intros [|fuel] d s e Hf E Hr HT; try (cbn in Hf; lia).
  - apply cut_none in E. subst s. cbn [batch3]. unfold decode3, fuel_for. rewrite Hr. cbn [contr r_rest r_chunks concat length dec3].
    unfold dbind, read_byte, dbind, read_bytes, read. rewrite Hr. cbn [contr r_chunks]. change (1 =? 0) with false. cbn [andb contr r_end].
    eexists (set_r (contr [] e) d), []. split; [unfold batch_end; destruct (e_err e); reflexivity|]. split; [reflexivity|]. split; [apply extends_refl|]. split; [constructor|exact HT].
  - pose proof (proj1 (proj2 (cut_lengths Library)) _ _ _ _ _ H2) as L2. rewrite <- (app_nil_r (b ++ bs)), <- app_assoc in E. destruct (cut_split s c1 c2 b bs [] E ltac:(auto) ltac:(lia) HC) as (s2 & X1 & K1 & X2 & _). rewrite app_nil_r in X2.
    destruct (decode3_ref _ _ _ _ _ d s s2 e H1 X1 K1 Hr HT) as (d1 & v & hs & E1 & R1 & Hh & U1 & T1). cbn [batch3]. rewrite E1. cbn [length] in Hf.
    destruct (IH _ _ _ _ _ H2 fuel d1 s2 e ltac:(lia) X2 R1 T1) as (d2 & vs & E2 & R2 & X & U2 & T2). rewrite E2. exists d2, (v :: vs). split; [reflexivity|]. split; [exact R2|].
    split; [eapply extends_trans; [|exact X]; rewrite Hh; exists hs; reflexivity|]. split; [|exact T2]. constructor; [eapply unfolds_extends; eassumption|exact U2].
Qed.
