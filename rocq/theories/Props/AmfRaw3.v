(** Property C183: what AMF3 Encode writes and returns for every value. *)
From Coq Require Import String Permutation Sorted.
From Verif Require Import Base.Go Base.GoFacts Base.IO Base.Float64 Proofs.IOFacts Model.AmfTypes Model.Amf3 Model.Amf0 Spec.Amf Spec.AmfRaw Spec.AmfRaw3
  Proofs.AmfFacts Proofs.Amf0Enc Proofs.Amf3Enc Proofs.Amf3More Props.Amf3 Props.AmfRaw.
Import ListNotations.
Local Open Scope list_scope.
Local Open Scope Z_scope.
Local Ltac Zify.zify_post_hook ::= Z.div_mod_to_equations.

Definition tell (m : Wm Z) (x : bytes * bool) : Prop := tells m x (len (fst x)).
Lemma tells_count m x c c' : tells m x c -> (snd x = true -> c = c') -> tells m x c'.
Proof. intros H E w HW. destruct (H w HW) as (n & X). exists n. rewrite X. destruct (snd x); [rewrite E by reflexivity|]; reflexivity. Qed.
Lemma tell_bind m k x y c : tell m x -> tells (k (len (fst x))) y (len (fst x) + c) -> (snd x = true -> snd y = true -> c = len (fst y)) -> tell (wbind m k) (and_then x y).
Proof.
  intros H1 H2 E. unfold tell. eapply tells_count; [eapply tells_bind; [exact H1|intros _; exact H2]|]. unfold and_then. destruct (snd x) eqn:EX; [|congruence]. cbn [fst snd]. intros HY. rewrite len_app, E by auto. reflexivity.
Qed.
Lemma number_tell n : 0 <= n -> tell (write_u29 n) (number29 n).
Proof.
  intros Hn. unfold number29, tell. change (2 ^ 29) with 536870912. destruct (Z.ltb_spec n 536870912) as [H|H].
  - apply tells_emits. apply write_u29_emits. lia.
  - intros w HW. destruct (C64_u29_too_large_rejected n w H) as (e & E). unfold write_u29 in *.
    replace (n <=? 127) with false in * by lia. replace (n <=? 16383) with false in * by lia. replace (n <=? 2097151) with false in * by lia. replace (n <=? 536870911) with false in * by lia.
    exists (w_calls w). destruct w. cbn. rewrite app_nil_r. reflexivity.
Qed.
Lemma length_tell n : 0 <= n -> tell (encode_u29 n) (length29 n).
Proof.
  intros Hn. unfold encode_u29, length29. replace (Z.lor (u32 (Z.shiftl (u32 n) 1)) 1) with ((2 * n) mod 2 ^ 32 + 1); [apply number_tell; change (2 ^ 32) with 4294967296; lia|].
  rewrite shiftl_mul by lia. change (2 ^ 1) with 2. unfold u32. change (2 ^ 32) with 4294967296. replace ((n mod 4294967296 * 2) mod 4294967296) with (2 * (n mod 2147483648)) by lia. rewrite lor_1. lia.
Qed.
Lemma text_tell s : tell (encode_utf8 s) (text29 s).
Proof.
  unfold encode_utf8, text29. eapply tell_bind; [apply length_tell, len_nonneg| |intros _ _; reflexivity].
  cbn [fst done]. eapply tells_eq; [eapply tells_step; [apply emits_write|apply tells_ret]|unfold and_then, done; cbn [fst snd]; rewrite app_nil_r; reflexivity|reflexivity].
Qed.
Lemma text_nil : text29 [] = done [1]. Proof. reflexivity. Qed.
(** A marker in front. *)
Lemma marked_tell b m x : byte b -> tell m x -> forall k, (forall a, k a = 1 + a) -> tell (w* _ := write_byte b in w* a := m in wret (k a)) (and_then (done [b]) x).
Proof.
  intros HB HM k Hk. unfold tell. rewrite <- (and_nil x). eapply tells_count; [eapply tells_step; [apply write_byte_emits, HB|]; eapply tells_bind; [exact HM|intros _; apply tells_ret]|].
  intros _. rewrite Hk, and_nil. unfold and_then, done. cbn [fst snd]. rewrite len_app. reflexivity.
Qed.
Lemma order_cons x xs : in_order (x :: xs) = and_then x (in_order xs). Proof. reflexivity. Qed.
Lemma order_app xs ys : in_order (xs ++ ys) = and_then (in_order xs) (in_order ys).
Proof. induction xs as [|x xs IH]; [cbn [app]; unfold in_order at 2; cbn [fold_right and_then fst snd app]; apply surjective_pairing|]. cbn [app]. rewrite !order_cons, IH, and_assoc. reflexivity. Qed.
Lemma order_sum ms xs : Forall2 tell ms xs -> tell (w_sum ms) (in_order xs).
Proof.
  induction 1 as [|m x ms xs H _ IH]; [apply tells_ret|]. cbn [w_sum]. rewrite order_cons. eapply tell_bind with (c := len (fst (in_order xs))); [exact H| |auto].
  rewrite <- (and_nil (in_order xs)) at 1. eapply tells_bind; [exact IH|]. intros _. apply tells_ret.
Qed.
Lemma double_tell bits : tell (encode_double bits) (done (5 :: be64 bits)).
Proof. unfold tell. eapply tells_count; [apply tells_emits, encode_double_emits|]. intros _. reflexivity. Qed.
Lemma object_tell ty fs fs' xs : sort_keys fs = fs' -> Forall2 tell (map snd fs') xs ->
  tell (encode_object3 ty fs) (in_order ([done [10]; number29 ((16 * len fs) mod 2 ^ 32 + 3); text29 ty] ++ map text29 (map fst fs') ++ xs)).
Proof.
  intros <- HX. unfold encode_object3. cbn [app]. rewrite order_cons.
  assert (A : forall n x m (k : Z -> Wm Z) y c, tell m x -> (forall a, tells (k a) y (n + a + c)) -> (snd y = true -> c = len (fst y)) -> tells (wbind m k) (and_then x y) (n + len (fst (and_then x y)))).
  { intros n x m k y c H1 H2 E. eapply tells_count; [eapply tells_bind; [exact H1|intros _; apply H2]|]. unfold and_then. destruct (snd x) eqn:EX; [|congruence]. cbn [fst snd]. intros HY. rewrite len_app, <- E by exact HY. lia. }
  unfold tell. change (len (fst (and_then (done [10]) ?y))) with (len ([10] ++ fst y)). rewrite len_app. change (len [10]) with 1. eapply tells_step; [apply write_byte_emits; unfold byte; lia|].
  rewrite <- (len_perm _ _ (sort_keys_perm fs)).
  assert (EN : Z.lor 3 (u32 (Z.shiftl (u32 (len fs)) 4)) = (16 * len fs) mod 2 ^ 32 + 3).
  { pose proof (len_nonneg fs). rewrite shiftl_mul by lia. change (2 ^ 4) with 16. unfold u32. change (2 ^ 32) with 4294967296. replace ((len fs mod 4294967296 * 16) mod 4294967296) with (16 * (len fs mod 268435456)) by lia. rewrite lor_3. lia. }
  rewrite EN, !order_cons. eapply A; [apply number_tell; change (2 ^ 32) with 4294967296; lia| |intros _; reflexivity]. intros a1.
  rewrite order_app. eapply A; [apply text_tell| |intros _; reflexivity]. intros a2.
  eapply A; [apply order_sum; rewrite <- map_map with (f := fst) (g := encode_utf8); clear; induction (map fst (sort_keys fs)) as [|s l IH]; cbn [map]; constructor; [apply text_tell|exact IH]| |intros _; reflexivity]. intros a3.
  rewrite <- (and_nil (in_order xs)). eapply tells_count; [eapply tells_bind; [apply order_sum, HX|intros _; apply tells_ret]|]. intros _. rewrite and_nil. lia.
Qed.
Lemma forall2_map {A B C} (R : B -> C -> Prop) (f : A -> B) l ys : Forall2 (fun a y => R (f a) y) l ys -> Forall2 R (map f l) ys.
Proof. induction 1; constructor; assumption. Qed.
Lemma fields_tell fs fs' xs : Forall (fun p => forall x, written3 (snd p) x -> go_value (snd p) -> tell (encode3 (snd p)) x) fs -> NoDup (map fst fs) -> all_of (map (fun p => go_value (snd p)) fs) ->
  Permutation fs fs' -> StronglySorted key_lt (map fst fs') -> Forall2 written3 (map snd fs') xs ->
  exists gs, sort_keys (map (fun p => (fst p, encode3 (snd p))) fs) = gs /\ map fst gs = map fst fs' /\ Forall2 tell (map snd gs) xs.
Proof.
  intros IH ND HG HP HS HX. exists (map (fun p => (fst p, encode3 (snd p))) fs'). split; [rewrite sort_keys_map; rewrite <- (sorted_is fs fs' HP HS ND); reflexivity|]. split; [rewrite map_map; reflexivity|].
  rewrite map_map. cbn [snd]. apply all_of_map in HG. assert (F : Forall (fun p => forall x, written3 (snd p) x -> tell (encode3 (snd p)) x) fs').
  { eapply Permutation_Forall; [exact HP|]. rewrite Forall_forall in *. intros p Hp x Hx. apply IH; [exact Hp|exact Hx|apply (HG p Hp)]. }
  clear - F HX. revert xs HX. induction F as [|p l Hp HF IHF]; intros xs HX; cbn [map] in *; inversion HX; subst; constructor; auto.
Qed.
Lemma encode3_tell t : forall x, written3 t x -> go_value t -> tell (encode3 t) x.
Proof.
  induction t as [|b|b|w z|w z|s|s|s|l IH|fs IH|ty fs IH|] using tree_ind'; intros x HX HG; cbn [go_value] in HG;
    inversion HX as [| |b0|bits0|sg z0 HZ E0 E1|z0 HZ|sg wd z0 HZ E0 E1|s0|sec0|s0|l0 xs HF|fs0 fs' xs HP HS HF|ty0 fs0 fs' xs HP HS HF]; subst; cbn [encode3]; try (destruct sg; inversion E0; subst; clear E0; cbn [encode3]).
  all: try (unfold tell; apply tells_emits; first [apply (encode3_emits TNil I)|apply (encode3_emits (TBool b) I)]).
  - apply double_tell.
  - replace ((-536870911 <=? z) && (z <? 536870911)) with true by lia. unfold encode_integer. rewrite u32_id by lia. change (done (4 :: wire_u29 z)) with (and_then (done [4]) (done (wire_u29 z))). apply marked_tell; [unfold byte; lia| |reflexivity].
    pose proof (number_tell z ltac:(lia)) as N. unfold number29 in N. change (2 ^ 29) with 536870912 in N. replace (z <? 536870912) with true in N by lia. exact N.
  - replace ((-536870911 <=? z) && (z <? 536870911)) with true by lia. unfold encode_integer. change ([4], false) with (and_then (done [4]) (@nil Z, false)). apply marked_tell; [unfold byte; lia| |reflexivity].
    assert (EU : u32 z = z + 4294967296) by (unfold u32; lia). pose proof (number_tell (u32 z) ltac:(lia)) as N. unfold number29 in N. change (2 ^ 29) with 536870912 in N. replace (u32 z <? 536870912) with false in N by lia. exact N.
  - destruct w; [apply double_tell|]. destruct HZ as [HZ|HZ]; [discriminate|]. replace ((-536870911 <=? z) && (z <? 536870911)) with false by lia. apply double_tell.
  - replace (z <? 536870911) with true by lia. unfold encode_integer. rewrite u32_id by lia. change (done (4 :: wire_u29 z)) with (and_then (done [4]) (done (wire_u29 z))). apply marked_tell; [unfold byte; lia| |reflexivity].
    pose proof (number_tell z ltac:(lia)) as N. unfold number29 in N. change (2 ^ 29) with 536870912 in N. replace (z <? 536870912) with true in N by lia. exact N.
  - destruct w; [apply double_tell|]. destruct HZ as [HZ|HZ]; [discriminate|]. replace (z <? 536870911) with false by lia. apply double_tell.
  - unfold encode_string3. apply marked_tell; [unfold byte; lia|apply text_tell|reflexivity].
  - unfold tell. apply tells_emits. unfold encode_date3. change (8 :: 1 :: ?x) with ([8] ++ [1] ++ x). eapply emits_bind; [apply write_byte_emits; unfold byte; lia|]. eapply emits_bind; [apply write_byte_emits; unfold byte; lia|].
    eapply emits_ext; [eapply emits_bind; [apply emits_write|apply emits_ret]|apply app_nil_r|]. reflexivity.
  - unfold encode_bytearray3. assert (T := marked_tell 12 _ _ ltac:(unfold byte; lia) (text_tell s) (fun a => 1 + a) (fun a => eq_refl)). unfold tell, tells in *. intros w HW. destruct (T w HW) as (n & E). exists n. rewrite <- E. unfold encode_utf8, wbind.
    destruct (write_byte 12 w) as [w1 [u|e| |]]; try reflexivity. destruct (encode_u29 (len s) w1) as [w2 [m|e| |]]; try reflexivity. destruct (write s w2) as [w3 [u2|e| |]]; try reflexivity. unfold wret. do 2 f_equal. lia.
  - unfold encode_array3. cbn [app]. rewrite !order_cons. rewrite len_map.
    assert (FT : Forall2 tell (map encode3 l) xs). { apply forall2_map. apply all_of_map in HG. clear - IH HG HF. induction HF as [|t x l xs Hx _ IHl]; constructor; inversion IH; inversion HG; subst; auto. }
    pose proof (order_sum _ _ FT) as OS. unfold tell. change (len (fst (and_then (done [9]) ?y))) with (len ([9] ++ fst y)). rewrite len_app. change (len [9]) with 1. eapply tells_step; [apply write_byte_emits; unfold byte; lia|].
    eapply tells_count; [eapply tells_bind; [apply length_tell, len_nonneg|intros _]; rewrite <- text_nil; eapply tells_bind; [apply text_tell|intros _]; rewrite <- (and_nil (in_order xs)); eapply tells_bind; [exact OS|intros _; apply tells_ret]|].
    intros HB. rewrite ?and_nil in HB |- *. unfold and_then in *. destruct (snd (length29 (len l))) eqn:E1; [|congruence]. rewrite text_nil in *. cbn [done fst snd] in *. rewrite !len_app. lia.
  - destruct HG as [ND HG]. destruct (fields_tell fs fs' xs IH ND HG HP HS HF) as (gs & G1 & G2 & G3). rewrite <- G2. pose proof (object_tell [] _ gs xs G1 G3) as O. rewrite len_map in O. exact O.
  - destruct HG as [ND HG]. destruct (fields_tell fs fs' xs IH ND HG HP HS HF) as (gs & G1 & G2 & G3). rewrite <- G2. pose proof (object_tell ty _ gs xs G1 G3) as O. rewrite len_map in O. exact O.
  - intros w HW. exists (w_calls w). destruct w. cbn. rewrite app_nil_r. reflexivity.
Qed.
Lemma written_exists t : go_value t -> exists x, written3 t x.
Proof.
  assert (L : forall (l : list tree), Forall (fun t => go_value t -> exists x, written3 t x) l -> Forall go_value l -> exists xs, Forall2 written3 l xs).
  { induction 1 as [|u l H _ IHl]; intros HG; [exists []; constructor|]. inversion HG; subst. destruct (H ltac:(assumption)) as (x & Hx). destruct (IHl ltac:(assumption)) as (xs & Hxs). exists (x :: xs). constructor; assumption. }
  assert (O : forall (fs : list (bytes * tree)), Forall (fun p => go_value (snd p) -> exists x, written3 (snd p) x) fs -> NoDup (map fst fs) -> all_of (map (fun p => go_value (snd p)) fs) ->
    exists fs' xs, Permutation fs fs' /\ StronglySorted key_lt (map fst fs') /\ Forall2 written3 (map snd fs') xs).
  { intros fs IH ND HG. apply all_of_map in HG. pose proof (sort_keys_perm fs) as HP. destruct (L (map snd (sort_keys fs))) as (xs & HX).
    - apply Forall_map. eapply Permutation_Forall; [exact HP|exact IH].
    - apply Forall_map. eapply Permutation_Forall; [exact HP|exact HG].
    - exists (sort_keys fs), xs. split; [exact HP|]. split; [apply sort_keys_sorted, ND|exact HX]. }
  induction t as [|b|b|w z|w z|s|s|s|l IH|fs IH|ty fs IH|] using tree_ind'; cbn [go_value]; intros HG.
  - eexists. apply X_nil.
  - eexists. apply X_bool.
  - eexists. apply X_float.
  - assert (C : w = true \/ w = false /\ ((0 <= z < 536870911) \/ (-536870911 <= z < 0) \/ (z < -536870911 \/ 536870911 <= z))) by (destruct w; [left; reflexivity|right; split; [reflexivity|lia]]).
    destruct C as [C|(-> & [C|[C|C]])]; eexists; [apply (X_num true w z); left; exact C|apply (X_int true z C)|apply (X_negative z C)|apply (X_num true false z); right; exact C].
  - assert (C : w = true \/ w = false /\ ((0 <= z < 536870911) \/ 536870911 <= z)) by (destruct w; [left; reflexivity|right; split; [reflexivity|lia]]).
    destruct C as [C|(-> & [C|C])]; eexists; [apply (X_num false w z); left; exact C|apply (X_int false z C)|apply (X_num false false z); right; right; exact C].
  - eexists. apply X_str.
  - eexists. apply X_time.
  - eexists. apply X_bytes.
  - apply all_of_map in HG. destruct (L l IH HG) as (xs & HX). eexists. apply X_arr. exact HX.
  - destruct HG as [ND HG]. destruct (O fs IH ND HG) as (fs' & xs & HP & HS & HX). eexists. eapply X_obj; eassumption.
  - destruct HG as [ND HG]. destruct (O fs IH ND HG) as (fs' & xs & HP & HS & HX). eexists. eapply X_typed; eassumption.
  - eexists. apply X_other.
Qed.
Lemma tell_fun m x y : tell m x -> tell m y -> x = y.
Proof.
  intros H1 H2. destruct (H1 buffer0 (fun _ => eq_refl)) as (n & E1). destruct (H2 buffer0 (fun _ => eq_refl)) as (n' & E2). rewrite E1 in E2. destruct x as [s b], y as [s' b']. cbn [fst snd w_out buffer0 app] in E2. injection E2 as E3 _ E4. subst s'. destruct b, b'; congruence.
Qed.

(** ** C183 *)
(** On a working writer Encode writes what the relation says; it answers the number of bytes, or fails. *)
Theorem C183_encode : forall t x w, go_value t -> written3 t x -> never_fails w ->
  exists n, encode3 t w = (mkW (w_out w ++ fst x) n (w_script w), if snd x then Ok (len (fst x)) else Err EOther).
Proof. intros t x w HG HX HW. exact (encode3_tell t x HX HG w HW). Qed.
Print Assumptions C183_encode.
(** The relation gives every value one output. *)
Theorem C183_relation : forall t, go_value t -> exists! x, written3 t x.
Proof. intros t HG. destruct (written_exists t HG) as (x & HX). exists x. split; [exact HX|]. intros y HY. exact (tell_fun _ _ _ (encode3_tell t x HX HG) (encode3_tell t y HY HG)). Qed.
Print Assumptions C183_relation.
Lemma number_ok n : snd (number29 n) = (n <? 2 ^ 29). Proof. unfold number29. destruct (n <? 2 ^ 29); reflexivity. Qed.
Lemma length_ok n : 0 <= n -> snd (length29 n) = short n.
Proof. intros Hn. unfold length29, short. rewrite number_ok. change (2 ^ 29) with 536870912. change (2 ^ 32) with 4294967296. change (2 ^ 31) with 2147483648. change (2 ^ 28) with 268435456. lia. Qed.
Lemma text_ok s : snd (text29 s) = short (len s). Proof. unfold text29. rewrite and_ok, length_ok by apply len_nonneg. cbn [done snd]. apply andb_true_r. Qed.
Lemma members_ok n : 0 <= n -> snd (number29 ((16 * n) mod 2 ^ 32 + 3)) = (n mod 2 ^ 28 <? 2 ^ 25).
Proof. intros Hn. rewrite number_ok. change (2 ^ 29) with 536870912. change (2 ^ 32) with 4294967296. change (2 ^ 25) with 33554432. change (2 ^ 28) with 268435456. lia. Qed.
Lemma forallb_perm {A} (f : A -> bool) l l' : Permutation l l' -> forallb f l = forallb f l'.
Proof. induction 1; cbn [forallb]; [reflexivity|congruence|destruct (f x), (f y); reflexivity|congruence]. Qed.
(** It succeeds exactly for these values. *)
Theorem C183_fails_iff : forall t x, written3 t x -> snd x = supported3 t.
Proof.
  assert (FO : forall fs fs' xs, Forall (fun p => forall x, written3 (snd p) x -> snd x = supported3 (snd p)) fs -> Permutation fs fs' -> Forall2 written3 (map snd fs') xs ->
    snd (in_order (map text29 (map fst fs') ++ xs)) = forallb (fun p => short (len (fst p)) && supported3 (snd p)) fs).
  { intros fs fs' xs IH HP HF. rewrite (forallb_perm _ _ _ HP). pose proof (Permutation_Forall HP IH) as IH'. clear - IH' HF. rewrite order_ok, forallb_app, map_map, forallb_map.
    revert xs HF. induction IH' as [|p l Hp _ IHl]; intros xs HF; cbn [map forallb] in *; inversion HF; subst; [reflexivity|]. cbn [forallb]. rewrite text_ok, (Hp _ ltac:(eassumption)), <- (IHl _ ltac:(eassumption)).
    destruct (short (len (fst p))), (supported3 (snd p)); cbn [andb]; rewrite ?andb_true_r, ?andb_false_r; reflexivity. }
  induction t as [|b|b|w z|w z|s|s|s|l IH|fs IH|ty fs IH|] using tree_ind'; intros x HX;
    inversion HX as [| |b0|bits0|sg z0 HZ E0 E1|z0 HZ|sg wd z0 HZ E0 E1|s0|sec0|s0|l0 xs HF|fs0 fs' xs HP HS HF|ty0 fs0 fs' xs HP HS HF]; subst; cbn [supported3]; try reflexivity; try (destruct sg; inversion E0; subst; clear E0; try reflexivity; cbn [supported3 done snd]).
  - symmetry. apply negb_true_iff. lia.
  - cbn [snd]. symmetry. apply negb_false_iff. lia.
  - destruct w; [reflexivity|]. destruct HZ as [HZ|HZ]; [discriminate|]. symmetry. apply negb_true_iff. lia.
  - rewrite and_ok, text_ok. reflexivity.
  - rewrite and_ok, text_ok. reflexivity.
  - cbn [app]. rewrite !order_cons, !and_ok, length_ok by apply len_nonneg. cbn [done snd andb]. f_equal. rewrite order_ok. clear - IH HF. induction HF as [|t x l xs Hx _ IHl]; [reflexivity|]. inversion IH; subst. cbn [forallb]. f_equal; auto.
  - cbn [app]. rewrite !order_cons, !and_ok, members_ok by apply len_nonneg. cbn [done snd andb]. f_equal. exact (FO fs fs' xs IH HP HF).
  - cbn [app]. rewrite !order_cons, !and_ok, members_ok, text_ok by apply len_nonneg. cbn [done snd andb]. rewrite andb_assoc. f_equal. exact (FO fs fs' xs IH HP HF).
Qed.
Print Assumptions C183_fails_iff.
Lemma ok_go t : ok3 t -> go_value t.
Proof.
  induction t as [|b|b|w z|w z|s|s|s|l IH|fs IH|ty fs IH|] using tree_ind'; cbn [ok3 go_value]; intros H; try exact I; try lia; try contradiction.
  - destruct H as [_ H]. apply all_of_map in H. apply all_of_map. rewrite Forall_forall in *. auto.
  - destruct H as (_ & ND & H). split; [exact ND|]. apply all_of_map in H. apply all_of_map. rewrite Forall_forall in *. intros p Hp. apply IH; [exact Hp|apply (H p Hp)].
  - destruct H as (_ & _ & ND & H). split; [exact ND|]. apply all_of_map in H. apply all_of_map. rewrite Forall_forall in *. intros p Hp. apply IH; [exact Hp|apply (H p Hp)].
Qed.
(** Within the limits it is the specification's layout. *)
Theorem C183_within_limits : forall t x, ok3 t -> (written3 t x <-> snd x = true /\ wire3 t (fst x)).
Proof.
  intros t x Hok. pose proof (ok_go t Hok) as HG. destruct (C96_amf3_wire_format t buffer0 Hok (fun _ => eq_refl)) as (s & S1 & S2 & n & E).
  assert (W : forall y, written3 t y -> y = (s, true)).
  { intros y HY. destruct (C183_encode t y buffer0 HG HY (fun _ => eq_refl)) as (n' & E'). rewrite E in E'. destruct y as [s' b]. cbn [fst snd w_out buffer0 app] in E'. injection E' as E1 _ E2. subst s'. destruct b; [reflexivity|discriminate]. }
  split.
  - intros HX. rewrite (W x HX). auto.
  - intros [X1 X2]. destruct (written_exists t HG) as (y & HY). destruct x as [s' b]. cbn [fst snd] in *. subst b. rewrite (S2 _ X2). rewrite <- (W y HY). exact HY.
Qed.
Print Assumptions C183_within_limits.
(** EncodeBatch writes the values one after the other, up to the first that is refused. *)
Theorem C183_batch : forall ts xs w, Forall go_value ts -> Forall2 written3 ts xs -> never_fails w ->
  exists n, encode_batch3 ts w = (mkW (w_out w ++ fst (in_order xs)) n (w_script w), if snd (in_order xs) then Ok tt else Err EOther).
Proof.
  intros ts xs w HG HX. revert HG w. induction HX as [|t x ts xs H _ IH]; intros HG w HW; [exists (w_calls w); destruct w; cbn; rewrite app_nil_r; reflexivity|].
  inversion HG; subst. cbn [encode_batch3]. rewrite order_cons. destruct (C183_encode t x w ltac:(assumption) H HW) as (n & E). unfold wbind. rewrite E. unfold and_then. destruct (snd x) eqn:EX; [|exists n; rewrite EX; reflexivity].
  destruct (IH ltac:(assumption) (mkW (w_out w ++ fst x) n (w_script w)) HW) as (n' & E'). exists n'. rewrite E'. cbn [w_out w_script fst snd]. rewrite app_assoc. reflexivity.
Qed.
Print Assumptions C183_batch.
(** EncodeWithAMF3 puts the marker 0x11 in front. *)
Theorem C183_within_amf0 : forall t x w, go_value t -> written3 t x -> never_fails w ->
  exists n, encode_with_amf3 t w = (mkW (w_out w ++ 17 :: fst x) n (w_script w), if snd x then Ok (1 + len (fst x)) else Err EOther).
Proof.
  intros t x w HG HX HW. unfold encode_with_amf3. destruct (emits_run _ _ _ w (write_byte_emits 17 ltac:(unfold byte; lia)) HW) as [n ->].
  destruct (C183_encode t x (mkW (w_out w ++ [17]) n (w_script w)) HG HX HW) as (n' & E). exists n'. unfold wbind. rewrite E. cbn [w_out w_script]. rewrite <- app_assoc. destruct (snd x); [|reflexivity]. unfold wret. rewrite Z.add_comm. reflexivity.
Qed.
Print Assumptions C183_within_amf0.
(** An object whose second member, in key order, is a negative number: all names and the first value are written. A long array of an overlong length would need 2^28 elements. *)
Example C183_example : exists x, written3 (TObj [(str "b", TInt false (-1)); (str "a", TNil)]) x /\ go_value (TObj [(str "b", TInt false (-1)); (str "a", TNil)]) /\
  x = ([10; 35; 1; 3; 97; 3; 98; 1; 4], false) /\ short (2 ^ 28) = false /\ short (2 ^ 31) = true.
Proof.
  eexists. split; [|split; [|split; [|split; reflexivity]]].
  - apply (X_obj _ [(str "a", TNil); (str "b", TInt false (-1))] [done [1]; ([4], false)]).
    + apply perm_swap.
    + repeat constructor.
    + constructor; [apply X_nil|]. constructor; [apply X_negative; lia|constructor].
  - split; [constructor; [intros [X|[]]; discriminate X|constructor; [intros []|constructor]]|]. repeat split.
  - reflexivity.
Qed.
