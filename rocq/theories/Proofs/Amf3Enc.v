(** AMF3 encoder: writes the wire format, returns its length. *)
From Coq Require Import Permutation Sorted.
From Verif Require Import Base.Go Base.GoFacts Base.IO Base.Float64 Proofs.IOFacts Proofs.Float64
  Model.AmfTypes Model.Amf3 Model.Amf0 Spec.Amf Proofs.AmfFacts Proofs.Amf0Enc.
Local Ltac Zify.zify_post_hook ::= Z.div_mod_to_equations.

(** * U29 *)
Lemma land128 b : byte b -> Z.land b 128 = if b <? 128 then 0 else 128.
Proof.
  intros Hb. unfold byte in Hb.
  assert (H : forallb (fun b => Z.land b 128 =? if b <? 128 then 0 else 128) (map Z.of_nat (seq 0 256)) = true)
    by (vm_compute; reflexivity).
  rewrite forallb_forall in H. apply Z.eqb_eq, H. apply in_map_iff.
  exists (Z.to_nat b). split; [lia|]. apply in_seq. lia.
Qed.
Lemma land127 b : Z.land b 127 = b mod 128.
Proof. apply (land_ones b 7). lia. Qed.
Lemma lor128 a : 0 <= a < 128 -> Z.lor a 128 = 128 + a.
Proof. intros Ha. rewrite Z.lor_comm. change 128 with (1 * 2 ^ 7). rewrite lor_disj by (change (2 ^ 7) with 128; lia). lia. Qed.
Lemma lor_1 a : Z.lor (2 * a) 1 = 2 * a + 1.
Proof. replace (2 * a) with (a * 2 ^ 1) by (change (2 ^ 1) with 2; lia). apply lor_disj; change (2 ^ 1) with 2; lia. Qed.
Lemma lor_3 a : Z.lor 3 (16 * a) = 16 * a + 3.
Proof. rewrite Z.lor_comm. replace (16 * a) with (a * 2 ^ 4) by (change (2 ^ 4) with 16; lia). apply lor_disj; change (2 ^ 4) with 16; lia. Qed.

Lemma wire_u29_byte v : 0 <= v < 536870912 -> is_bytes (wire_u29 v).
Proof.
  intros Hv. unfold wire_u29, is_bytes, byte.
  destruct (v <? 128) eqn:E1; [repeat constructor; lia|].
  destruct (v <? 16384) eqn:E2; [repeat constructor; lia|].
  destruct (v <? 2097152) eqn:E3; [repeat constructor; lia|]. repeat constructor; lia.
Qed.
Lemma wire_u29_len v : 0 <= v -> 1 <= len (wire_u29 v) <= 4.
Proof.
  intros. unfold wire_u29. repeat (match goal with |- context [if ?c then _ else _] => destruct c end);
  unfold len; cbn [length]; lia.
Qed.

Lemma write_u29_emits v : 0 <= v < 536870912 -> emits (write_u29 v) (wire_u29 v) (len (wire_u29 v)).
Proof.
  intros Hv. unfold write_u29, wire_u29.
  destruct (v <=? 127) eqn:E1.
  { replace (v <? 128) with true by lia. rewrite u8_id by (unfold byte; lia).
    eapply emits_ext; [eapply emits_bind; [apply emits_write|apply emits_ret]|reflexivity|reflexivity]. }
  replace (v <? 128) with false by lia.
  destruct (v <=? 16383) eqn:E2.
  { replace (v <? 16384) with true by lia.
    eapply emits_ext; [eapply emits_bind; [apply emits_write|apply emits_ret]| |reflexivity].
    rewrite app_nil_r, land127, shiftr_div by lia. change (2 ^ 7) with 128.
    rewrite lor128 by lia. rewrite !u8_id by (unfold byte; lia). reflexivity. }
  replace (v <? 16384) with false by lia.
  destruct (v <=? 2097151) eqn:E3.
  { replace (v <? 2097152) with true by lia.
    eapply emits_ext; [eapply emits_bind; [apply emits_write|apply emits_ret]| |reflexivity].
    rewrite app_nil_r, !land127, !shiftr_div by lia. change (2 ^ 7) with 128. change (2 ^ 14) with 16384.
    rewrite !lor128 by lia. rewrite !u8_id by (unfold byte; lia). reflexivity. }
  replace (v <? 2097152) with false by lia.
  replace (v <=? 536870911) with true by lia.
  eapply emits_ext; [eapply emits_bind; [apply emits_write|apply emits_ret]| |reflexivity].
  rewrite app_nil_r, !land127, !shiftr_div by lia. change (2 ^ 8) with 256.
  change (2 ^ 15) with 32768. change (2 ^ 22) with 4194304.
  rewrite !lor128 by lia. unfold u8. rewrite !(Z.mod_small (128 + _)) by lia. reflexivity.
Qed.

Lemma encode_u29_emits v : 0 <= v < 268435456 ->
  emits (encode_u29 v) (wire_u29 (2 * v + 1)) (len (wire_u29 (2 * v + 1))).
Proof.
  intros Hv. unfold encode_u29. rewrite (u32_id v) by lia. rewrite shiftl_mul by lia.
  change (2 ^ 1) with 2. rewrite u32_id by lia. rewrite Z.mul_comm, lor_1. apply write_u29_emits. lia.
Qed.

Lemma encode_utf8_emits s : len s < 268435456 -> emits (encode_utf8 s) (wire_str3 s) (len (wire_str3 s)).
Proof.
  intros Hs. unfold encode_utf8, wire_str3. pose proof (len_nonneg s).
  eapply emits_bind; [apply encode_u29_emits; lia|].
  eapply emits_ext; [eapply emits_bind; [apply emits_write|apply emits_ret]|apply app_nil_r|].
  rewrite len_app. reflexivity.
Qed.

(** * Sorting *)
Lemma insert_key_map {A B} (f : A -> B) (p : bytes * A) l :
  insert_key (fst p, f (snd p)) (map (fun q => (fst q, f (snd q))) l) =
  map (fun q => (fst q, f (snd q))) (insert_key p l).
Proof.
  induction l as [|q l IH]; cbn [insert_key map fst]; [reflexivity|].
  destruct (bytes_leb (fst p) (fst q)); cbn [map]; [reflexivity|]. rewrite IH. reflexivity.
Qed.
Lemma sort_keys_map {A B} (f : A -> B) l :
  sort_keys (map (fun q => (fst q, f (snd q))) l) = map (fun q => (fst q, f (snd q))) (sort_keys l).
Proof.
  induction l as [|p l IH]; cbn [sort_keys map]; [reflexivity|]. rewrite IH. apply insert_key_map.
Qed.
Lemma sort_keys_fst {A B} (f : A -> B) l :
  map fst (sort_keys (map (fun q => (fst q, f (snd q))) l)) = map fst (sort_keys l).
Proof. rewrite sort_keys_map, map_map. reflexivity. Qed.
Lemma insert_key_perm {A} (p : bytes * A) l : Permutation (p :: l) (insert_key p l).
Proof.
  induction l as [|q l IH]; cbn [insert_key]; [apply Permutation_refl|].
  destruct (bytes_leb (fst p) (fst q)); [apply Permutation_refl|].
  eapply perm_trans; [apply perm_swap|]. apply perm_skip. exact IH.
Qed.
Lemma sort_keys_perm {A} (l : list (bytes * A)) : Permutation l (sort_keys l).
Proof.
  induction l as [|p l IH]; cbn [sort_keys]; [constructor|].
  eapply perm_trans; [apply perm_skip, IH|apply insert_key_perm].
Qed.
Lemma len_perm {A} (l l' : list A) : Permutation l l' -> len l = len l'.
Proof. intros H. unfold len. rewrite (Permutation_length H). reflexivity. Qed.

Lemma leb_key_lt a : forall b, bytes_leb a b = true -> a <> b -> key_lt a b.
Proof.
  induction a as [|x a IH]; intros [|y b] H Hn; cbn [bytes_leb] in H; try congruence; try apply kl_nil.
  apply orb_true_iff in H. destruct H as [H|H].
  - apply kl_lt. lia.
  - apply andb_true_iff in H. destruct H as [H1 H2]. apply Z.eqb_eq in H1. subst y.
    apply kl_eq. apply IH; congruence.
Qed.
Lemma nleb_key_lt a : forall b, bytes_leb a b = false -> key_lt b a.
Proof.
  induction a as [|x a IH]; intros [|y b] H; cbn [bytes_leb] in H; try congruence; try apply kl_nil.
  apply orb_false_iff in H. destruct H as [H H'].
  destruct (x =? y) eqn:E.
  - apply Z.eqb_eq in E. subst y. apply kl_eq. apply IH. exact H'.
  - apply kl_lt. lia.
Qed.
Lemma key_lt_trans a b c : key_lt a b -> key_lt b c -> key_lt a c.
Proof.
  intros H. revert c. induction H; intros c Hc; inversion Hc; subst;
    first [apply kl_nil | apply kl_lt; lia | apply kl_eq; apply IHkey_lt; assumption].
Qed.
Lemma insert_key_sorted {A} (p : bytes * A) l : ~ In (fst p) (map fst l) ->
  StronglySorted key_lt (map fst l) -> StronglySorted key_lt (map fst (insert_key p l)).
Proof.
  induction l as [|q l IH]; cbn [insert_key map In]; intros Hn Hs; [repeat constructor|].
  inversion Hs as [|? ? Hs' Hall]; subst.
  destruct (bytes_leb (fst p) (fst q)) eqn:E; cbn [map].
  - constructor; [exact Hs|].
    assert (Hpq : key_lt (fst p) (fst q)) by (apply leb_key_lt; [exact E|intuition congruence]).
    constructor; [exact Hpq|]. eapply Forall_impl; [|exact Hall]. intros k Hk. eapply key_lt_trans; eassumption.
  - constructor; [apply IH; tauto|].
    assert (Hqp : key_lt (fst q) (fst p)) by (apply nleb_key_lt; exact E).
    assert (HP : Permutation (map fst (p :: l)) (map fst (insert_key p l)))
      by (apply Permutation_map, insert_key_perm).
    eapply Permutation_Forall; [exact HP|]. cbn [map]. constructor; [exact Hqp|exact Hall].
Qed.
Lemma sort_keys_sorted {A} (l : list (bytes * A)) : NoDup (map fst l) ->
  StronglySorted key_lt (map fst (sort_keys l)).
Proof.
  induction l as [|p l IH]; cbn [sort_keys map]; intros H; [constructor|].
  apply NoDup_cons_iff in H. destruct H as [Hn H].
  apply insert_key_sorted; [|apply IH; exact H].
  intros Hin. apply Hn. eapply Permutation_in; [|exact Hin]. apply Permutation_map, Permutation_sym, sort_keys_perm.
Qed.

(** * The functional wire format *)
Fixpoint w3 (t : tree) : bytes :=
  match t with
  | TNil => [1]
  | TBool b => [if b then 3 else 2]
  | TFloat bits => 5 :: be64 bits
  | TInt wide z | TUint wide z =>
      if negb wide && (0 <=? z) && (z <? 536870911) then 4 :: wire_u29 z else 5 :: be64 (f64_of_Z z)
  | TStr s => 6 :: wire_str3 s
  | TTime sec => 8 :: 1 :: be64 (f64_mul_c (f64_of_Z sec) 1000)
  | TBytes s => 12 :: wire_str3 s
  | TArr l => 9 :: wire_u29 (2 * len l + 1) ++ [1] ++ concat (map w3 l)
  | TObj fs => 10 :: wire_u29 (16 * len fs + 3) ++ wire_str3 [] ++
                 concat (map wire_str3 (map fst (sort_keys fs))) ++
                 concat (map snd (sort_keys (map (fun p => (fst p, w3 (snd p))) fs)))
  | TTyped ty fs => 10 :: wire_u29 (16 * len fs + 3) ++ wire_str3 ty ++
                 concat (map wire_str3 (map fst (sort_keys fs))) ++
                 concat (map snd (sort_keys (map (fun p => (fst p, w3 (snd p))) fs)))
  | TOther => []
  end.

Lemma encode_integer_emits v : 0 <= v < 536870912 ->
  emits (encode_integer v) (4 :: wire_u29 v) (len (4 :: wire_u29 v)).
Proof.
  intros Hv. unfold encode_integer. change (4 :: ?x) with ([4] ++ x).
  eapply emits_bind; [apply write_byte_emits; unfold byte; lia|].
  eapply emits_ext; [eapply emits_bind; [apply write_u29_emits; exact Hv|apply emits_ret]|apply app_nil_r|].
  rewrite len_app. reflexivity.
Qed.
Lemma encode_double_emits b : emits (encode_double b) (5 :: be64 b) (len (5 :: be64 b)).
Proof.
  unfold encode_double. change (5 :: be64 b) with ([5] ++ be64 b).
  eapply emits_bind; [apply write_byte_emits; unfold byte; lia|].
  eapply emits_ext; [eapply emits_bind; [apply emits_write|apply emits_ret]|apply app_nil_r|].
  rewrite len_app, len_be64. reflexivity.
Qed.

Lemma encode_object3_emits ty (fs : list (bytes * Wm Z)) (gs : list (bytes * bytes)) :
  len ty < 268435456 -> len fs < 33554432 ->
  map fst fs = map fst gs ->
  Forall2 (fun f g => emits (snd f) (snd g) (len (snd g))) fs gs ->
  Forall (fun f => len (fst f) < 268435456) fs ->
  let s := 10 :: wire_u29 (16 * len fs + 3) ++ wire_str3 ty ++
           concat (map wire_str3 (map fst (sort_keys gs))) ++ concat (map snd (sort_keys gs)) in
  emits (encode_object3 ty fs) s (len s).
Proof.
  intros Hty Hlen Hfst HF Hkeys s.
  assert (Hsort : map fst (sort_keys fs) = map fst (sort_keys gs) /\
                  Forall2 (fun f g => emits (snd f) (snd g) (len (snd g))) (sort_keys fs) (sort_keys gs)).
  { clear - Hfst HF. induction HF as [|f g fs gs Hf HF IH]; cbn [sort_keys map] in *; [split; [reflexivity|constructor]|].
    assert (H1 : fst f = fst g /\ map fst fs = map fst gs) by (split; congruence).
    destruct H1 as [H1 H2]. specialize (IH H2). destruct IH as [I1 I2].
    revert I1 I2. generalize (sort_keys fs) (sort_keys gs). intros l l'. revert l'.
    induction l as [|x l IHl]; intros l' I1 I2; [|inversion I2 as [|? ? ? ? I3 I4]; subst]; [inversion I2; subst|]; cbn [insert_key map] in *.
    - split; [congruence|repeat constructor; assumption].
    - injection I1 as E1 E2. rewrite <- E1, <- H1.
      destruct (bytes_leb (fst f) (fst x)); cbn [map].
      + split; [congruence|constructor; [assumption|constructor; assumption]].
      + destruct (IHl _ E2 I4) as [J1 J2]. split; [congruence|constructor; assumption]. }
  destruct Hsort as [S1 S2].
  assert (Hk : Forall (fun f => len (fst f) < 268435456) (sort_keys fs))
    by (eapply Permutation_Forall; [apply sort_keys_perm|exact Hkeys]).
  unfold encode_object3. cbv zeta.
  rewrite <- (len_perm _ _ (sort_keys_perm fs)).
  pose proof (len_nonneg fs) as Hl0.
  rewrite (u32_id (len fs)) by lia. rewrite shiftl_mul by lia. change (2 ^ 4) with 16.
  rewrite u32_id by lia. rewrite (Z.mul_comm (len fs) 16), lor_3.
  unfold s. change (10 :: ?x) with ([10] ++ x).
  eapply emits_bind; [apply write_byte_emits; unfold byte; lia|].
  eapply emits_bind; [apply write_u29_emits; lia|].
  eapply emits_bind; [apply encode_utf8_emits; exact Hty|].
  eapply emits_bind.
  - apply (w_sum_emits _ (map wire_str3 (map fst (sort_keys gs)))). rewrite <- S1.
    clear - Hk. induction Hk; cbn [map]; constructor; [apply encode_utf8_emits; assumption|assumption].
  - eapply emits_ext; [eapply emits_bind; [apply (w_sum_emits _ (map snd (sort_keys gs)))|apply emits_ret]|apply app_nil_r|].
    + clear - S2. induction S2; cbn [map]; constructor; assumption.
    + rewrite !len_app. change (len [10]) with 1. lia.
Qed.

Theorem encode3_emits t : ok3 t -> emits (encode3 t) (w3 t) (len (w3 t)).
Proof.
  induction t as [|b|b|w z|w z|s|s|s|l IH|fs IH|ty fs IH|] using tree_ind'; cbn [ok3]; intros Hok;
    try contradiction; cbn [encode3 w3].
  - eapply emits_ext; [eapply emits_bind; [apply write_byte_emits; unfold byte; lia|apply emits_ret]|reflexivity|reflexivity].
  - destruct b; (eapply emits_ext; [eapply emits_bind; [apply write_byte_emits; unfold byte; lia|apply emits_ret]|reflexivity|reflexivity]).
  - apply encode_double_emits.
  - destruct Hok as [Hr Hc]. destruct w; cbn [negb andb]; [apply encode_double_emits|].
    destruct ((-536870911 <=? z) && (z <? 536870911)) eqn:E.
    + replace ((0 <=? z) && (z <? 536870911)) with true by (destruct Hc as [Hc|[Hc|Hc]]; [congruence|lia|lia]).
      rewrite u32_id by (destruct Hc as [Hc|[Hc|Hc]]; [congruence|lia|lia]).
      apply encode_integer_emits. destruct Hc as [Hc|[Hc|Hc]]; [congruence|lia|lia].
    + replace ((0 <=? z) && (z <? 536870911)) with false by lia. apply encode_double_emits.
  - destruct w; cbn [negb andb]; [apply encode_double_emits|].
    destruct (z <? 536870911) eqn:E.
    + replace ((0 <=? z) && true) with true by lia. rewrite u32_id by lia. apply encode_integer_emits. lia.
    + rewrite andb_false_r. apply encode_double_emits.
  - unfold encode_string3. change (6 :: ?x) with ([6] ++ x).
    eapply emits_bind; [apply write_byte_emits; unfold byte; lia|].
    eapply emits_ext; [eapply emits_bind; [apply encode_utf8_emits; tauto|apply emits_ret]|apply app_nil_r|].
    rewrite len_app. reflexivity.
  - unfold encode_date3. change (8 :: 1 :: ?x) with ([8] ++ [1] ++ x).
    eapply emits_bind; [apply write_byte_emits; unfold byte; lia|].
    eapply emits_bind; [apply write_byte_emits; unfold byte; lia|].
    eapply emits_ext; [eapply emits_bind; [apply emits_write|apply emits_ret]|apply app_nil_r|].
    rewrite !len_app, len_be64. reflexivity.
  - unfold encode_bytearray3, wire_str3. change (12 :: ?x) with ([12] ++ x). pose proof (len_nonneg s).
    eapply emits_bind; [apply write_byte_emits; unfold byte; lia|].
    eapply emits_bind; [apply encode_u29_emits; lia|].
    eapply emits_ext; [eapply emits_bind; [apply emits_write|apply emits_ret]|apply app_nil_r|].
    rewrite !len_app. change (len [12]) with 1. lia.
  - destruct Hok as [Hlen Hall]. apply all_of_map in Hall. unfold encode_array3.
    rewrite len_map. change (9 :: ?x) with ([9] ++ x). pose proof (len_nonneg l).
    eapply emits_bind; [apply write_byte_emits; unfold byte; lia|].
    eapply emits_bind; [apply encode_u29_emits; lia|].
    change [1] with (wire_str3 []).
    eapply emits_bind; [apply encode_utf8_emits; unfold len; cbn [length]; lia|].
    eapply emits_ext; [eapply emits_bind; [apply (w_sum_emits (map encode3 l) (map w3 l))|apply emits_ret]| |].
    + clear Hlen H. induction l as [|x l IHl]; cbn [map]; constructor; inversion IH; inversion Hall; subst; auto.
    + apply app_nil_r.
    + rewrite !len_app. change (len [9]) with 1. lia.
  - destruct Hok as (Hlen & Hnd & Hall). apply all_of_map in Hall.
    pose proof (encode_object3_emits [] (map (fun p => (fst p, encode3 (snd p))) fs)
                  (map (fun p => (fst p, w3 (snd p))) fs)) as H.
    cbv zeta in H. rewrite len_map in H. rewrite sort_keys_fst in H.
    apply H; clear H.
    + unfold len; cbn [length]; lia.
    + exact Hlen.
    + rewrite !map_map. reflexivity.
    + clear Hlen Hnd. induction fs as [|[k t] fs IHfs]; cbn [map]; constructor; inversion IH; inversion Hall; subst; auto.
      cbn [fst snd] in *. tauto.
    + rewrite Forall_map. eapply Forall_impl; [|exact Hall]. cbn beta. intros [k t]; cbn [fst snd]. tauto.
  - destruct Hok as ([Htb Htl] & Hlen & Hnd & Hall). apply all_of_map in Hall.
    pose proof (encode_object3_emits ty (map (fun p => (fst p, encode3 (snd p))) fs)
                  (map (fun p => (fst p, w3 (snd p))) fs)) as H.
    cbv zeta in H. rewrite len_map in H. rewrite sort_keys_fst in H.
    apply H; clear H.
    + exact Htl.
    + exact Hlen.
    + rewrite !map_map. reflexivity.
    + clear Hlen Hnd. induction fs as [|[k t] fs IHfs]; cbn [map]; constructor; inversion IH; inversion Hall; subst; auto.
      cbn [fst snd] in *. tauto.
    + rewrite Forall_map. eapply Forall_impl; [|exact Hall]. cbn beta. intros [k t]; cbn [fst snd]. tauto.
Qed.
