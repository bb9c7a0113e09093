(** Further AMF3 facts: U29 ranges, counts, writer failures, map order, batches, string table. *)
From Coq Require Import Permutation Sorted.
From Verif Require Import Base.Go Base.GoFacts Base.IO Base.Float64 Proofs.Float64 Proofs.IOFacts
  Model.AmfTypes Model.Amf3 Model.Amf0 Spec.Amf Proofs.AmfFacts Proofs.Amf0Enc Proofs.Amf0RT Proofs.AmfTerm Proofs.AmfTame
  Proofs.Amf0More Proofs.AmfHeap Proofs.Amf3Enc Proofs.Amf3RT.
Local Ltac Zify.zify_post_hook ::= Z.div_mod_to_equations.

Lemma set_r_set_r r r' d : set_r r (set_r r' d) = set_r r d.
Proof. reflexivity. Qed.

(** * U29 *)
Lemma read_byte_any d d' b : read_byte d = (d', Ok b) -> r_rest (d_r d) = b :: r_rest (d_r d').
Proof.
  unfold read_byte, dbind, read_bytes. destruct (read_rest 1 (d_r d)) as (p & Hp & Hs & _ & _).
  destruct (read 1 (d_r d)) as [r' [s|e| |]]; cbn [fst snd] in *; try discriminate.
  destruct (len s =? 1) eqn:E; [|discriminate]. intros H. inversion H; subst. cbn [set_r d_r].
  specialize (Hs s eq_refl). subst p. rewrite Hp. destruct s as [|x [|y s]]; [discriminate|reflexivity|].
  exfalso. rewrite !len_cons in E. pose proof (len_nonneg s). lia.
Qed.

Lemma dbind_inv {A B} (m : Dm A) (k : A -> Dm B) d d' b : dbind m k d = (d', Ok b) ->
  exists d1 a, m d = (d1, Ok a) /\ k a d1 = (d', Ok b).
Proof.
  unfold dbind. destruct (m d) as [d1 [a|e| |]]; try discriminate. intros H. exists d1, a. auto.
Qed.

Lemma read_u29_any d d' v : is_bytes (r_rest (d_r d)) -> read_u29 d = (d', Ok v) ->
  exists used, r_rest (d_r d) = used ++ r_rest (d_r d') /\ 0 <= v < 536870912 /\
    (len used = 1 /\ v < 128 \/ len used = 2 /\ v < 16384 \/ len used = 3 /\ v < 2097152 \/ len used = 4).
Proof.
  intros HB E. unfold read_u29 in E. cbv zeta in E.
  apply dbind_inv in E. destruct E as (d1 & b1 & E1 & E). apply read_byte_any in E1. rewrite E1 in *.
  unfold is_bytes in HB. apply Forall_cons_iff in HB. destruct HB as [B1 HB]. unfold byte in B1.
  rewrite land127, shiftl_mul in E by lia. change (2 ^ 7) with 128 in E.
  destruct (Z.land b1 128 =? 0).
  { unfold dret in E. inversion E; subst. exists [b1]. unfold u32, len; cbn [length app].
    split; [reflexivity|]. split; [lia|]. left. lia. }
  apply dbind_inv in E. destruct E as (d2 & b2 & E2 & E). apply read_byte_any in E2. rewrite E2 in *.
  apply Forall_cons_iff in HB. destruct HB as [B2 HB]. unfold byte in B2.
  rewrite land127, shiftl_mul in E by lia. change (2 ^ 7) with 128 in E.
  destruct (Z.land b2 128 =? 0).
  { unfold dret in E. inversion E; subst. exists [b1; b2]. unfold u32, len; cbn [length app].
    split; [reflexivity|]. split; [lia|]. right; left. lia. }
  apply dbind_inv in E. destruct E as (d3 & b3 & E3 & E). apply read_byte_any in E3. rewrite E3 in *.
  apply Forall_cons_iff in HB. destruct HB as [B3 HB]. unfold byte in B3.
  rewrite land127, shiftl_mul in E by lia. change (2 ^ 7) with 128 in E.
  destruct (Z.land b3 128 =? 0).
  { unfold dret in E. inversion E; subst. exists [b1; b2; b3]. unfold u32, len; cbn [length app].
    split; [reflexivity|]. split; [lia|]. right; right; left. lia. }
  apply dbind_inv in E. destruct E as (d4 & b4 & E4 & E). apply read_byte_any in E4. rewrite E4 in *.
  apply Forall_cons_iff in HB. destruct HB as [B4 HB]. unfold byte in B4.
  rewrite shiftl_mul in E by lia. change (2 ^ 8) with 256 in E.
  unfold dret in E. inversion E; subst. exists [b1; b2; b3; b4]. unfold u32, len; cbn [length app].
  split; [reflexivity|]. split; [lia|]. right; right; right. lia.
Qed.

Lemma wire_u29_shortest v n : 0 <= v < 536870912 ->
  (n = 1 /\ v < 128 \/ n = 2 /\ v < 16384 \/ n = 3 /\ v < 2097152 \/ n = 4) -> len (wire_u29 v) <= n.
Proof.
  intros Hv Hn. unfold wire_u29.
  destruct (v <? 128) eqn:E1; [unfold len; cbn [length]; lia|].
  destruct (v <? 16384) eqn:E2; [unfold len; cbn [length]; lia|].
  destruct (v <? 2097152) eqn:E3; unfold len; cbn [length]; lia.
Qed.

(** * Counts and failures *)
Lemma count3_u29 v : honest count_q (write_u29 v).
Proof.
  unfold write_u29. repeat match goal with |- honest _ (if ?c then _ else _) => destruct c end;
    try apply honest_fail; cw; cret.
Qed.
Lemma count3_utf8 s : honest count_q (encode_utf8 s).
Proof.
  unfold encode_utf8, encode_u29. eapply (@honest_bind _ _ count_q); [apply count3_u29|]. intros x n H. unfold count_q in H.
  cw. cret.
Qed.
Lemma count3_double b : honest count_q (encode_double b).
Proof. unfold encode_double, write_byte. cw. cw. cret. reflexivity. Qed.
Lemma count3_integer b : honest count_q (encode_integer b).
Proof.
  unfold encode_integer, write_byte. cw. eapply (@honest_bind _ _ count_q); [apply count3_u29|]. intros x n H. unfold count_q in H. cret.
Qed.
Lemma count3_object ty fs : Forall (fun p => honest count_q (snd p)) fs -> honest count_q (encode_object3 ty fs).
Proof.
  intros HF. unfold encode_object3, write_byte. cbv zeta. cw.
  eapply (@honest_bind _ _ count_q); [apply count3_u29|]. intros x1 n1 H1.
  eapply (@honest_bind _ _ count_q); [apply count3_utf8|]. intros x2 n2 H2.
  eapply (@honest_bind _ _ count_q); [apply count_w_sum, Forall_map, Forall_forall; intros; apply count3_utf8|]. intros x3 n3 H3.
  eapply (@honest_bind _ _ count_q).
  { apply count_w_sum, Forall_map. eapply Permutation_Forall; [apply sort_keys_perm|exact HF]. }
  intros x4 n4 H4. unfold count_q in *. cret.
Qed.
Theorem encode3_count t : honest count_q (encode3 t).
Proof.
  induction t as [|b|b|w z|w z|s|s|s|l IH|fs IH|ty fs IH|] using tree_ind'; cbn [encode3].
  - unfold write_byte. cw. cret.
  - unfold write_byte. destruct b; cw; cret.
  - apply count3_double.
  - destruct w; [apply count3_double|].
    match goal with |- honest _ (if ?c then _ else _) => destruct c end; [apply count3_integer|apply count3_double].
  - destruct w; [apply count3_double|].
    match goal with |- honest _ (if ?c then _ else _) => destruct c end; [apply count3_integer|apply count3_double].
  - unfold encode_string3, write_byte. cw. eapply (@honest_bind _ _ count_q); [apply count3_utf8|]. intros x n H. unfold count_q in H. cret.
  - unfold encode_date3, write_byte. cw. cw. cw. cret. rewrite len_be64. lia.
  - unfold encode_bytearray3, encode_u29, write_byte. cw. eapply (@honest_bind _ _ count_q); [apply count3_u29|]. intros x n H. unfold count_q in H.
    cw. cret.
  - unfold encode_array3, encode_u29, write_byte. cw.
    eapply (@honest_bind _ _ count_q); [apply count3_u29|]. intros x1 n1 H1.
    eapply (@honest_bind _ _ count_q); [apply count3_utf8|]. intros x2 n2 H2.
    eapply (@honest_bind _ _ count_q); [apply count_w_sum, Forall_map; exact IH|]. intros x3 n3 H3. unfold count_q in *. cret.
  - apply count3_object, Forall_map. exact IH.
  - apply count3_object, Forall_map. exact IH.
  - apply honest_fail.
Qed.

(** * Order of the fields *)
Lemma key_lt_irrefl a : ~ key_lt a a.
Proof. induction a as [|x a IH]; intros H; inversion H; subst; [lia|tauto]. Qed.

Lemma sorted_unique {A} (l : list (bytes * A)) : forall l', Permutation l l' ->
  StronglySorted key_lt (map fst l) -> StronglySorted key_lt (map fst l') -> l = l'.
Proof.
  induction l as [|x l IH]; intros l' HP HS HS'.
  - apply Permutation_nil in HP. auto.
  - destruct l' as [|y l']; [apply Permutation_sym, Permutation_nil in HP; discriminate|].
    cbn [map] in HS, HS'. inversion HS as [|? ? S1 F1]; inversion HS' as [|? ? S2 F2]; subst.
    assert (Hxy : x = y).
    { assert (Hx : In x (y :: l')) by (eapply Permutation_in; [exact HP|left; reflexivity]).
      assert (Hy : In y (x :: l)) by (eapply Permutation_in; [apply Permutation_sym; exact HP|left; reflexivity]).
      destruct Hx as [Hx|Hx]; [auto|]. destruct Hy as [Hy|Hy]; [auto|]. exfalso.
      rewrite Forall_forall in F1, F2.
      apply (key_lt_irrefl (fst x)). eapply key_lt_trans; [apply F1, in_map, Hy|apply F2, in_map, Hx]. }
    subst y. f_equal. apply IH; [|exact S1|exact S2]. eapply Permutation_cons_inv; exact HP.
Qed.
Lemma sort_keys_of_perm {A} (l l' : list (bytes * A)) : Permutation l l' -> NoDup (map fst l) -> sort_keys l = sort_keys l'.
Proof.
  intros HP HN. apply sorted_unique; [|apply sort_keys_sorted; exact HN|apply sort_keys_sorted].
  - eapply perm_trans; [apply Permutation_sym, sort_keys_perm|]. eapply perm_trans; [exact HP|apply sort_keys_perm].
  - eapply Permutation_NoDup; [apply Permutation_map, HP|exact HN].
Qed.

Lemma w3_same t : forall t', same_value t t' -> ok3 t -> w3 t = w3 t'.
Proof.
  assert (G : forall fs, Forall (fun p => forall t', same_value (snd p) t' -> ok3 (snd p) -> w3 (snd p) = w3 t') fs ->
     forall gs fs', Forall2 (fun a b => fst a = fst b /\ same_value (snd a) (snd b)) fs gs -> Permutation gs fs' ->
     NoDup (map fst fs) -> Forall (fun p => ok3 (snd p)) fs ->
     len fs = len fs' /\ map fst (sort_keys fs) = map fst (sort_keys fs') /\
     map snd (sort_keys (map (fun p => (fst p, w3 (snd p))) fs)) = map snd (sort_keys (map (fun p => (fst p, w3 (snd p))) fs'))).
  { intros fs IH gs fs' H1 H2 Hnd Hall.
    assert (EQ : map (fun p => (fst p, w3 (snd p))) fs = map (fun p => (fst p, w3 (snd p))) gs).
    { clear - IH H1 Hall. induction H1 as [|a b fs gs [E S] _ IHf]; [reflexivity|]. inversion IH; inversion Hall; subst.
      cbn [map]. f_equal; [|auto]. f_equal; auto. }
    assert (HP : Permutation (map (fun p => (fst p, w3 (snd p))) fs) (map (fun p => (fst p, w3 (snd p))) fs'))
      by (rewrite EQ; apply Permutation_map, H2).
    assert (HN : NoDup (map fst (map (fun p => (fst p, w3 (snd p))) fs))) by (rewrite map_map; exact Hnd).
    split; [|split].
    - rewrite <- (len_map (fun p => (fst p, w3 (snd p))) fs), (len_perm _ _ HP), len_map. reflexivity.
    - rewrite <- (sort_keys_fst w3 fs), <- (sort_keys_fst w3 fs'). f_equal. apply sort_keys_of_perm; assumption.
    - f_equal. apply sort_keys_of_perm; assumption. }
  induction t as [|b|b|w z|w z|s|s|s|l IH|fs IH|ty fs IH|] using tree_ind'; intros t' HS Hok; inversion HS; subst; try reflexivity;
    match goal with HF : Forall2 _ _ _ |- _ => rename HF into HF2 end;
    try match goal with HP : Permutation _ _ |- _ => rename HP into HP2 end.
  - destruct Hok as [_ Hall]. apply all_of_map in Hall. cbn [w3].
    assert (E : map w3 l = map w3 l' /\ len l = len l').
    { clear - IH HF2 Hall. induction HF2 as [|a b l l' E _ IHl]; [split; reflexivity|]. inversion IH; inversion Hall; subst.
      destruct IHl as [J1 J2]; auto. cbn [map]. rewrite !len_cons. split; [f_equal; auto|lia]. }
    destruct E as [E1 E2]. rewrite E1, E2. reflexivity.
  - destruct Hok as (_ & Hnd & Hall). apply all_of_map in Hall. cbn [w3].
    destruct (G fs IH gs fs' HF2 HP2 Hnd) as (E1 & E2 & E3); [eapply Forall_impl; [|exact Hall]; cbn; tauto|].
    rewrite E1, E2, E3. reflexivity.
  - destruct Hok as (_ & _ & Hnd & Hall). apply all_of_map in Hall. cbn [w3].
    destruct (G fs IH gs fs' HF2 HP2 Hnd) as (E1 & E2 & E3); [eapply Forall_impl; [|exact Hall]; cbn; tauto|].
    rewrite E1, E2, E3. reflexivity.
Qed.

(** The relational specifications are functional. *)
Lemma forall2_fun {A B} (R : A -> B -> Prop) (f : A -> B) l ss :
  Forall (fun t => forall s, R t s -> s = f t) l -> Forall2 R l ss -> ss = map f l.
Proof.
  intros HF H2. induction H2 as [|x y l ss Hx _ IH]; [reflexivity|]. inversion HF; subst. cbn [map]. f_equal; auto.
Qed.
Lemma sorted_is (fs fs' : list (bytes * tree)) : Permutation fs fs' -> StronglySorted key_lt (map fst fs') -> NoDup (map fst fs) ->
  fs' = sort_keys fs.
Proof.
  intros HP HS HN. apply sorted_unique; [|exact HS|apply sort_keys_sorted, HN].
  eapply perm_trans; [apply Permutation_sym, HP|apply sort_keys_perm].
Qed.
Lemma wire3_fun t : ok3 t -> forall s, wire3 t s -> s = w3 t.
Proof.
  assert (G : forall fs fs' ss, Forall (fun p => ok3 (snd p) -> forall s, wire3 (snd p) s -> s = w3 (snd p)) fs ->
    Forall (fun p => ok3 (snd p)) fs -> NoDup (map fst fs) -> Permutation fs fs' ->
    StronglySorted key_lt (map fst fs') -> Forall2 wire3 (map snd fs') ss ->
    fs' = sort_keys fs /\ ss = map snd (sort_keys (map (fun p => (fst p, w3 (snd p))) fs))).
  { intros fs fs' ss IH Hall Hnd HP HS H2. split; [apply sorted_is; assumption|].
    rewrite (sorted_of w3). rewrite <- (sorted_is fs fs' HP HS Hnd). rewrite <- (map_map snd w3).
    apply forall2_fun with (R := wire3); [|exact H2]. rewrite Forall_map.
    apply (Permutation_Forall HP). rewrite Forall_forall in *. intros x Hx. apply IH; [exact Hx|apply Hall; exact Hx]. }
  induction t as [|b|b|w z|w z|s|s|s|l IH|fs IH|ty fs IH|] using tree_ind'; cbn [ok3]; intros Hok x HW;
    try contradiction; inversion HW; subst; try reflexivity;
    try (match goal with H : (if ?sg then _ else _) = _ |- _ => destruct sg; inversion H; subst; clear H end; cbn [w3]).
  - replace (negb false && (0 <=? z) && (z <? 536870911)) with true by (cbn; lia). reflexivity.
  - replace (negb w && (0 <=? z) && (z <? 536870911)) with false by (destruct w; cbn; [reflexivity|destruct H0 as [H0|H0]; [discriminate|lia]]). reflexivity.
  - replace (negb false && (0 <=? z) && (z <? 536870911)) with true by (cbn; lia). reflexivity.
  - replace (negb w && (0 <=? z) && (z <? 536870911)) with false by (destruct w; cbn; [reflexivity|destruct H0 as [H0|H0]; [discriminate|lia]]). reflexivity.
  - destruct Hok as [_ Hall]. apply all_of_map in Hall. cbn [w3].
    assert (E : ss = map w3 l) by (apply forall2_fun with (R := wire3); [|assumption]; rewrite Forall_forall in *; intros y Hy; apply IH; [exact Hy|apply Hall; exact Hy]).
    subst ss. reflexivity.
  - destruct Hok as (_ & Hnd & Hall). apply all_of_map in Hall. cbn [w3].
    destruct (G fs fs' ss IH) as [E1 E2]; try assumption; [eapply Forall_impl; [|exact Hall]; cbn; tauto|].
    subst. reflexivity.
  - destruct Hok as (_ & _ & Hnd & Hall). apply all_of_map in Hall. cbn [w3].
    destruct (G fs fs' ss IH) as [E1 E2]; try assumption; [eapply Forall_impl; [|exact Hall]; cbn; tauto|].
    subst. reflexivity.
Qed.
Lemma strings3_fun t : ok3 t -> forall s, strings3 t s -> s = st3 t.
Proof.
  assert (G : forall fs fs' ss, Forall (fun p => ok3 (snd p) -> forall s, strings3 (snd p) s -> s = st3 (snd p)) fs ->
    Forall (fun p => ok3 (snd p)) fs -> NoDup (map fst fs) -> Permutation fs fs' ->
    StronglySorted key_lt (map fst fs') -> Forall2 strings3 (map snd fs') ss ->
    fs' = sort_keys fs /\ ss = map snd (sort_keys (map (fun p => (fst p, st3 (snd p))) fs))).
  { intros fs fs' ss IH Hall Hnd HP HS H2. split; [apply sorted_is; assumption|].
    rewrite (sorted_of st3). rewrite <- (sorted_is fs fs' HP HS Hnd). rewrite <- (map_map snd st3).
    apply forall2_fun with (R := strings3); [|exact H2]. rewrite Forall_map.
    apply (Permutation_Forall HP). rewrite Forall_forall in *. intros x Hx. apply IH; [exact Hx|apply Hall; exact Hx]. }
  induction t as [|b|b|w z|w z|s|s|s|l IH|fs IH|ty fs IH|] using tree_ind'; cbn [ok3]; intros Hok x HW;
    try contradiction; inversion HW; subst; try reflexivity; try contradiction.
  - destruct Hok as [_ Hall]. apply all_of_map in Hall. cbn [st3].
    assert (E : ss = map st3 l) by (apply forall2_fun with (R := strings3); [|assumption]; rewrite Forall_forall in *; intros y Hy; apply IH; [exact Hy|apply Hall; exact Hy]).
    subst ss. reflexivity.
  - destruct Hok as (_ & Hnd & Hall). apply all_of_map in Hall. cbn [st3].
    destruct (G fs fs' ss IH) as [E1 E2]; try assumption; [eapply Forall_impl; [|exact Hall]; cbn; tauto|].
    subst. reflexivity.
  - destruct Hok as (_ & _ & Hnd & Hall). apply all_of_map in Hall. cbn [st3].
    destruct (G fs fs' ss IH) as [E1 E2]; try assumption; [eapply Forall_impl; [|exact Hall]; cbn; tauto|].
    subst. reflexivity.
Qed.

(** * Round trips at the level of the API *)
Lemma decode3_wire t d rest e : ok3 t -> d_r d = contr (w3 t ++ rest) e ->
  exists d' v, decode3 d = (d', Ok v) /\ d_r d' = contr rest e /\ extends (d_heap d) (d_heap d') /\
    (forall H, extends (d_heap d') H -> unfolds H v (img3 t)) /\ d_str3 d' = d_str3 d ++ st3 t.
Proof.
  intros Hok Hr. unfold decode3. rewrite (fuel_for_contr _ _ _ Hr).
  destruct (dec3_wire t Hok (S (length (w3 t ++ rest))) d rest e) as (d' & v & hs & H1 & H2 & H3 & H4 & H5);
    [rewrite app_length; lia|exact Hr|].
  exists d', v. split; [exact H1|]. split; [exact H2|]. split; [exists hs; exact H3|]. split; [|exact H5].
  intros H [x ->]. apply H4. intros i Hi. rewrite nth_error_app1 by lia. reflexivity.
Qed.

Lemma encode_batch3_emits ts : Forall ok3 ts -> emits (encode_batch3 ts) (concat (map w3 ts)) tt.
Proof.
  induction 1 as [|t ts Ht _ IH]; cbn [encode_batch3 map concat]; [apply emits_ret|].
  eapply emits_bind; [apply encode3_emits, Ht|exact IH].
Qed.

Lemma batch3_wire ts : Forall ok3 ts -> forall fuel d e, (length ts < fuel)%nat ->
  d_r d = contr (concat (map w3 ts)) e ->
  exists d' vs, batch3 fuel d = (d', (vs, batch_end e)) /\ d_r d' = contr [] e /\ extends (d_heap d) (d_heap d') /\
    (forall H, extends (d_heap d') H -> Forall2 (unfolds H) vs (map img3 ts)) /\
    d_str3 d' = d_str3 d ++ concat (map st3 ts).
Proof.
  induction 1 as [|t ts Ht Hts IH]; intros [|fuel] d e Hf Hr; try (cbn in Hf; lia).
  - cbn [batch3 map concat] in *. unfold decode3, fuel_for. rewrite Hr. cbn [contr r_rest r_chunks concat length dec3].
    unfold dbind, read_byte, dbind, read_bytes, read. rewrite Hr. cbn [contr r_chunks]. change (1 =? 0) with false. cbn [andb contr r_end].
    eexists (set_r (contr [] e) d), []. split; [unfold batch_end; destruct (e_err e); reflexivity|]. split; [reflexivity|]. split; [apply extends_refl|]. split; [intros; constructor|].
    symmetry. apply app_nil_r.
  - cbn [map concat] in Hr. cbn [batch3].
    destruct (decode3_wire t d (concat (map w3 ts)) e Ht Hr) as (d1 & v & E1 & R1 & X1 & U1 & S1).
    rewrite E1. cbn [length] in Hf.
    destruct (IH fuel d1 e) as (d2 & vs & E2 & R2 & X2 & U2 & S2); [lia|exact R1|].
    rewrite E2. exists d2, (v :: vs). split; [reflexivity|]. split; [exact R2|].
    split; [eapply extends_trans; eassumption|]. split.
    + intros H HH. cbn [map]. constructor; [|apply U2, HH]. apply U1. eapply extends_trans; eassumption.
    + rewrite S2, S1. cbn [map concat]. rewrite <- app_assoc. reflexivity.
Qed.
Lemma decode_batch3_wire ts d e : Forall ok3 ts -> d_r d = contr (concat (map w3 ts)) e ->
  exists d' vs, decode_batch3 d = (d', (vs, batch_end e)) /\ r_rest (d_r d') = [] /\ Forall2 (unfolds (d_heap d')) vs (map img3 ts) /\
    d_str3 d' = d_str3 d ++ concat (map st3 ts).
Proof.
  intros Hok Hr. unfold decode_batch3. rewrite (fuel_for_contr _ _ _ Hr).
  destruct (batch3_wire ts Hok (S (length (concat (map w3 ts)))) d e) as (d' & vs & E & R & _ & U & S'); try assumption.
  { clear - Hok. induction Hok as [|t ts Ht _ IHl]; cbn [map concat length]; [lia|].
    rewrite app_length. pose proof (w3_nonempty t Ht). lia. }
  exists d', vs. split; [exact E|]. split; [rewrite R; apply contr_rest|]. split; [apply U, extends_refl|exact S'].
Qed.

Lemma batch3_done fuel : forall d, (rem d < fuel)%nat ->
  snd (snd (batch3 fuel d)) <> OutOfFuel /\ snd (snd (batch3 fuel d)) <> Panic /\
  (snd (snd (batch3 fuel d)) = Ok tt -> r_rest (d_r (fst (batch3 fuel d))) = [] /\ e_err (r_end (d_r d)) = EEof).
Proof.
  induction fuel as [|f IH]; intros d Hd; [lia|]. cbn [batch3].
  assert (Hs : sane false true decode3 d) by (unfold sane, decode3; apply sane_dec3; unfold fuel_for, rem; lia).
  pose proof (tame_dec3 (fuel_for d) d) as [St Ht]. fold (decode3 d) in St, Ht.
  destruct Hs as (S1 & S2 & S3 & S4).
  destruct (decode3 d) as [d1 [v|e| |]]; cbn [fst snd] in *.
  - specialize (S4 eq_refl v eq_refl). specialize (IH d1 ltac:(lia)).
    destruct St as (_ & _ & _ & _ & _ & St & _). rewrite St in IH. destruct (batch3 f d1) as [d2 [vs r]]. exact IH.
  - destruct e; cbn [fst snd]; split; try discriminate; split; try discriminate. intros _. apply Ht. reflexivity.
  - destruct (S2 eq_refl). discriminate.
  - congruence.
Qed.
Lemma batch3_not_eof fuel : forall d, snd (snd (batch3 fuel d)) <> Err EEof.
Proof.
  induction fuel as [|f IH]; intros d; cbn [batch3]; [discriminate|]. destruct (decode3 d) as [d1 [v|[]| |]]; try discriminate.
  specialize (IH d1). destruct (batch3 f d1) as [d2 [vs r]]. exact IH.
Qed.

(** * References *)
Lemma read_ref d i rest e : 0 <= i < 268435456 -> d_r d = contr (wire_u29 (2 * i) ++ rest) e ->
  decode_u29 d = (set_r (contr rest e) d, Ok (true, i)).
Proof.
  intros Hi Hr. unfold decode_u29.
  erewrite dbind_ok by (eapply read_u29_contr; [|exact Hr]; lia). unfold dret. do 2 f_equal.
  change 1 with (2 ^ 1 - 1) at 1. rewrite land_ones, shiftr_div by lia. change (2 ^ 1) with 2.
  f_equal; lia.
Qed.
Lemma decode3_strref d i rest e : 0 <= i < 268435456 -> d_r d = contr (6 :: wire_u29 (2 * i) ++ rest) e ->
  decode3 d = (set_r (contr rest e) d, match nth_error (d_str3 d) (Z.to_nat i) with Some s => Ok (VStr s) | None => Err EOther end).
Proof.
  intros Hi Hr. unfold decode3, fuel_for. cbn [dec3].
  erewrite dbind_ok by (apply read_byte_contr; exact Hr). cbn [Z.eqb orb Pos.eqb].
  unfold decode_string3 at 1. unfold dbind at 1 2.
  erewrite read_ref; [|exact Hi|reflexivity]. cbn iota. cbn [d_str3 set_r].
  destruct (len (d_str3 d) <=? i) eqn:E.
  - rewrite (proj2 (nth_error_None _ _)); [reflexivity|]. unfold len in E. lia.
  - destruct (nth_error (d_str3 d) (Z.to_nat i)) as [s|] eqn:En.
    + rewrite (nth_error_nth _ _ _ En). reflexivity.
    + apply nth_error_None in En. unfold len in E. lia.
Qed.
Lemma decode3_objref d m i rest e v : 0 <= i < 268435456 -> d_r d = contr (m :: wire_u29 (2 * i) ++ rest) e ->
  nth_error (d_obj3 d) (Z.to_nat i) = Some v ->
  m = 10 \/ m = 9 /\ (exists l a, v = VEcma l a) \/ m = 8 /\ (exists t, v = VTime t) \/ m = 12 /\ (exists s, v = VBytes s) ->
  decode3 d = (set_r (contr rest e) d, Ok v).
Proof.
  intros Hi Hr Hn Hm. unfold decode3, fuel_for. cbn [dec3].
  assert (Hl : (len (d_obj3 d) <=? i) = false).
  { assert (Z.to_nat i < length (d_obj3 d))%nat by (apply nth_error_Some; congruence). unfold len. lia. }
  assert (Ho : forall x, d_obj3 x = d_obj3 d -> obj3_ref i x = (x, Ok v)).
  { intros x Hx. unfold obj3_ref. rewrite Hx, Hl. rewrite (nth_error_nth _ _ _ Hn). reflexivity. }
  erewrite dbind_ok by (apply read_byte_contr; exact Hr).
  destruct Hm as [->|[[-> (l & a & ->)]|[[-> (t & ->)]|[-> (s & ->)]]]]; cbn [Z.eqb orb Pos.eqb].
  - unfold decode_object3. erewrite dbind_ok by (apply read_ref; [exact Hi|reflexivity]). cbn iota. apply Ho. reflexivity.
  - unfold decode_array3. erewrite dbind_ok by (apply read_ref; [exact Hi|reflexivity]). cbn iota.
    erewrite dbind_ok by (apply Ho; reflexivity). reflexivity.
  - unfold decode_date3. erewrite dbind_ok by (apply read_ref; [exact Hi|reflexivity]). cbn iota.
    erewrite dbind_ok by (apply Ho; reflexivity). reflexivity.
  - unfold decode_bytearray3. erewrite dbind_ok by (apply read_ref; [exact Hi|reflexivity]). cbn iota.
    erewrite dbind_ok by (apply Ho; reflexivity). reflexivity.
Qed.

Lemma step_obj3 {A} (m : Dm A) d x l : tame m -> d_obj3 d = l ++ [x] ->
  nth_error (d_obj3 (fst (m d))) (length l) = Some x.
Proof.
  intros Ht Hd. destruct (Ht d) as [(_ & _ & [y Hy] & _) _]. rewrite Hy, Hd, <- app_assoc. apply nth_error_len.
Qed.

(** Parts of the decoder that leave the object table alone. *)
Definition sameobj {A} (m : Dm A) : Prop := forall d, d_obj3 (fst (m d)) = d_obj3 d.
Lemma sameobj_bind {A B} (m : Dm A) (k : A -> Dm B) : sameobj m -> (forall a, sameobj (k a)) -> sameobj (dbind m k).
Proof.
  intros Hm Hk d. unfold dbind. specialize (Hm d). destruct (m d) as [d1 [a|e| |]]; cbn [fst] in *; try exact Hm.
  rewrite (Hk a d1). exact Hm.
Qed.
Lemma sameobj_ret {A} (a : A) : sameobj (dret a). Proof. intros d. reflexivity. Qed.
Lemma sameobj_read_bytes n : sameobj (read_bytes n).
Proof. intros d. unfold read_bytes. destruct (read n (d_r d)) as [r [s|e| |]]; reflexivity. Qed.
Ltac so := repeat first [ apply sameobj_ret | apply sameobj_read_bytes | apply sameobj_bind; [|intros]
                        | match goal with |- sameobj (if ?c then _ else _) => destruct c end ].
Lemma sameobj_u29 : sameobj decode_u29.
Proof. unfold decode_u29, read_u29, read_byte. so. Qed.
Lemma sameobj_string3 : sameobj decode_string3.
Proof.
  unfold decode_string3. apply sameobj_bind; [apply sameobj_u29|]. intros [b v]. destruct b.
  - intros d. destruct (len (d_str3 d) <=? v); reflexivity.
  - destruct (v =? 0); [so|]. apply sameobj_bind; [so|]. intros s d. reflexivity.
Qed.
Lemma sameobj_loop_n {A} (m : Dm A) f : sameobj m -> forall n, sameobj (loop_n m f n).
Proof.
  intros Hm. induction f; intros n; cbn [loop_n]; destruct (n <=? 0); so; try exact Hm; try apply IHf.
  intros d; reflexivity.
Qed.
Lemma sameobj_trait f v : sameobj (decode_trait f v).
Proof.
  unfold decode_trait. destruct (_ =? 0).
  - intros d. cbv zeta. destruct (len (d_trait3 d) <=? Z.shiftr v 1); reflexivity.
  - cbv zeta. apply sameobj_bind; [apply sameobj_string3|]. intros. apply sameobj_bind; [apply sameobj_loop_n, sameobj_string3|].
    intros p d. reflexivity.
Qed.

Lemma tame_after {A} (m : Dm A) d d' a l x : tame m -> m d = (d', Ok a) -> d_obj3 d = l ++ [x] ->
  nth_error (d_obj3 d') (length l) = Some x.
Proof. intros Ht E Hd. pose proof (step_obj3 m d x l Ht Hd) as H. rewrite E in H. exact H. Qed.

Lemma obj_pushes_nil d s e d' v k : 0 <= k < 268435456 -> d_r d = contr (10 :: wire_u29 (2 * k + 1) ++ s) e ->
  decode3 d = (d', Ok v) -> nth_error (d_obj3 d') (length (d_obj3 d)) = Some VNil.
Proof.
  intros Hk Hr. unfold decode3, fuel_for. cbn [dec3]. generalize (length (r_rest (d_r d))). intros f.
  erewrite dbind_ok by (apply read_byte_contr; exact Hr). cbn [Z.eqb orb Pos.eqb]. intros E.
  unfold decode_object3 in E. erewrite dbind_ok in E by (apply decode_u29_contr; [exact Hk|reflexivity]). cbn iota in E.
  apply dbind_inv in E. destruct E as (d1 & t & E1 & E).
  match type of E1 with _ ?x = _ => pose proof (sameobj_trait f k x) as HS end. rewrite E1 in HS. cbn [fst set_r d_obj3] in HS.
  apply dbind_inv in E. destruct E as (d2 & [] & E2 & E). unfold obj3_push in E2. inversion E2; subst d2; clear E2.
  eapply tame_after; [|exact E|cbn [d_obj3 set_obj3]; rewrite HS; reflexivity].
  destruct (t_ext t).
  - unfold decode_externalizable. repeat (destruct (bytes_eqb _ _)); [| |tame|tame];
    try (apply tame_bind; [first [apply tame_async|apply tame_ack]; apply tame_dec3|intros; tame]); apply tame_dec3.
  - apply tame_bind; [tame|]. intros. apply tame_bind; [apply tame_props_loop, tame_dec3|]. intros.
    apply tame_bind; [destruct (t_dyn t); [apply tame_dyn_loop, tame_dec3|tame]|]. intros; tame.
Qed.
Lemma arr_pushes_empty d s e d' v k : 0 <= k < 268435456 -> d_r d = contr (9 :: wire_u29 (2 * k + 1) ++ s) e ->
  decode3 d = (d', Ok v) -> nth_error (d_obj3 d') (length (d_obj3 d)) = Some (VEcma [] None).
Proof.
  intros Hk Hr. unfold decode3, fuel_for. cbn [dec3]. generalize (length (r_rest (d_r d))). intros f.
  erewrite dbind_ok by (apply read_byte_contr; exact Hr). cbn [Z.eqb orb Pos.eqb]. intros E.
  unfold decode_array3 in E. erewrite dbind_ok in E by (apply decode_u29_contr; [exact Hk|reflexivity]). cbn iota in E.
  apply dbind_inv in E. destruct E as (d1 & t & E1 & E).
  match type of E1 with _ ?x = _ => pose proof (sameobj_string3 x) as HS end. rewrite E1 in HS. cbn [fst set_r d_obj3] in HS.
  apply dbind_inv in E. destruct E as (d2 & [] & E2 & E). unfold obj3_push in E2. inversion E2; subst d2; clear E2.
  eapply tame_after; [|exact E|cbn [d_obj3 set_obj3]; rewrite HS; reflexivity].
  apply tame_bind; [tame|]. intros. apply tame_bind; [apply tame_assoc_loop, tame_dec3|]. intros.
  apply tame_bind; [apply tame_loop_n, tame_dec3|]. intros; tame.
Qed.
Lemma date_pushed d bits s e : 0 <= bits < 18446744073709551616 -> d_r d = contr (8 :: 1 :: be64 bits ++ s) e ->
  exists t, decode3 d = (set_obj3 (d_obj3 d ++ [VTime t]) (set_r (contr s e) d), Ok (VTime t)) /\
            t = f64_to_i64 (f64_div_c bits 1000).
Proof.
  intros Hb Hr. unfold decode3, fuel_for. cbn [dec3]. generalize (length (r_rest (d_r d))). intros f.
  erewrite dbind_ok by (apply read_byte_contr; exact Hr). cbn [Z.eqb orb Pos.eqb].
  exists (f64_to_i64 (f64_div_c bits 1000)). split; [|reflexivity]. unfold decode_date3.
  erewrite dbind_ok by (eapply (decode_u29_contr _ 0); [lia|reflexivity]). cbn iota.
  erewrite dbind_ok.
  2:{ change 8 with (len (be64 bits)). erewrite read_be_contr; [|reflexivity|reflexivity].
      rewrite be_val_be64, Z.mod_small by exact Hb. reflexivity. }
  reflexivity.
Qed.
Lemma bytes_pushed d x s e : 0 < len x < 268435456 -> d_r d = contr (12 :: wire_str3 x ++ s) e ->
  decode3 d = (set_obj3 (d_obj3 d ++ [VBytes x]) (set_r (contr s e) d), Ok (VBytes x)).
Proof.
  intros Hb Hr. unfold decode3, fuel_for. cbn [dec3]. generalize (length (r_rest (d_r d))). intros f.
  erewrite dbind_ok by (apply read_byte_contr; exact Hr). cbn [Z.eqb orb Pos.eqb].
  unfold decode_bytearray3. unfold wire_str3. rewrite <- app_assoc.
  erewrite dbind_ok by (eapply decode_u29_contr; [|reflexivity]; lia). cbn iota.
  replace (len x =? 0) with false by lia.
  erewrite dbind_ok by (eapply read_into_contr; [reflexivity|lia]). reflexivity.
Qed.

(** * Truncated input *)
Lemma read_short s n e : s <> [] -> len s < n -> read n (contr s e) = (contr [] e, Ok s).
Proof.
  intros Hs Hn. unfold read, contr. destruct s as [|x s]; [congruence|]. cbn [r_chunks r_end r_with].
  pose proof (len_nonneg (x :: s)). replace (n =? 0) with false by lia.
  replace (len (x :: s) <=? n) with true by lia. reflexivity.
Qed.
Lemma read_none n e : 0 < n -> read n (contr [] e) = (contr [] e, Err (e_err e)).
Proof. intros Hn. unfold read, contr. cbn [r_chunks]. replace (n =? 0) with false by lia. reflexivity. Qed.

Lemma truncated_blob m d n s e : m = 7 \/ m = 11 \/ m = 12 -> 0 < n < 268435456 -> len s < n ->
  d_r d = contr (m :: wire_u29 (2 * n + 1) ++ s) e ->
  (s = [] -> snd (decode3 d) = Err (e_err e)) /\
  (s <> [] -> snd (decode3 d) = Ok (let x := s ++ repeat 0 (Z.to_nat (n - len s)) in if m =? 12 then VBytes x else VStr x)).
Proof.
  intros Hm Hn Hs Hr.
  assert (G : forall x, d_r x = contr s e -> (s = [] -> read_into n x = (set_r (contr [] e) x, Err (e_err e))) /\
     (s <> [] -> read_into n x = (set_r (contr [] e) x, Ok (s ++ repeat 0 (Z.to_nat (n - len s)))))).
  { intros x Hx. unfold read_into. rewrite Hx. split; intros H.
    - subst s. rewrite read_none by lia. reflexivity.
    - rewrite read_short by assumption. reflexivity. }
  unfold decode3, fuel_for. cbn [dec3]. generalize (length (r_rest (d_r d))). intros f.
  erewrite dbind_ok by (apply read_byte_contr; exact Hr).
  destruct Hm as [->|[->| ->]]; cbn [Z.eqb orb Pos.eqb]; unfold decode_xmldoc3, decode_bytearray3;
  (erewrite dbind_ok by (eapply decode_u29_contr; [|reflexivity]; lia)); cbn iota; replace (n =? 0) with false by lia; rewrite ?set_r_set_r;
  (destruct (G (set_r (contr s e) d) eq_refl) as [G1 G2]; split; intros H; unfold dbind;
   [rewrite (G1 H)|rewrite (G2 H)]; reflexivity).
Qed.
Lemma truncated_string d n s e : 0 < n < 268435456 -> len s < n ->
  d_r d = contr (6 :: wire_u29 (2 * n + 1) ++ s) e -> exists er, snd (decode3 d) = Err er.
Proof.
  intros Hn Hs Hr. unfold decode3, fuel_for. cbn [dec3]. generalize (length (r_rest (d_r d))). intros f.
  erewrite dbind_ok by (apply read_byte_contr; exact Hr). cbn [Z.eqb orb Pos.eqb].
  unfold decode_string3, dbind. rewrite (decode_u29_contr (set_r (contr (wire_u29 (2 * n + 1) ++ s) e) d) n s e ltac:(lia) eq_refl). cbn iota.
  replace (n =? 0) with false by lia. unfold read_bytes. cbn [d_r set_r].
  destruct s as [|x s].
  - rewrite read_none by lia. eexists; reflexivity.
  - rewrite read_short by (try discriminate; assumption). replace (len (x :: s) =? n) with false by lia. eexists; reflexivity.
Qed.

(** * Dynamic members *)
Lemma dynamic_ignored d e s : d_r d = contr (10 :: 11 :: 1 :: s) e ->
  exists d', decode3 d = (d', Ok (VObj (length (d_heap d)))) /\ d_heap d' = d_heap d ++ [[]] /\ d_r d' = contr s e.
Proof.
  intros Hr. unfold decode3, fuel_for. cbn [dec3]. generalize (length (r_rest (d_r d))). intros f.
  erewrite dbind_ok by (apply read_byte_contr; exact Hr). cbn [Z.eqb orb Pos.eqb].
  unfold decode_object3. erewrite dbind_ok by (eapply (decode_u29_contr _ 5); [lia|reflexivity]). cbn iota.
  unfold decode_trait. change (Z.land 5 1 =? 0) with false. cbv iota zeta.
  assert (Es := decode_string3_contr (set_r (contr (1 :: s) e) d) [] s e ltac:(unfold len; cbn; lia) eq_refl).
  cbn [literal] in Es. rewrite app_nil_r in Es.
  rewrite ?set_r_set_r in *. unfold dbind at 1 2. rewrite Es.
  change (Z.shiftr 5 3) with 0.
  destruct f; cbn [loop_n Z.leb]; (eexists; split; [reflexivity|split; reflexivity]).
Qed.
