(** Properties C64-C72, C96-C98: AMF3. *)
From Coq Require Import String Permutation Sorted.
From Verif Require Import Base.Go Base.GoFacts Base.IO Base.Float64 Proofs.Float64 Proofs.IOFacts
  Model.AmfTypes Model.Amf3 Model.Amf0 Spec.Amf Proofs.AmfFacts Proofs.Amf0Enc Proofs.Amf0RT Proofs.AmfTerm Proofs.AmfTame
  Proofs.Amf0More Proofs.AmfHeap Proofs.Amf3Enc Proofs.Amf3RT Proofs.Amf3More.

Definition sample3 : tree :=
  TObj [(str "w", TFloat 4649544402794971136); (str "name", TStr (str "goav"));
        ([], TArr [TStr []; TBool true; TNil; TInt false 5; TInt true (-5); TTime 1500000000]);
        (str "user", TTyped (str "T") [(str "id", TUint false 536870911); (str "b", TBytes [1; 2; 255])])].
Example sample3_ok : ok3 sample3.
Proof.
  unfold sample3. cbn [ok3 map fst snd all_of fold_right].
  assert (B : forall s, Forall byte (str s)).
  { induction s as [|a s IH]; constructor; [|exact IH]. destruct a as [[] [] [] [] [] [] [] []]; unfold byte; cbn; lia. }
  repeat match goal with |- _ /\ _ => split end; try exact I; try apply B; try (cbn; unfold len; cbn; lia);
  try (repeat constructor; cbn; intuition discriminate); repeat constructor; unfold byte; lia.
Qed.

(** ** C64 *)
Theorem C64_u29_written_and_read_back : forall v w, 0 <= v < 2 ^ 29 -> never_fails w ->
  exists n s, write_u29 v w = (mkW (w_out w ++ s) n (w_script w), Ok (len s)) /\ 1 <= len s <= 4 /\
  (forall d rest e, d_r d = cont (s ++ rest) e -> read_u29 d = (set_r (cont rest e) d, Ok v)) /\
  (forall d d' s', is_bytes (r_rest (d_r d)) -> read_u29 d = (d', Ok v) ->
     r_rest (d_r d) = s' ++ r_rest (d_r d') -> len s <= len s').
Proof.
  intros v w Hv Hw. change (2 ^ 29) with 536870912 in Hv.
  destruct (emits_run _ _ _ w (write_u29_emits v Hv) Hw) as [n E].
  exists n, (wire_u29 v). split; [exact E|]. split; [apply wire_u29_len; lia|]. split.
  - intros d rest e Hr. rewrite cont_contr in *. apply read_u29_contr; assumption.
  - intros d d' s' HB HR Hs. destruct (read_u29_any d d' v HB HR) as (used & Hu & _ & Hc).
    rewrite Hs in Hu. apply app_inv_tail in Hu. subst used. apply wire_u29_shortest; assumption.
Qed.
Print Assumptions C64_u29_written_and_read_back.
Theorem C64_u29_too_large_rejected : forall v w, 2 ^ 29 <= v -> exists e, write_u29 v w = (w, Err e).
Proof.
  intros v w Hv. change (2 ^ 29) with 536870912 in Hv. exists EOther. unfold write_u29.
  replace (v <=? 127) with false by lia. replace (v <=? 16383) with false by lia.
  replace (v <=? 2097151) with false by lia. replace (v <=? 536870911) with false by lia. reflexivity.
Qed.
Print Assumptions C64_u29_too_large_rejected.
Theorem C64_u29_read_range : forall d d' v, is_bytes (r_rest (d_r d)) -> read_u29 d = (d', Ok v) ->
  0 <= v < 2 ^ 29 /\ exists used, r_rest (d_r d) = used ++ r_rest (d_r d') /\ 1 <= len used <= 4.
Proof.
  intros d d' v HB E. destruct (read_u29_any d d' v HB E) as (used & Hu & Hv & Hc).
  split; [exact Hv|]. exists used. split; [exact Hu|]. lia.
Qed.
Print Assumptions C64_u29_read_range.
Example C64_example : snd (read_u29 (fresh (bytes_reader [255; 255; 255; 255]))) = Ok (2 ^ 29 - 1).
Proof. reflexivity. Qed.

(** ** C65 *)
Theorem C65_amf3_round_trip : forall t w, ok3 t -> never_fails w ->
  exists w' enc, encode3 t w = (w', Ok (len enc)) /\ w_out w' = w_out w ++ enc /\
  forall d rest e, d_r d = cont (enc ++ rest) e ->
    exists d' v, decode3 d = (d', Ok v) /\ d_r d' = cont rest e /\
      unfolds (d_heap d') v (img3 t) /\ (exists new, d_heap d' = d_heap d ++ new).
Proof.
  intros t w Hok Hw. destruct (emits_run _ _ _ w (encode3_emits t Hok) Hw) as [n E].
  exists (mkW (w_out w ++ w3 t) n (w_script w)), (w3 t). split; [exact E|]. split; [reflexivity|].
  intros d rest e Hr. rewrite cont_contr in Hr.
  destruct (decode3_wire t d rest e Hok Hr) as (d' & v & H1 & H2 & H3 & H4 & _).
  exists d', v. rewrite cont_contr. split; [exact H1|]. split; [exact H2|]. split; [apply H4, extends_refl|exact H3].
Qed.
Print Assumptions C65_amf3_round_trip.

(** ** C66: every negative integer in the U29 range makes Encode fail, after it has written the marker. *)
Theorem C66_negative_integers_refuted : forall z w, -536870911 <= z < 0 -> never_fails w ->
  exists n e, encode3 (TInt false z) w = (mkW (w_out w ++ [4]) n (w_script w), Err e).
Proof.
  intros z w Hz Hw. exists (S (w_calls w)), EOther. cbn [encode3].
  replace ((-536870911 <=? z) && (z <? 536870911)) with true by lia.
  unfold encode_integer, wbind, write_byte. rewrite write_never_fails by exact Hw. unfold write_u29.
  assert (Hu : u32 z = z + 4294967296) by (unfold u32; symmetry; apply Z.mod_unique with (-1); lia).
  rewrite Hu. replace (z + 4294967296 <=? 127) with false by lia. replace (z + 4294967296 <=? 16383) with false by lia.
  replace (z + 4294967296 <=? 2097151) with false by lia. replace (z + 4294967296 <=? 536870911) with false by lia.
  reflexivity.
Qed.
Print Assumptions C66_negative_integers_refuted.
(** The 29-bit two's complement form that AMF3 prescribes for a negative integer decodes to an unsigned one. *)
Theorem C66_negative_integers_decode_refuted : forall z d rest e, -268435456 <= z < 0 ->
  d_r d = cont (4 :: wire_u29 (z + 2 ^ 29) ++ rest) e ->
  decode3 d = (set_r (cont rest e) d, Ok (VU32 (z + 2 ^ 29))).
Proof.
  intros z d rest e Hz Hr. rewrite cont_contr in *. change (2 ^ 29) with 536870912 in *. unfold decode3, fuel_for.
  apply dec3_integer; [lia|exact Hr].
Qed.
Print Assumptions C66_negative_integers_decode_refuted.
Theorem C66_nonnegative_integers_partial : forall z w, 0 <= z < 2 ^ 28 -> never_fails w ->
  exists w' enc, encode3 (TInt false z) w = (w', Ok (len enc)) /\ w_out w' = w_out w ++ enc /\
  forall d rest e, d_r d = cont (enc ++ rest) e -> decode3 d = (set_r (cont rest e) d, Ok (VU32 z)).
Proof.
  intros z w Hz Hw. change (2 ^ 28) with 268435456 in Hz. cbn [encode3].
  replace ((-536870911 <=? z) && (z <? 536870911)) with true by lia. rewrite u32_id by lia.
  destruct (emits_run _ _ _ w (encode_integer_emits z ltac:(lia)) Hw) as [n E].
  eexists _, _. split; [exact E|]. split; [reflexivity|]. intros d rest e Hr. rewrite cont_contr in *.
  unfold decode3, fuel_for. apply dec3_integer; [lia|exact Hr].
Qed.
Print Assumptions C66_nonnegative_integers_partial.

(** ** C67: a reference to any object that was decoded yields nil, a reference to any array an empty array
    with a nil map, whatever was decoded in between. *)
Theorem C67_object_references_refuted : forall d k s e d1 v d2 i rest e2, 0 <= k < 2 ^ 28 ->
  decode3 d = (d1, Ok v) -> later decode3 d1 d2 -> i = len (d_obj3 d) -> i < 2 ^ 28 ->
  (d_r d = cont (10 :: wire_u29 (2 * k + 1) ++ s) e ->
   decode3 (set_r (cont (10 :: wire_u29 (2 * i) ++ rest) e2) d2) = (set_r (cont rest e2) d2, Ok VNil)) /\
  (d_r d = cont (9 :: wire_u29 (2 * k + 1) ++ s) e ->
   decode3 (set_r (cont (9 :: wire_u29 (2 * i) ++ rest) e2) d2) = (set_r (cont rest e2) d2, Ok (VEcma [] None))).
Proof.
  intros d k s e d1 v d2 i rest2 e2 Hk E Hl Hi Hlt.
  change (2 ^ 28) with 268435456 in *. pose proof (len_nonneg (d_obj3 d)) as H0.
  destruct (later3_ext _ _ Hl) as (_ & X & _). rewrite !cont_contr.
  split; intros Hr.
  - rewrite (decode3_objref _ 10 i rest2 e2 VNil); [reflexivity|lia|reflexivity| |left; reflexivity].
    cbn [set_r d_obj3]. subst i. unfold len. rewrite Nat2Z.id. eapply extends_nth; [exact X|].
    eapply obj_pushes_nil; eassumption.
  - rewrite (decode3_objref _ 9 i rest2 e2 (VEcma [] None)); [reflexivity|lia|reflexivity| |].
    2:{ right; left. split; [reflexivity|eauto]. }
    cbn [set_r d_obj3]. subst i. unfold len. rewrite Nat2Z.id. eapply extends_nth; [exact X|].
    eapply arr_pushes_empty; eassumption.
Qed.
Print Assumptions C67_object_references_refuted.
Example C67_refuted_witness :
  snd (decode_batch3 (fresh (bytes_reader ([10; 19; 1; 3; 97; 3] ++ [10; 0])))) = ([VObj 0; VNil], Ok tt) /\
  snd (decode_batch3 (fresh (bytes_reader ([9; 3; 1; 3] ++ [9; 0])))) = ([VEcma [VBool true] (Some 0%nat); VEcma [] None], Ok tt).
Proof. split; reflexivity. Qed.
(** References to dates and non-empty byte arrays do denote the earlier value. *)
Theorem C67_value_references_partial : forall d s e d1 v d2 i rest e2 m,
  (m = 8 /\ (exists bits, 0 <= bits < 2 ^ 64 /\ d_r d = cont (8 :: 1 :: be64 bits ++ s) e)) \/
  (m = 12 /\ (exists x, 0 < len x < 2 ^ 28 /\ d_r d = cont (12 :: wire_str3 x ++ s) e)) ->
  decode3 d = (d1, Ok v) -> later decode3 d1 d2 -> i = len (d_obj3 d) -> i < 2 ^ 28 ->
  decode3 (set_r (cont (m :: wire_u29 (2 * i) ++ rest) e2) d2) = (set_r (cont rest e2) d2, Ok v).
Proof.
  intros d s e d1 v d2 i rest e2 m Hm E Hl Hi Hlt. change (2 ^ 28) with 268435456 in *. change (2 ^ 64) with 18446744073709551616 in *.
  pose proof (len_nonneg (d_obj3 d)) as H0. destruct (later3_ext _ _ Hl) as (_ & X & _).
  assert (Hn : nth_error (d_obj3 d2) (Z.to_nat i) = Some v /\ (m = 8 /\ (exists t, v = VTime t) \/ m = 12 /\ (exists s, v = VBytes s))).
  { subst i. unfold len. rewrite Nat2Z.id. destruct Hm as [(-> & bits & Hb & Hr)|(-> & x & Hx & Hr)]; rewrite cont_contr in Hr.
    - destruct (date_pushed d bits s e Hb Hr) as (t & Et & _). rewrite Et in E. inversion E; subst.
      split; [eapply extends_nth; [exact X|]; apply nth_error_len|left; eauto].
    - rewrite (bytes_pushed d x s e Hx Hr) in E. inversion E; subst.
      split; [eapply extends_nth; [exact X|]; apply nth_error_len|right; eauto]. }
  destruct Hn as [Hn Hv]. rewrite !cont_contr.
  rewrite (decode3_objref _ m i rest e2 v); [reflexivity|lia|reflexivity|exact Hn|tauto].
Qed.
Print Assumptions C67_value_references_partial.
Example C67_example : snd (decode_batch3 (fresh (bytes_reader ([12; 5; 7; 8] ++ [12; 0])))) = ([VBytes [7; 8]; VBytes [7; 8]], Ok tt).
Proof. reflexivity. Qed.

(** ** C68 *)
Theorem C68_string_references : forall ts sss enc w w' e d' vs i rest e2,
  Forall ok3 ts -> Forall2 strings3 ts sss -> never_fails w ->
  encode_batch3 ts w = (w', Ok tt) -> w_out w' = w_out w ++ enc ->
  decode_batch3 (fresh (cont enc e)) = (d', vs) -> 0 <= i < 2 ^ 28 ->
  decode3 (set_r (cont (6 :: wire_u29 (2 * i) ++ rest) e2) d') =
    (set_r (cont rest e2) d',
     match nth_error (concat sss) (Z.to_nat i) with Some s => Ok (VStr s) | None => Err EOther end).
Proof.
  intros ts sss enc w w' e d' vs i rest e2 Hok Hss Hw E1 E2 E3 Hi. change (2 ^ 28) with 268435456 in Hi.
  destruct (emits_run _ _ _ w (encode_batch3_emits ts Hok) Hw) as [n E']. rewrite E1 in E'. inversion E'; subst w'.
  cbn [w_out] in E2. apply app_inv_head in E2. subst enc.
  assert (Es : sss = map st3 ts).
  { apply forall2_fun with (R := strings3); [|exact Hss]. eapply Forall_impl; [|exact Hok]. intros t Ht. apply strings3_fun, Ht. }
  destruct (decode_batch3_wire ts (fresh (cont (concat (map w3 ts)) e)) e Hok (cont_contr _ _)) as (d1 & vs1 & D1 & _ & _ & D4).
  rewrite E3 in D1. inversion D1; subst d1 vs sss. cbn [fresh d_str3 app] in D4. rewrite !cont_contr.
  erewrite decode3_strref; [|exact Hi|reflexivity]. cbn [set_r d_str3]. rewrite D4. reflexivity.
Qed.
Print Assumptions C68_string_references.
Example C68_example : Forall2 strings3 [TStr (str "a"); TStr []; TObj [(str "k", TStr (str "v"))]] [[str "a"]; []; [str "k"; str "v"]] /\
  Forall ok3 [TStr (str "a"); TStr []; TObj [(str "k", TStr (str "v"))]].
Proof.
  split.
  - constructor; [apply S_str|]. constructor; [apply S_str|]. constructor; [|constructor].
    apply (S_obj _ [(str "k", TStr (str "v"))] [[str "v"]]); [apply Permutation_refl|repeat constructor|].
    repeat constructor.
  - repeat constructor; unfold byte, len; cbn; try lia.
Qed.
(** In any decoder state, the index of a literal string is the number of strings in the table, and it
    stays valid whatever is decoded afterwards. *)
Theorem C68_string_references_stable : forall s d rest e d1 v d2 rest2 e2 i,
  0 < len s < 2 ^ 28 -> d_r d = cont (6 :: wire_str3 s ++ rest) e -> decode3 d = (d1, Ok v) ->
  later decode3 d1 d2 -> i = len (d_str3 d) -> i < 2 ^ 28 ->
  decode3 (set_r (cont (6 :: wire_u29 (2 * i) ++ rest2) e2) d2) = (set_r (cont rest2 e2) d2, Ok (VStr s)).
Proof.
  intros s d rest e d1 v d2 rest2 e2 i Hs Hr E Hl Hi Hlt. change (2 ^ 28) with 268435456 in *. rewrite !cont_contr in *.
  pose proof (len_nonneg (d_str3 d)) as H0. destruct (later3_ext _ _ Hl) as (X & _ & _).
  erewrite (decode3_strref _ i); [|lia|reflexivity]. cbn [set_r d_str3].
  assert (Hd : d_str3 d1 = d_str3 d ++ [s]).
  { unfold decode3, fuel_for in E. cbn [dec3] in E.
    erewrite dbind_ok in E by (apply read_byte_contr; exact Hr). cbn [Z.eqb orb Pos.eqb] in E.
    erewrite dbind_ok in E by (apply decode_string3_contr; [|reflexivity]; lia). inversion E; subst.
    cbn [set_str3 set_r d_str3]. destruct s; [unfold len in Hs; cbn in Hs; lia|reflexivity]. }
  rewrite (extends_nth _ _ _ s X); [reflexivity|]. subst i. unfold len. rewrite Nat2Z.id, Hd. apply nth_error_len.
Qed.
Print Assumptions C68_string_references_stable.

(** ** C69: the dynamic member (any key and value) is neither returned nor consumed. *)
Theorem C69_dynamic_objects_refuted : forall k v d e rest,
  d_r d = cont ([10; 11; 1] ++ wire_str3 k ++ v ++ [1] ++ rest) e ->
  exists d', decode3 d = (d', Ok (VObj (length (d_heap d)))) /\ d_heap d' = d_heap d ++ [[]] /\
             d_r d' = cont (wire_str3 k ++ v ++ [1] ++ rest) e.
Proof. intros k v d e rest Hr. rewrite cont_contr in *. exact (dynamic_ignored d e _ Hr). Qed.
Print Assumptions C69_dynamic_objects_refuted.
(** Sealed objects are decoded with all their members. *)
Theorem C69_sealed_objects_partial : forall fs w, ok3 (TObj fs) -> never_fails w ->
  exists w' enc, encode3 (TObj fs) w = (w', Ok (len enc)) /\ w_out w' = w_out w ++ enc /\
  forall d rest e, d_r d = cont (enc ++ rest) e ->
    exists d' v, decode3 d = (d', Ok v) /\ d_r d' = cont rest e /\
      unfolds (d_heap d') v (PObj (map (fun p => (fst p, img3 (snd p))) fs)).
Proof.
  intros fs w Hok Hw. destruct (C65_amf3_round_trip _ w Hok Hw) as (w' & enc & E1 & E2 & E3).
  exists w', enc. split; [exact E1|]. split; [exact E2|]. intros d rest e Hr.
  destruct (E3 d rest e Hr) as (d' & v & H1 & H2 & H3 & _). exists d', v. auto.
Qed.
Print Assumptions C69_sealed_objects_partial.

(** ** C70: a byte array or XML text cut after at least one byte is silently filled up with zeros. *)
Theorem C70_truncation_rejected_refuted : forall m n s d e, m = 7 \/ m = 11 \/ m = 12 ->
  0 < len s < n -> n < 2 ^ 28 -> d_r d = cont (m :: wire_u29 (2 * n + 1) ++ s) e ->
  snd (decode3 d) = Ok (let x := s ++ repeat 0 (Z.to_nat (n - len s)) in if m =? 12 then VBytes x else VStr x).
Proof.
  intros m n s d e Hm Hs Hn Hr. change (2 ^ 28) with 268435456 in Hn. rewrite cont_contr in Hr.
  apply (truncated_blob m d n s e Hm ltac:(lia) ltac:(lia) Hr). intros ->. unfold len in Hs; cbn in Hs; lia.
Qed.
Print Assumptions C70_truncation_rejected_refuted.
Example C70_refuted_witness : snd (decode3 (fresh (bytes_reader [12; 9; 1; 2]))) = Ok (VBytes [1; 2; 0; 0]).
Proof. reflexivity. Qed.
(** Strings cut anywhere, and byte arrays and XML cut right after their length, are rejected. *)
Theorem C70_truncation_rejected_partial : forall m n s d e, m = 7 \/ m = 11 \/ m = 12 \/ m = 6 ->
  len s < n -> n < 2 ^ 28 -> m = 6 \/ s = [] -> d_r d = cont (m :: wire_u29 (2 * n + 1) ++ s) e ->
  exists er, snd (decode3 d) = Err er.
Proof.
  intros m n s d e Hm Hs Hn Hc Hr. change (2 ^ 28) with 268435456 in Hn. rewrite cont_contr in Hr.
  pose proof (len_nonneg s). destruct (Z.eq_dec m 6) as [->|H6].
  - eapply truncated_string; [|exact Hs|exact Hr]. lia.
  - exists (e_err e). apply (truncated_blob m d n s e ltac:(tauto) ltac:(lia) Hs Hr). tauto.
Qed.
Print Assumptions C70_truncation_rejected_partial.

(** ** C71 *)
Theorem C71_dates_round_trip : forall sec w, Z.abs sec * 1000 <= 2 ^ 53 -> never_fails w ->
  exists w' enc, encode3 (TTime sec) w = (w', Ok (len enc)) /\ w_out w' = w_out w ++ enc /\
  forall d rest e, d_r d = cont (enc ++ rest) e ->
    exists d', decode3 d = (d', Ok (VTime sec)) /\ d_r d' = cont rest e.
Proof.
  intros sec w Hs Hw. destruct (C65_amf3_round_trip (TTime sec) w Hs Hw) as (w' & enc & E1 & E2 & E3).
  exists w', enc. split; [exact E1|]. split; [exact E2|]. intros d rest e Hr.
  destruct (E3 d rest e Hr) as (d' & v & H1 & H2 & H3 & _). exists d'. cbn [img3] in H3. inversion H3; subst. auto.
Qed.
Print Assumptions C71_dates_round_trip.
Example C71_example : Z.abs (-62135596800) * 1000 <= 2 ^ 53. Proof. vm_compute; discriminate. Qed.

(** ** C72 *)
Theorem C72_decode_terminates : forall d,
  snd (decode3 d) <> OutOfFuel /\ snd (decode3 d) <> Panic /\
  (exists used, r_rest (d_r d) = used ++ r_rest (d_r (fst (decode3 d)))) /\
  (forall v, snd (decode3 d) = Ok v -> (length (r_rest (d_r (fst (decode3 d)))) < length (r_rest (d_r d)))%nat).
Proof.
  intros d. destruct (sane_dec3 (fuel_for d) d) as (H1 & H2 & H3 & H4); [unfold fuel_for, rem; lia|].
  split; [exact H1|]. split; [intros HP; destruct (H2 HP); discriminate|]. split; [exact H3|]. exact (H4 eq_refl).
Qed.
Print Assumptions C72_decode_terminates.
Theorem C72_decode_batch_terminates : forall d,
  snd (snd (decode_batch3 d)) <> OutOfFuel /\ snd (snd (decode_batch3 d)) <> Panic.
Proof. intros d. destruct (batch3_done (fuel_for d) d) as (H1 & H2 & _); [unfold fuel_for, rem; lia|]. split; assumption. Qed.
Print Assumptions C72_decode_batch_terminates.

(** ** C96: the bytes are those of the AMF3 specification, and they do not depend on the order in which the
    fields of a map are visited. *)
Theorem C96_amf3_wire_format : forall t w, ok3 t -> never_fails w ->
  exists s, wire3 t s /\ (forall s', wire3 t s' -> s' = s) /\
  exists n, encode3 t w = (mkW (w_out w ++ s) n (w_script w), Ok (len s)).
Proof.
  intros t w Hok Hw. exists (w3 t). split; [apply w3_wire, Hok|]. split; [intros s' Hs; apply wire3_fun; assumption|].
  exact (emits_run _ _ _ w (encode3_emits t Hok) Hw).
Qed.
Print Assumptions C96_amf3_wire_format.
Theorem C96_amf3_encoding_canonical : forall t t' w, ok3 t -> ok3 t' -> same_value t t' -> never_fails w ->
  w_out (fst (encode3 t w)) = w_out (fst (encode3 t' w)) /\ snd (encode3 t w) = snd (encode3 t' w).
Proof.
  intros t t' w H1 H2 HS Hw.
  destruct (emits_run _ _ _ w (encode3_emits t H1) Hw) as [n1 E1]. destruct (emits_run _ _ _ w (encode3_emits t' H2) Hw) as [n2 E2].
  rewrite E1, E2. cbn [fst snd w_out]. rewrite (w3_same t t' HS H1). split; reflexivity.
Qed.
Print Assumptions C96_amf3_encoding_canonical.
Example C96_example : same_value (TObj [(str "a", TNil); (str "b", TBool true)]) (TObj [(str "b", TBool true); (str "a", TNil)]).
Proof.
  apply Sv_obj with (gs := [(str "a", TNil); (str "b", TBool true)]); [|apply perm_swap].
  repeat constructor.
Qed.

(** ** C97 *)
Theorem C97_amf3_encode_count_and_failures : forall t w w' r, encode3 t w = (w', r) ->
  exists s, w_out w' = w_out w ++ s /\
  ((exists n, r = Ok n /\ n = len s) \/ (exists e, r = Err e)) /\
  ((exists k, (w_calls w <= k < w_calls w')%nat /\ w_script w k <> None) -> exists e, r = Err e).
Proof.
  intros t w w' r E. destruct (encode3_count t w) as (w1 & r1 & s & E1 & _ & _ & Ho & Hr).
  rewrite E in E1. inversion E1; subst. exists s. split; [exact Ho|].
  destruct Hr as [(a & -> & Hq & HN)|(e & ->)].
  - split; [left; exists a; split; [reflexivity|exact Hq]|]. intros (k & Hk & Hn). elim Hn. apply HN, Hk.
  - split; [right; eauto|eauto].
Qed.
Print Assumptions C97_amf3_encode_count_and_failures.

(** ** C98 *)
Theorem C98_amf3_decode_batch_inverts_encode_batch : forall ts w, Forall ok3 ts -> never_fails w ->
  exists w' enc, encode_batch3 ts w = (w', Ok tt) /\ w_out w' = w_out w ++ enc /\ forall d e, d_r d = cont enc e ->
    exists d' vs, decode_batch3 d = (d', (vs, batch_end e)) /\ r_rest (d_r d') = [] /\ Forall2 (unfolds (d_heap d')) vs (map img3 ts).
Proof.
  intros ts w Hok Hw. destruct (emits_run _ _ _ w (encode_batch3_emits ts Hok) Hw) as [n E].
  eexists _, _. split; [exact E|]. split; [reflexivity|]. intros d e Hr. rewrite cont_contr in Hr.
  destruct (decode_batch3_wire ts d e Hok Hr) as (d' & vs & H1 & H2 & H3 & _). exists d', vs. auto.
Qed.
Print Assumptions C98_amf3_decode_batch_inverts_encode_batch.
Example C98_example : Forall ok3 [sample3; sample3].
Proof. constructor; [apply sample3_ok|constructor; [apply sample3_ok|constructor]]. Qed.
