(** Properties C142-C143: AMF3 Decode on every input, references and truncated inputs included (Spec/Amf3Ref.v). *)
From Coq Require Import String.
From Verif Require Import Base.Go Base.GoFacts Base.IO Base.Float64 Proofs.IOFacts
  Model.AmfTypes Model.Amf3 Spec.Amf Spec.AmfDoc Spec.Amf3Doc Spec.Amf3Ref Proofs.AmfFacts Proofs.Amf0More Proofs.AmfContr Proofs.Amf3Spec Proofs.Amf3Common Proofs.Amf3Ref Proofs.Amf3RefAcc Props.Amf3.
Local Ltac Zify.zify_post_hook ::= Z.div_mod_to_equations.

Example fresh_knows r : knows new_world (fresh r). Proof. split; [reflexivity|]. split; [reflexivity|constructor]. Qed.

(** ** C142: Decode accepts exactly the layouts of the library's reading, and returns the value the layout has. *)
Theorem C142_decode_exactly : forall W d s e, is_bytes s -> d_r d = cont s e -> knows W d ->
  (forall d' v, decode3 d = (d', Ok v) -> exists b c rest p W',
     value3r Library W b c p W' /\ s ++ repeat 0 c = b ++ rest /\ (c = 0%nat \/ rest = []) /\
     d_r d' = cont rest e /\ unfolds (d_heap d') v p /\ knows W' d') /\
  (forall b c rest p W', value3r Library W b c p W' -> s ++ repeat 0 c = b ++ rest -> c = 0%nat \/ rest = [] ->
     exists d' v, decode3 d = (d', Ok v) /\ d_r d' = cont rest e /\ unfolds (d_heap d') v p /\ knows W' d').
Proof.
  intros W d s e HB Hr HK. rewrite cont_contr in Hr. apply relw_knows in HK.
  assert (FW : forall b c rest p W', value3r Library W b c p W' -> s ++ repeat 0 c = b ++ rest -> c = 0%nat \/ rest = [] ->
     exists d' v, decode3 d = (d', Ok v) /\ d_r d' = cont rest e /\ unfolds (d_heap d') v p /\ knows W' d').
  { intros b c rest p W' H E K. destruct (decode3_ref W b c p W' d s rest e H E K Hr HK) as (d' & v & hs & H1 & H2 & _ & H4 & H5).
    exists d', v. rewrite cont_contr. split; [exact H1|]. split; [exact H2|]. split; [exact H4|]. apply relw_knows, H5. }
  split; [|exact FW]. intros d' v E. destruct (dec3_acr (fuel_for d) d s e d' v W HB Hr HK E) as (b & rest & c & W' & E1 & K & _ & _ & p & H).
  assert (K' : c = 0%nat \/ rest = []) by tauto. destruct (FW b c rest p W' H E1 K') as (d2 & v2 & E2 & R2 & U2 & T2). rewrite E in E2. inversion E2; subst d2 v2.
  exists b, c, rest, p, W'. repeat split; try assumption; apply T2.
Qed.
Print Assumptions C142_decode_exactly.
(** Everything else is an error. *)
Theorem C142_rejects : forall W d s e, is_bytes s -> d_r d = cont s e -> knows W d ->
  (forall b c rest p W', value3r Library W b c p W' -> s ++ repeat 0 c = b ++ rest -> c = 0%nat \/ rest = [] -> False) ->
  exists er, snd (decode3 d) = Err er.
Proof.
  intros W d s e HB Hr HK HN. destruct (C72_decode_terminates d) as (H1 & H2 & _). destruct (decode3 d) as [d' [v|er| |]] eqn:E; cbn [snd] in *; [exfalso|eauto|congruence|congruence].
  destruct (proj1 (C142_decode_exactly W d s e HB Hr HK) d' v E) as (b & c & rest & p & W' & X1 & X2 & X3 & _). exact (HN _ _ _ _ _ X1 X2 X3).
Qed.
Print Assumptions C142_rejects.
(** A batch is read value by value, references reaching back to all earlier values. *)
Theorem C142_batch : forall W d s e b c ps W', d_r d = cont s e -> knows W d -> values3r Library W b c ps W' -> s ++ repeat 0 c = b ->
  exists d' vs, decode_batch3 d = (d', (vs, batch_end e)) /\ d_r d' = cont [] e /\ Forall2 (unfolds (d_heap d')) vs ps /\ knows W' d'.
Proof.
  intros W d s e b c ps W' Hr HK H E. rewrite cont_contr in Hr. apply relw_knows in HK. unfold decode_batch3. rewrite (fuel_for_contr _ _ _ Hr).
  destruct (batch3_ref _ _ _ _ _ _ H eq_refl (S (length s)) d s e) as (d' & vs & E1 & R1 & _ & U & T); try assumption.
  { pose proof (proj1 (proj2 (cut_lengths Library)) _ _ _ _ _ H) as L. subst b. rewrite app_length, repeat_length in L. lia. }
  exists d', vs. split; [exact E1|]. split; [rewrite cont_contr; exact R1|]. split; [exact U|]. apply relw_knows, T.
Qed.
Print Assumptions C142_batch.
(** An array that contains an object, a byte array, references to both and to itself, and a byte array that is cut short. *)
Definition sample142 : bytes := [9; 11; 1] ++ [10; 3; 1] ++ [12; 3; 7] ++ [10; 2] ++ [12; 4] ++ [12; 9; 5; 6].
Example C142_example : exists b c p W', value3r Library new_world b c p W' /\ c = 2%nat /\ sample142 ++ repeat 0 c = b ++ [] /\
  p = PEcma [PObj []; PBytes [7]; PNil; PBytes [7]; PBytes [5; 6; 0; 0]] [].
Proof.
  eexists ([9] ++ [11] ++ [1] ++ [10; 3; 1] ++ [12; 3; 7] ++ [10; 2] ++ [12; 4] ++ [12; 9; 5; 6; 0; 0] ++ []), _, _, _.
  split; [|split; [reflexivity|split; [reflexivity|reflexivity]]].
  eapply (vr3_array Library new_world [11] [1] [] _ _ (0 + (0 + (0 + (0 + (2 + 0)))))%nat [PObj []; PBytes [7]; PNil; PBytes [7]; PBytes [5; 6; 0; 0]]); [apply (u29_1 11); lia|reflexivity| |].
  - apply (asr3_nil Library _ [1] []). apply vr_empty, (u29_1 1). lia.
  - eapply (vsr3_cons Library _ [10; 3; 1] 0); [| |left; reflexivity].
    { eapply (vr3_object Library _ [3; 1] [] [] _ [] 0 []); [|reflexivity|constructor|reflexivity].
      eapply (tr_new true _ 0 [3] [1] []); [left; reflexivity|apply (u29_1 3); lia|apply vr_empty, (u29_1 1); lia|constructor]. }
    eapply (vsr3_cons Library _ [12; 3; 7] 0); [apply (vr3_bytes Library _ [3] [7] 0); [apply (u29_1 3); lia|left; reflexivity]| |left; reflexivity].
    eapply (vsr3_cons Library _ [10; 2] 0); [apply (vr3_reference Library _ 10 1); [apply (u29_1 2); lia|reflexivity|unfold refers; auto 10]| |left; reflexivity].
    eapply (vsr3_cons Library _ [12; 4] 0); [apply (vr3_reference Library _ 12 2); [apply (u29_1 4); lia|reflexivity|unfold refers; eauto 12]| |left; reflexivity].
    eapply (vsr3_cons Library _ [12; 9; 5; 6; 0; 0] 2); [apply (vr3_bytes Library _ [9] [5; 6; 0; 0] 2); [apply (u29_1 9); lia|right; cbn; lia]| |right; reflexivity].
    constructor.
Qed.

(** ** C143: "Decode returns the value that the specification gives to a document with references." An empty byte array does not take the
    place it should, so that a later reference denotes a value it should not: *)
Definition doc143 (x y : bytes) : bytes := 9 :: [9] ++ [1] ++ [12; 1] ++ (12 :: wire_str3 x) ++ (12 :: wire_str3 y) ++ [12; 4] ++ [].
Theorem C143_references_refuted : forall x y e, 0 < len x < 2 ^ 28 -> 0 < len y < 2 ^ 28 ->
  (exists W', value3r Adobe new_world (doc143 x y) 0 (PEcma [PBytes []; PBytes x; PBytes y; PBytes x] []) W') /\
  exists d' v, decode3 (fresh (cont (doc143 x y) e)) = (d', Ok v) /\
    unfolds (d_heap d') v (PEcma [PBytes []; PBytes x; PBytes y; PBytes y] []).
Proof.
  intros x y e Hx Hy. change (2 ^ 28) with 268435456 in *.
  assert (U : forall s : bytes, 0 < len s < 268435456 -> u29 (2 * len s + 1) (wire_u29 (2 * len s + 1))) by (intros s Hs; apply u29_wire; change (2 ^ 29) with 536870912; lia).
  assert (B : forall r W (s : bytes), 0 < len s < 268435456 -> r <> Common -> value3r r W (12 :: wire_str3 s) 0 (PBytes s) (place (Some (PBytes s)) W)).
  { intros r W s Hs Hc. replace (place (Some (PBytes s)) W) with (entered r s (PBytes s) W) by (destruct s, r; try reflexivity; unfold len in Hs; cbn in Hs; lia). apply vr3_bytes; [apply U, Hs|]. destruct r; cbn; [reflexivity|left; reflexivity|congruence]. }
  assert (D : forall r q, r <> Common -> nth_error (w_places (place (Some (PBytes y)) (place (Some (PBytes x)) (entered r [] (PBytes []) (with_tables (mkTables [] []) (begun r (PEcma [] []) new_world)))))) 2 = Some (Some (PBytes q)) ->
    exists W', value3r r new_world (doc143 x y) 0 (PEcma [PBytes []; PBytes x; PBytes y; PBytes q] []) W').
  { intros r q Hc Hq. eexists. unfold doc143. eapply (vr3_array r new_world [9] [1] [] _ _ (0 + (0 + (0 + (0 + 0))))%nat [PBytes []; PBytes x; PBytes y; PBytes q]); [apply (u29_1 9); lia|reflexivity| |].
    - apply (asr3_nil r _ [1] []). apply vr_empty, (u29_1 1). lia.
    - eapply (vsr3_cons r _ [12; 1] 0); [apply (vr3_bytes r _ [1] [] 0); [apply (u29_1 1); lia|destruct r; cbn; [reflexivity|left; reflexivity|congruence]]| |left; reflexivity].
      eapply (vsr3_cons r _ (12 :: wire_str3 x) 0); [apply B; assumption| |left; reflexivity].
      eapply (vsr3_cons r _ (12 :: wire_str3 y) 0); [apply B; assumption| |left; reflexivity].
      eapply (vsr3_cons r _ [12; 4] 0); [apply (vr3_reference r _ 12 2); [apply (u29_1 4); lia|exact Hq|unfold refers; eauto 12]|constructor|left; reflexivity]. }
  split; [apply D; [discriminate|reflexivity]|]. destruct (D Library y ltac:(discriminate) eq_refl) as [W' H].
  destruct (decode3_ref _ _ _ _ _ (fresh (cont (doc143 x y) e)) (doc143 x y) [] e H) as (d' & v & hs & E1 & _ & _ & E2 & _); [reflexivity|left; reflexivity|rewrite cont_contr; reflexivity|apply relw_knows, fresh_knows|].
  exists d', v. split; assumption.
Qed.
Print Assumptions C143_references_refuted.
Example C143_refuted_witness : snd (decode3 (fresh (bytes_reader (doc143 [1] [2])))) = Ok (VEcma [VBytes []; VBytes [1]; VBytes [2]; VBytes [2]] (Some 0%nat)).
Proof. reflexivity. Qed.
(** Without empty XML texts and byte arrays, and with references to dates, XML texts and byte arrays only, the answer is that of
    the specification. *)
Theorem C143_references_partial : forall W b c p W' A L d rest e, value3r Common W b c p W' -> below W A -> below W L ->
  d_r d = cont (b ++ rest) e -> knows L d ->
  (exists A', value3r Adobe A b 0 p A' /\ below W' A') /\
  exists d' v L', decode3 d = (d', Ok v) /\ d_r d' = cont rest e /\ unfolds (d_heap d') v p /\ knows L' d' /\ below W' L'.
Proof.
  intros W b c p W' A L d rest e H HA HL Hr HK. split; [apply (proj1 (common_in Common Adobe) W b c p W' H eq_refl), HA|].
  destruct (proj2 (proj2 (proj1 (common_in Common Library) W b c p W' H eq_refl)) L HL) as (L' & H' & B'). rewrite cont_contr in Hr. apply relw_knows in HK.
  destruct (decode3_ref _ _ _ _ _ d (b ++ rest) rest e H') as (d' & v & hs & E1 & E2 & _ & E3 & E4); [apply app_nil_r|left; reflexivity|exact Hr|exact HK|].
  exists d', v, L'. rewrite cont_contr. split; [exact E1|]. split; [exact E2|]. split; [exact E3|]. split; [apply relw_knows, E4|exact B'].
Qed.
Print Assumptions C143_references_partial.
(** A date, an array that refers to it twice, and after the array a reference to a byte array inside it. *)
Example C143_example : exists W', values3r Common new_world ((8 :: [1] ++ be64 0) ++ (9 :: [7] ++ [1] ++ [8; 0] ++ [12; 3; 7] ++ [8; 0] ++ []) ++ [12; 4] ++ []) 0
  [PTime 0; PEcma [PTime 0; PBytes [7]; PTime 0] []; PBytes [7]] W'.
Proof.
  eexists. eapply (vsr3_cons Common _ (8 :: [1] ++ be64 0) 0 _ _ _ 0); [apply (vr3_date Common _ 0 [1] 0); [apply (u29_1 1); lia|lia|vm_compute; reflexivity]| |left; reflexivity].
  eapply (vsr3_cons Common _ (9 :: [7] ++ [1] ++ [8; 0] ++ [12; 3; 7] ++ [8; 0] ++ []) 0 _ _ _ 0); [| |left; reflexivity].
  - eapply (vr3_array Common _ [7] [1] [] _ _ (0 + (0 + (0 + 0)))%nat [PTime 0; PBytes [7]; PTime 0]); [apply (u29_1 7); lia|reflexivity| |].
    + apply (asr3_nil Common _ [1] []). apply vr_empty, (u29_1 1). lia.
    + eapply (vsr3_cons Common _ [8; 0] 0); [apply (vr3_reference Common _ 8 0); [apply (u29_1 0); lia|reflexivity|unfold refers; eauto 12]| |left; reflexivity].
      eapply (vsr3_cons Common _ [12; 3; 7] 0); [apply (vr3_bytes Common _ [3] [7] 0); [apply (u29_1 3); lia|split; [reflexivity|discriminate]]| |left; reflexivity].
      eapply (vsr3_cons Common _ [8; 0] 0); [apply (vr3_reference Common _ 8 0); [apply (u29_1 0); lia|reflexivity|unfold refers; eauto 12]|constructor|left; reflexivity].
  - eapply (vsr3_cons Common _ [12; 4] 0 _ _ [] 0); [apply (vr3_reference Common _ 12 2); [apply (u29_1 4); lia|reflexivity|unfold refers; eauto 12]|constructor|left; reflexivity].
Qed.
