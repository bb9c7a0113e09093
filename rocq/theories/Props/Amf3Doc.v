(** Properties C126-C128: AMF3 Decode and Encode and the AMF3 specification (Spec/Amf3Doc.v). *)
From Coq Require Import String.
From Verif Require Import Base.Go Base.GoFacts Base.IO Base.Float64 Proofs.IOFacts
  Model.AmfTypes Model.Amf3 Model.Amf0 Spec.Amf Spec.AmfDoc Spec.Amf3Doc Proofs.AmfFacts Proofs.Amf0More Proofs.AmfContr Proofs.Amf0Enc Proofs.Amf3Enc Proofs.Amf0RT Proofs.Amf3RT Proofs.Amf3More Proofs.AmfTame Proofs.Amf3Doc Proofs.Amf3Acc Proofs.Amf3Spec.
Local Ltac Zify.zify_post_hook ::= Z.div_mod_to_equations.

(** The decoder's string and trait tables are those of the specification. *)
Definition tables_are (T : tables) (d : dstate) : Prop :=
  d_str3 d = t_strings T /\ d_trait3 d = map (fun c => mkTrait (fst c) false false (snd c)) (t_classes T).
Example fresh_tables r : tables_are (mkTables [] []) (fresh r). Proof. split; reflexivity. Qed.

(** ** C126 *)
(** Missing: object references (C67), dynamic objects (C69), externalizable objects (C121), integers of 2^28 and more (C66). *)
Theorem C126_documents_partial : forall T b p T' d rest e, value3 false T b p T' -> tables_are T d -> d_r d = cont (b ++ rest) e ->
  exists d' v, decode3 d = (d', Ok v) /\ d_r d' = cont rest e /\ unfolds (d_heap d') v p /\ tables_are T' d' /\ exists new, d_heap d' = d_heap d ++ new.
Proof.
  intros T b p T' d rest e H HT Hr. rewrite cont_contr in *. destruct (proj1 (dec3_doc false) T b p T' H eq_refl (fuel_for d) d rest e) as (d' & v & hs & H1 & H2 & H3 & H4 & H5).
  - rewrite (fuel_for_contr _ _ _ Hr), app_length. lia.
  - exact Hr.
  - exact HT.
  - exists d', v. split; [exact H1|]. split; [exact H2|]. split; [|split; [exact H5|exists hs; exact H3]]. apply H4. intros i _. reflexivity.
Qed.
Print Assumptions C126_documents_partial.
(** An array with an associative part and two objects of one class, the second by trait reference, with a string reference and
    a length written in two bytes although one would do. *)
Definition sample3 : bytes :=
  [9; 5; 3; 107; 4; 42; 1] ++ [10; 35; 3; 84; 3; 120; 3; 121; 6; 128; 3; 97; 6; 0] ++ [10; 1; 3; 6; 6].
Example C126_example : exists d' v, decode3 (fresh (bytes_reader sample3)) = (d', Ok v) /\ d_r d' = bytes_reader [] /\
  unfolds (d_heap d') v (PEcma [PObj [(str "x", PStr (str "a")); (str "y", PStr (str "k"))]; PObj [(str "x", PBool true); (str "y", PStr (str "y"))]] [(str "k", PU32 42)]).
Proof.
  assert (H : exists T', value3 false (mkTables [] []) sample3 (PEcma [PObj [(str "x", PStr (str "a")); (str "y", PStr (str "k"))]; PObj [(str "x", PBool true); (str "y", PStr (str "y"))]] [(str "k", PU32 42)]) T').
  { eexists. unfold sample3. 
    eapply (v3_array false _ [5] [3; 107; 4; 42; 1] [(str "k", PU32 42)] (mkTables [str "k"] []) _
      [PObj (members (combine [str "x"; str "y"] [PStr (str "a"); PStr (str "k")])); PObj (members (combine [str "x"; str "y"] [PBool true; PStr (str "y")]))]).
    - apply (u29_1 5). lia.
    - eapply (as3_cons false _ [3; 107] (str "k") [str "k"] [4; 42] (PU32 42)).
      + apply (vr_lit [] (str "k") [3]); [discriminate|]. apply (u29_1 3). lia.
      + discriminate.
      + apply v3_integer; [left; lia|apply (u29_1 42); lia].
      + apply (as3_nil false (mkTables [str "k"] []) [1] [str "k"]). apply vr_empty, (u29_1 1). lia.
    - eapply (vs3_cons false _ [10; 35; 3; 84; 3; 120; 3; 121; 6; 128; 3; 97; 6; 0]); [|eapply (vs3_cons false _ [10; 1; 3; 6; 6] _ _ []); [|apply vs3_nil]].
      + eapply (v3_object false _ [35; 3; 84; 3; 120; 3; 121]).
        * eapply (tr_new false (mkTables [str "k"] []) 0 [35] [3; 84] (str "T") [str "k"; str "T"]); [left; reflexivity|apply (u29_1 35); lia| |].
          -- apply (vr_lit [str "k"] (str "T") [3]); [discriminate|]. apply (u29_1 3). lia.
          -- eapply (vrs_cons _ [3; 120]); [|eapply (vrs_cons _ [3; 121] _ _ []); [|constructor]].
             ++ apply (vr_lit _ (str "x") [3]); [discriminate|]. apply (u29_1 3). lia.
             ++ apply (vr_lit _ (str "y") [3]); [discriminate|]. apply (u29_1 3). lia.
        * eapply (vs3_cons false _ [6; 128; 3; 97]); [|eapply (vs3_cons false _ [6; 0] _ _ []); [|constructor]].
          -- apply v3_string. apply (vr_lit _ (str "a") [128; 3]); [discriminate|]. apply (u29_2 0 3); lia.
          -- apply v3_string. apply (vr_ref _ 0); [apply (u29_1 0); lia|reflexivity].
        * reflexivity.
      + eapply (v3_object false _ [1]); [apply (tr_ref false _ 0); [apply (u29_1 1); lia|reflexivity]| |].
        * eapply (vs3_cons false _ [3]); [apply v3_true|]. eapply (vs3_cons false _ [6; 6] _ _ []); [|constructor].
          apply v3_string. apply (vr_ref _ 3); [apply (u29_1 6); lia|reflexivity].
        * reflexivity. }
  destruct H as [T' H]. destruct (C126_documents_partial _ _ _ _ (fresh (bytes_reader sample3)) [] true H (fresh_tables _)) as (d' & v & E1 & E2 & E3 & _); [rewrite app_nil_r; reflexivity|].
  exists d', v. split; [exact E1|]. split; [exact E2|exact E3].
Qed.

(** ** C127: Decode accepts nothing but the layouts of the specification, the deviations of C66-C70 apart: the layout may refer
    to objects (C67), announce dynamic and externalizable classes (C69, C121), and its last XML text or byte array may be cut
    short, the missing bytes being read as zeros (C70). It consumes exactly the layout; where none of the deviations is used
    the answer is its value. *)
Theorem C127_only_documents : forall T d s e d' v, is_bytes s -> d_r d = cont s e -> tables_are T d -> decode3 d = (d', Ok v) ->
  exists b rest k T', s ++ repeat 0 k = b ++ rest /\ (k = 0%nat \/ rest = []) /\ d_r d' = cont rest e /\ tables_are T' d' /\
    (exists p, value3 true T b p T') /\
    (k = 0%nat -> forall p T2, value3 false T b p T2 -> unfolds (d_heap d') v p /\ T2 = T').
Proof.
  intros T d s e d' v HB Hr HT E. rewrite cont_contr in Hr. destruct (dec3_acc (fuel_for d) d s e d' v T HB Hr HT E) as (b & rest & k & T' & E1 & K & R & HT' & HG).
  exists b, rest, k, T'. split; [exact E1|]. split; [exact K|]. rewrite cont_contr. split; [exact R|]. split; [exact HT'|]. split; [exact HG|].
  intros -> p T2 H2. cbn [repeat] in E1. rewrite app_nil_r in E1. subst s. rewrite <- cont_contr in Hr.
  destruct (C126_documents_partial T b p T2 d rest e H2 HT Hr) as (d2 & v2 & E2 & _ & U & HT2 & _). rewrite E in E2. inversion E2; subst d2 v2. split; [exact U|].
  destruct HT' as [A1 A2], HT2 as [B1 B2]. rewrite A1 in B1. rewrite A2 in B2. clear - B1 B2. destruct T2 as [s2 c2], T' as [s1 c1]. cbn [t_strings t_classes] in *. f_equal; [congruence|].
  revert c2 B2. induction c1 as [|[n ps] c1 IH]; intros [|[n2 ps2] c2] B; cbn [map] in B; try discriminate; [reflexivity|]. unfold plain in B. cbn [fst snd] in B.
  injection B as -> -> B. f_equal. apply IH, B.
Qed.
Print Assumptions C127_only_documents.
Example C127_example : is_bytes (sample3 ++ [1; 2]) /\ exists d' v, decode3 (fresh (bytes_reader (sample3 ++ [1; 2]))) = (d', Ok v).
Proof. split; [vm_compute; repeat constructor; discriminate|]. eexists _, _. vm_compute. reflexivity. Qed.

(** ** C128 *)
(** An integer from 2^28 on is written as an AMF3 integer, which the specification reads as a negative number. *)
Theorem C128_encoder_refuted : forall z w, 2 ^ 28 <= z < 2 ^ 29 - 1 -> never_fails w ->
  exists w' b, u29 z b /\ int29 z < 0 /\ encode3 (TInt false z) w = (w', Ok (len (4 :: b))) /\ w_out w' = w_out w ++ 4 :: b.
Proof.
  intros z w Hz Hw. change (2 ^ 28) with 268435456 in *. change (2 ^ 29) with 536870912 in *.
  assert (Hok : ok3 (TInt false z)) by (cbn [ok3]; split; [lia|right; left; lia]).
  destruct (emits_run _ _ _ w (encode3_emits _ Hok) Hw) as [n E]. eexists _, (wire_u29 z). cbn [w3] in E. replace (negb false && (0 <=? z) && (z <? 536870911)) with true in E by (cbn; lia).
  split; [apply u29_wire; change (2 ^ 29) with 536870912; lia|]. split; [unfold int29; change (2 ^ 28) with 268435456; change (2 ^ 29) with 536870912; destruct (Z.ltb_spec z 268435456); lia|]. split; [exact E|reflexivity].
Qed.
Print Assumptions C128_encoder_refuted.
Example C128_witness : 2 ^ 28 <= 300000000 < 2 ^ 29 - 1. Proof. lia. Qed.
(** Missing: those integers, and the negative ones of C66. Proved: everything else Encode can represent is written in a layout
    of the specification, whatever the tables, that means the same value. *)
Theorem C128_encoder_partial : forall t w, ok3 t -> ints_fit t -> never_fails w ->
  exists w' b, encode3 t w = (w', Ok (len b)) /\ w_out w' = w_out w ++ b /\
    forall T, exists p T', value3 false T b p T' /\ same_value p (img3 t).
Proof.
  intros t w Hok Hf Hw. destruct (emits_run _ _ _ w (encode3_emits t Hok) Hw) as [n E]. eexists _, (w3 t). split; [exact E|]. split; [reflexivity|]. apply w3_doc; assumption.
Qed.
Print Assumptions C128_encoder_partial.
(** EncodeWithAMF3 writes that layout behind the AVM+ marker, and AMF0 Decode reads it back. *)
Theorem C128_avmplus : forall t w, ok3 t -> never_fails w ->
  exists w' b, encode_with_amf3 t w = (w', Ok (len (17 :: b))) /\ w_out w' = w_out w ++ 17 :: b /\
    (ints_fit t -> forall T, exists p T', value3 false T b p T' /\ same_value p (img3 t)) /\
    forall d rest e, d_r d = cont (17 :: b ++ rest) e -> exists d' v, decode0 d = (d', Ok v) /\ d_r d' = cont rest e /\ unfolds (d_heap d') v (img3 t).
Proof.
  intros t w Hok Hw. unfold encode_with_amf3. destruct (emits_run _ _ _ w (write_byte_emits 17 ltac:(unfold byte; lia)) Hw) as [n ->].
  set (w1 := mkW _ _ _). assert (G : emits (w* n := encode3 t in wret (n + 1)) (w3 t) (len (17 :: w3 t))).
  { eapply emits_ext; [eapply emits_bind; [apply encode3_emits, Hok|apply emits_ret]|apply app_nil_r|]. rewrite len_cons. lia. }
  destruct (emits_run _ _ _ w1 G) as [k ->]; [exact Hw|]. eexists _, (w3 t). split; [reflexivity|]. split; [cbn [w_out w1]; rewrite <- app_assoc; reflexivity|].
  split; [intros Hf; apply w3_doc; assumption|]. intros d rest e Hr. rewrite cont_contr in *. unfold decode0. rewrite (fuel_for_contr _ _ _ Hr). cbn [length].
  cbn [dec0]. erewrite dbind_ok by (eapply read_byte_contr; exact Hr). cbn [Z.eqb orb Pos.eqb].
  destruct (decode3_wire t (set_r (contr (w3 t ++ rest) e) d) rest e Hok eq_refl) as (d' & v & H1 & H2 & H3 & H4 & _). unfold decode3 in H1. rewrite (fuel_for_contr _ (w3 t ++ rest) e) in H1 by reflexivity.
  exists d', v. split; [exact H1|]. split; [exact H2|apply H4, extends_refl].
Qed.
Print Assumptions C128_avmplus.
Example C128_example : ok3 (TArr [TInt false 5; TObj [(str "a", TStr (str "x"))]]) /\ ints_fit (TArr [TInt false 5; TObj [(str "a", TStr (str "x"))]]).
Proof.
  split; cbn; [|repeat split; left; lia]. repeat match goal with |- _ /\ _ => split end; try exact I; try (unfold len; cbn; lia); try (right; left; lia); try (repeat constructor; unfold byte; cbn; lia).
Qed.
