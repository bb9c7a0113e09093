(** Property C208: what AMF3 Decode returned can be encoded unless an array is in it, and decoding that gives it again. *)
From Coq Require Import String Permutation.
From Verif Require Import Base.Go Base.GoFacts Base.IO Base.Float64 Proofs.IOFacts Model.AmfTypes Model.Amf3 Model.Amf0 Spec.Amf Spec.AmfDoc Spec.Amf3Doc Spec.Amf3Ref Spec.AmfRaw Spec.AmfRaw3 Spec.Amf3Again
  Proofs.AmfFacts Proofs.Amf3Again Proofs.AmfHistory Props.Amf3 Props.Amf3Ref Props.AmfRaw3.
Import ListNotations.
Local Open Scope list_scope.
Local Open Scope Z_scope.

Lemma history_inv d : history d -> inv d.
Proof.
  induction 1 as [r H|d r _ IH H|d r _ IH H].
  - split; [exact H|]. repeat split; constructor.
  - apply (pr_dec0 (fuel_for (set_r r d)) (set_r r d)). apply inv_r; assumption.
  - apply (pr_dec3 (fuel_for (set_r r d)) (set_r r d)). apply inv_r; assumption.
Qed.

(** ** C208 *)
(** Every decoder has the tables of a world: what C142, C163 and C164 say of such decoders holds for all of them. *)
Theorem C208_any_decoder : forall d, history d -> exists W, knows W d.
Proof. intros d H. destruct (inv_world d (history_inv d H)) as (W & K & _). exists W. exact K. Qed.
Print Assumptions C208_any_decoder.
Theorem C208_again : forall d s e d' v, history d -> is_bytes s -> decode3 (set_r (cont s e) d) = (d', Ok v) ->
  (exists p, unfolds (d_heap d') v p) /\
  forall p w, unfolds (d_heap d') v p -> never_fails w ->
  (has_array p = true -> exists w', encode3 (same_go p) w = (w', Err EOther)) /\
  (has_array p = false -> exists w' enc, encode3 (same_go p) w = (w', Ok (len enc)) /\ w_out w' = w_out w ++ enc /\
     (times_fit p -> forall d2 rest e2, d_r d2 = cont (enc ++ rest) e2 ->
      exists d2' v2, decode3 d2 = (d2', Ok v2) /\ d_r d2' = cont rest e2 /\ unfolds (d_heap d2') v2 (comes_as p))).
Proof.
  intros d s e d' v HH HB E. destruct (inv_world d (history_inv d HH)) as (W & HK & HW).
  destruct (proj1 (C142_decode_exactly W (set_r (cont s e) d) s e HB eq_refl HK) d' v E) as (b & c & rest & p0 & W' & V & EB & _ & _ & U & _).
  assert (B : is_bytes b).
  { assert (X : is_bytes (s ++ repeat 0 c)) by (apply is_bytes_app; split; [exact HB|]; apply Forall_forall; intros x Hx; apply repeat_spec in Hx; subst x; unfold byte; lia). rewrite EB in X. apply is_bytes_app in X. apply X. }
  destruct (proj1 value_fine _ _ _ _ _ V B HW) as [F0 _]. split; [exists p0; exact U|]. intros p w Up Hw. pose proof (fine_order _ _ F0 _ _ U Up) as F.
  destruct (C183_relation (same_go p) (fine_go p F)) as (x & HX & _). destruct (C183_encode (same_go p) x w (fine_go p F) HX Hw) as (n & EX). pose proof (C183_fails_iff _ _ HX) as S. rewrite (fine_supported p F) in S. split; intros A; rewrite A in S; cbn [negb] in S; rewrite S in EX.
  - eexists. exact EX.
  - eexists. exists (fst x). split; [exact EX|]. split; [reflexivity|]. intros T d2 rest2 e2 Hr. destruct (fine_ok p F A T) as [O IM]. destruct (C65_amf3_round_trip (same_go p) w O Hw) as (w2 & enc & E2 & O2 & G). rewrite EX in E2.
    assert (Ee : fst x = enc). { apply (f_equal (fun y => w_out (fst y))) in E2. cbn [fst w_out] in E2. rewrite O2 in E2. exact (app_inv_head _ _ _ E2). }
    rewrite Ee in Hr. destruct (G d2 rest2 e2 Hr) as (d2' & v2 & G1 & G2 & G3 & _). rewrite IM in G3. exists d2', v2. split; [exact G1|]. split; assumption.
Qed.
Print Assumptions C208_again.
Theorem C208_same : forall p, no_largest p -> comes_as p = p.
Proof. exact comes_same. Qed.
Print Assumptions C208_same.

(** The largest integer, which Decode returns as a uint32, comes back as a float64. *)
Definition largest : bytes := [4; 255; 255; 255; 255].
Example C208_largest : exists d' w' enc d2' v2, decode3 (fresh (bytes_reader largest)) = (d', Ok (VU32 536870911)) /\ encode3 (TUint false 536870911) buffer0 = (w', Ok (len enc)) /\ w_out w' = enc /\
  decode3 (fresh (bytes_reader enc)) = (d2', Ok v2) /\ v2 = VNum (f64_of_Z 536870911).
Proof. eexists. eexists. exists [5; 65; 191; 255; 255; 255; 0; 0; 0]. eexists. eexists. split; [vm_compute; reflexivity|]. split; [vm_compute; reflexivity|]. split; [reflexivity|]. split; vm_compute; reflexivity. Qed.
(** A decoder that has failed on an array with a cut string, then reads an object with a member that repeats the string. *)
Definition doc208 : bytes := [10; 35; 3; 84; 3; 97; 3; 98; 6; 0; 12; 5; 1; 2].
Definition d208 : dstate := fst (decode3 (set_r (bytes_reader [9; 5; 1; 6; 3; 120; 6]) (fresh (bytes_reader [])))).
Example C208_example : history d208 /\ snd (decode3 (set_r (bytes_reader [9; 5; 1; 6; 3; 120; 6]) (fresh (bytes_reader [])))) = Err EEof /\
  exists d' v, decode3 (set_r (bytes_reader doc208) d208) = (d', Ok v) /\ unfolds (d_heap d') v (PObj [(str "a", PStr (str "x")); (str "b", PBytes [1; 2])]).
Proof.
  split. { apply H_decode3; [apply H_new; constructor|]. vm_compute. repeat (constructor; [split; vm_compute; congruence|]). constructor. }
  split; [vm_compute; reflexivity|]. eexists. eexists. split; [vm_compute; reflexivity|].
  eapply (U_obj _ _ _ [(str "a", PStr (str "x")); (str "b", PBytes [1; 2])]); [reflexivity| |apply Permutation_refl].
  repeat first [apply Forall2_nil|apply Forall2_cons; [split; [reflexivity|constructor]|]].
Qed.
