(** Property C219: the most that the encoding of a decoded AMF0 value can be, references included. *)
From Coq Require Import String Permutation.
From Verif Require Import Base.Go Base.GoFacts Base.IO Base.Float64 Proofs.IOFacts Model.AmfTypes Model.Amf3 Model.Amf0 Spec.Amf Spec.AmfDoc Spec.Amf3Doc Spec.Amf3Ref Spec.AmfAll Spec.AmfVal Spec.AmfAgain Spec.AmfGrow
  Proofs.AmfFacts Proofs.Amf0Doc Proofs.AmfHeap Proofs.AmfVal Proofs.AmfAgain Proofs.AmfGrow Proofs.AmfBound Props.Amf0 Props.AmfDoc Props.Amf3Ref Props.AmfRefs Props.AmfVal Props.AmfAgain Props.AmfGrow.
Import ListNotations.
Local Open Scope list_scope.
Local Open Scope Z_scope.

(** ** C219: whatever a new decoder reads, references included, as long as no reference points to an object that contains it (then
    there is no end to it, C165) and no AMF3 value is inside: for n bytes read, Encode writes less than 2^n. *)
Theorem C219_exponential_bound : forall t rest e, is_bytes (layout0 t) -> doc_ok true t -> no_amf3 t -> refs_in 0 t -> refers_up [] 0 t = false ->
  rest <> [] \/ e_zero e = false \/ doc_ends_empty t = false ->
  exists d' v n, decode0 (fresh (cont (layout0 t ++ rest) e)) = (d', Ok v) /\ d_r d' = cont rest e /\ writes_n (d_heap d') v n /\ n < 2 ^ len (layout0 t).
Proof.
  intros t rest e HB HO HA HR HU He. set (d := fresh (cont (layout0 t ++ rest) e)).
  assert (B : begins_with new_world 0 (e_zero e) (layout0 t ++ rest) t 0 new_world rest).
  { split; [apply app_nil_r|]. split; [left; reflexivity|]. split; [exact HO|]. split; [exact HR|]. split; [apply embedded_none, HA|exact He]. }
  destruct (C164_has_value new_world [] _ _ _ _ _ _ _ B) as (p & env' & R & _ & _); [reflexivity|intros [|i] X; discriminate X|exact HU|].
  destruct (C164_values new_world [] d _ e t 0 p new_world env' rest eq_refl (fresh_knows _) (Forall2_nil _) B R) as (d' & v & E & R' & X & _).
  destruct (proj1 reads_good _ _ _ _ _ _ _ R HA HO HB (Forall_nil _)) as [O _]. destruct (proj1 reads_small _ _ _ _ _ _ _ R HA HO HB 0 (Z.le_refl 0) (Forall_nil _)) as [L _].
  exists d', v, (wsize p). split; [exact E|]. split; [exact R'|]. split; [apply writes_wsize; assumption|]. change (2 ^ 0) with 1 in L. rewrite Z.add_0_l in L. lia.
Qed.
(** The inputs of C219_no_longer_refuted, whose encodings do double with each 13 bytes, are among these. *)
Example C219_exponential_ex : let t := doubled 5 0 in
  is_bytes (layout0 t) /\ doc_ok true t /\ no_amf3 t /\ refs_in 0 t /\ refers_up [] 0 t = false /\ doc_ends_empty t = false.
Proof.
  cbv zeta. split; [apply doubled_bytes; vm_compute; congruence|]. split; [apply doubled_ok; vm_compute; congruence|]. split; [vm_compute; tauto|]. split; [|split; reflexivity].
  vm_compute. repeat split; congruence.
Qed.
Print Assumptions C219_exponential_bound.
