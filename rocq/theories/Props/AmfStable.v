(** Property C171: a value handed out by an AMF decoder is not changed by anything the decoder does afterwards. *)
From Coq Require Import String.
From Verif Require Import Base.Go Base.GoFacts Base.IO Base.Float64 Proofs.IOFacts Model.AmfTypes Model.Amf3 Model.Amf0 Spec.Amf Spec.AmfDoc
  Proofs.AmfFacts Proofs.AmfContr Proofs.AmfKeep Proofs.AmfTerm Proofs.AmfTame Proofs.AmfHeap.
Import ListNotations.
Local Open Scope list_scope.
Local Open Scope Z_scope.

(** A later call on the same decoder: Decode or DecodeBatch, of AMF0 or AMF3, from any reader. *)
Inductive call := Decode0 (r : reader) | Decode3 (r : reader) | Batch0 (r : reader) | Batch3 (r : reader).
Definition perform (d : dstate) (c : call) : dstate := match c with Decode0 r => fst (decode0 (set_r r d)) | Decode3 r => fst (decode3 (set_r r d)) | Batch0 r => fst (decode_batch0 (set_r r d)) | Batch3 r => fst (decode_batch3 (set_r r d)) end.

Lemma batch0_heap f : forall d, extends (d_heap d) (d_heap (fst (batch0 f d))).
Proof.
  induction f as [|f IH]; intros d; cbn [batch0]; [apply extends_refl|]. pose proof (decode0_heap d) as H. destruct (decode0 d) as [d1 [v|x| |]]; cbn [fst] in *; try exact H; [|destruct x; exact H].
  pose proof (IH d1) as H1. destruct (batch0 f d1) as [d2 [vs r]]; cbn [fst] in *. eapply extends_trans; eassumption.
Qed.
Lemma batch3_heap f : forall d, extends (d_heap d) (d_heap (fst (batch3 f d))).
Proof.
  induction f as [|f IH]; intros d; cbn [batch3]; [apply extends_refl|]. pose proof (decode3_heap d) as H. destruct (decode3 d) as [d1 [v|x| |]]; cbn [fst] in *; try exact H; [|destruct x; exact H].
  pose proof (IH d1) as H1. destruct (batch3 f d1) as [d2 [vs r]]; cbn [fst] in *. eapply extends_trans; eassumption.
Qed.
Lemma perform_heap c d : extends (d_heap d) (d_heap (perform d c)).
Proof.
  destruct c as [r|r|r|r]; cbn [perform]; change (d_heap d) with (d_heap (set_r r d)).
  - apply decode0_heap. - apply decode3_heap. - apply batch0_heap. - apply batch3_heap.
Qed.

(** ** C171: after any further calls, also failing and panicking ones, every map that existed holds what it held, and every value reads as
    it did. *)
Theorem C171_decoded_values_keep : forall cs d,
  (forall i m, nth_error (d_heap d) i = Some m -> nth_error (d_heap (fold_left perform cs d)) i = Some m) /\
  (forall v p, unfolds (d_heap d) v p -> unfolds (d_heap (fold_left perform cs d)) v p).
Proof.
  intros cs d. assert (E : extends (d_heap d) (d_heap (fold_left perform cs d))).
  { revert d. induction cs as [|c cs IH]; intros d; cbn [fold_left]; [apply extends_refl|]. eapply extends_trans; [apply perform_heap|apply IH]. }
  split; [|intros v p H; eapply unfolds_extends; eassumption]. intros i m H. eapply extends_nth; eassumption.
Qed.
Print Assumptions C171_decoded_values_keep.
(** Three calls after an object was read: one that refers to it from an object cut short, one of AMF3, one that panics. *)
Definition ex_stable_doc : bytes := layout0 (A_object [(str "a", A_number 17)]).
Example C171_example :
  exists d v, decode0 (fresh (bytes_reader ex_stable_doc)) = (d, Ok v) /\ unfolds (d_heap d) v (PObj [(str "a", PNum 17)]) /\
    (let cs := [Decode0 (bytes_reader [3; 0; 1; 97; 7; 0; 0]); Batch3 (bytes_reader [10; 11; 1; 3; 98; 2; 1]); Decode0 (bytes_reader [7; 0; 2])] in
     (length (d_heap (fold_left perform cs d)) > length (d_heap d))%nat /\ snd (decode0 (set_r (bytes_reader [7; 0; 2]) (fold_left perform cs d))) = Panic /\
     unfolds (d_heap (fold_left perform cs d)) v (PObj [(str "a", PNum 17)])).
Proof.
  destruct (decode0 (fresh (bytes_reader ex_stable_doc))) as [d [v|x| |]] eqn:E; vm_compute in E; try discriminate. injection E as <- <-. eexists _, _. split; [reflexivity|].
  assert (U : unfolds [[(str "a", VNum 17)]] (VObj 0) (PObj [(str "a", PNum 17)])).
  { eapply U_obj; [reflexivity| |apply Permutation.Permutation_refl]. repeat constructor. }
  split; [exact U|]. split; [vm_compute; lia|]. split; [vm_compute; reflexivity|]. apply C171_decoded_values_keep. exact U.
Qed.
