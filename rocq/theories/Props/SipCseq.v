(** Property C78: what writing a CSeq leaves in the object. *)
From Coq Require Import String.
From Verif Require Import Base.Go Base.GoFacts Base.IO Model.Sip Proofs.Sip.
Import ListNotations.
Local Open Scope list_scope.
Local Open Scope Z_scope.

(** ** C78: Bytes leaves ID and Method alone and makes Src the text it returns; reading that text gives the object Bytes left,
    all three fields of it, if and only if there is no space in ID. *)
Theorem C78_cseq_left : forall q, q_id (cseq_stored q) = q_id q /\ q_method (cseq_stored q) = q_method q /\ q_src (cseq_stored q) = cseq_bytes q /\
  cseq_bytes (cseq_stored q) = cseq_bytes q /\ (new_cseq (cseq_bytes q) = Ok (cseq_stored q) <-> ~ In 32 (q_id q)).
Proof.
  intros [i m s]. unfold cseq_stored, cseq_bytes. cbn [q_id q_method q_src]. do 4 (split; [reflexivity|]). split.
  - intros E HI.
    assert (X : exists a b, i = a ++ 32 :: b /\ Forall (fun c => c <> 32) a).
    { clear - HI. induction i as [|c i IH]; [destruct HI|]. destruct (Z.eq_dec c 32) as [->|N]; [exists [], i; split; [reflexivity|constructor]|].
      destruct HI as [HI|HI]; [congruence|]. destruct (IH HI) as (a & b & -> & F). exists (c :: a), b. split; [reflexivity|constructor; assumption]. }
    destruct X as (a & b & -> & F). rewrite <- app_assoc in E. cbn [app] in E. rewrite (new_cseq_split _ _ F) in E. injection E as E _.
    apply (f_equal (@List.length Z)) in E. rewrite app_length in E. cbn [List.length] in E. lia.
  - intros HN. apply (new_cseq_split i m). apply Forall_forall. intros c Hc ->. exact (HN Hc).
Qed.
Print Assumptions C78_cseq_left.
(** A CSeq made up by the program, its Src still empty; and one with a space in its ID. *)
Example C78_cseq_left_ex : new_cseq (cseq_bytes (mkCseq (str "4711") (str "INVITE") [])) = Ok (mkCseq (str "4711") (str "INVITE") (str "4711 INVITE")) /\
  new_cseq (cseq_bytes (mkCseq (str "4 7") (str "BYE") [])) = Ok (mkCseq (str "4") (str "7 BYE") (str "4 7 BYE")).
Proof. vm_compute. split; reflexivity. Qed.
