(** Where an AMF0 document may end too early. *)
From Verif Require Import Base.Go Model.AmfTypes Spec.Amf Spec.AmfDoc Spec.AmfCut.

(** The input p stops between two of the pieces us of Spec/AmfCut.v (markers, lengths, numbers, texts), or strictly inside one of them. *)
Definition stops_between (us : units) (p : bytes) : Prop := exists a b, us = a ++ b /\ p = unit_bytes a.
Definition stops_inside (text : bool) (us : units) (p : bytes) : Prop :=
  exists a s b x y, us = a ++ (text, s) :: b /\ p = unit_bytes a ++ x /\ s = x ++ y /\ x <> [] /\ y <> [].
(** References of a sequence of documents point to what the decoder has seen: n objects and arrays before the first. *)
Fixpoint refs_seq (n : Z) (ts : list doc0) : Prop :=
  match ts with [] => True | t :: ts' => refs_in n t /\ refs_seq (n + slots t) ts' end.
