(** The metadata in a packet that has been handed to several FLV mixers. *)
From Verif Require Import Base.Go Spec.Command.

(** [after_mixers n p q]: data p have become q after n mixers. Each takes one command away, as DelMetaHeader does (Spec/Command.v), or
    refuses the packet and leaves it as it is. *)
Inductive after_mixers : nat -> bytes -> bytes -> Prop :=
| Am_none p : after_mixers 0 p p
| Am_muxed n p q r : without_command p q -> after_mixers n q r -> after_mixers (S n) p r
| Am_refused n p r : (forall q, ~ without_command p q) -> after_mixers n p r -> after_mixers (S n) p r.
