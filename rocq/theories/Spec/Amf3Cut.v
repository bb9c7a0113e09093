(** Where an AMF3 document may be cut between two Read calls. *)
From Verif Require Import Base.Go Spec.Amf3Trunc.

(** A cut after p bytes of the document falls inside a piece of kind k, of which m bytes are still to come. *)
Definition inside (k : kind) (us : pieces) (p m : Z) : Prop :=
  exists a s b, us = a ++ (k, s) :: b /\ len (piece_bytes a) < p < len (piece_bytes a) + len s /\ m = len (piece_bytes a) + len s - p.
(** No two successive Read calls cut a string or the content of a byte array or XML document. *)
Definition uncut (us : pieces) (cs : list bytes) : Prop :=
  forall pre post k m, cs = pre ++ post -> inside k us (len (concat pre)) m -> k = Whole \/ k = Stamp.
(** The first such cut is the one between the chunks pre and the chunks post. *)
Definition first_cut (us : pieces) (cs : list bytes) (k : kind) (pre post : list bytes) (m : Z) : Prop :=
  cs = pre ++ post /\ inside k us (len (concat pre)) m /\ (k = Text \/ k = Content) /\
  forall pre' post' k' m', cs = pre' ++ post' -> inside k' us (len (concat pre')) m' -> k' = Text \/ k' = Content -> len (concat pre) <= len (concat pre').
