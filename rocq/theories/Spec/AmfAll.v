(** AMF0 documents with the AMF3 values embedded in them (marker 17): the documents of Spec/AmfDoc.v, each embedded value
    being one of Spec/Amf3Ref.v in the reading of the library, with the AMF3 tables running through all of them. *)
From Verif Require Import Base.Go Model.AmfTypes Spec.Amf Spec.AmfDoc Spec.Amf3Doc Spec.Amf3Ref.

(** One after the other; only the last may have its last bytes missing. *)
Fixpoint chain (rs : list (world -> nat -> world -> Prop)) (W : world) (c : nat) (W' : world) : Prop :=
  match rs with
  | [] => c = 0%nat /\ W' = W
  | r :: rs' => exists c1 W1 c2, r W c1 W1 /\ chain rs' W1 c2 W' /\ c = (c1 + c2)%nat /\ (c1 = 0%nat \/ rs' = [])
  end.
(** The AMF3 values in t take the tables from W to W'; the last c bytes of the layout of t may be missing. *)
Fixpoint embedded (t : doc0) : world -> nat -> world -> Prop :=
  match t with
  | A_avmplus s => fun W c W' => exists p, value3r Library W s c p W'
  | A_object fs | A_ecma _ fs | A_typed _ fs => fun W c W' => c = 0%nat /\ chain (map (fun p => embedded (snd p)) fs) W 0 W'
  | A_strict l => chain (map embedded l)
  | _ => fun W c W' => c = 0%nat /\ W' = W
  end.
(** The same for a document cut where a value is about to begin: nothing is missing before the cut. *)
Fixpoint open_embedded (o : open0) (W W' : world) : Prop :=
  match o with
  | O_here => W' = W
  | O_object fs _ o | O_ecma _ fs _ o | O_typed _ fs _ o => exists W1, chain (map (fun p => embedded (snd p)) fs) W 0 W1 /\ open_embedded o W1 W'
  | O_strict _ l o => exists W1, chain (map embedded l) W 0 W1 /\ open_embedded o W1 W'
  end.

(** The input s begins with the document t, when n places of the reference table are taken; rest comes after it. The last c
    bytes of t are missing in s and read as zeros. At the end of the input, a source that answers an empty Read with io.EOF
    cannot give an empty string. *)
Definition begins_with (W : world) (n : Z) (e : bool) (s : bytes) (t : doc0) (c : nat) (W' : world) (rest : bytes) : Prop :=
  s ++ repeat 0 c = layout0 t ++ rest /\ (c = 0%nat \/ rest = []) /\ doc_ok true t /\ refs_in n t /\ embedded t W c W' /\
  (rest <> [] \/ e = false \/ doc_ends_empty t = false).
(** Up to some point the input is the beginning of a document, and goes on there with a reference to the very next place. *)
Definition self_refers (W : world) (n : Z) (s : bytes) : Prop :=
  exists o i rest W', s = open_layout o ++ layout0 (A_reference i) ++ rest /\ open_ok o /\ open_refs n o /\ open_embedded o W W' /\
    0 <= i < 2 ^ 16 /\ i = n + open_slots o.
