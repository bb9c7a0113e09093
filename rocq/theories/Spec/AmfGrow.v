(** How long the encoding of a decoded AMF0 value can be. *)
From Coq Require Import String.
From Verif Require Import Base.Go Base.IO Model.AmfTypes Spec.Amf Spec.AmfDoc.
Import ListNotations.
Local Open Scope list_scope.
Local Open Scope Z_scope.

(** An object with two members: one is such an object again, n deep, the other a reference to it. The outermost object takes the
    place i of the reference table, so the one inside takes the next. *)
Fixpoint doubled (n : nat) (i : Z) : doc0 :=
  match n with
  | O => A_object []
  | S n' => A_object [(str "a", doubled n' (i + 1)); (str "b", A_reference (i + 1))]
  end.
(** What it denotes. *)
Fixpoint doubled_value (n : nat) : pval :=
  match n with
  | O => PObj []
  | S n' => PObj [(str "a", doubled_value n'); (str "b", doubled_value n')]
  end.
