(** Line breaks in header values (C195). *)
From Coq Require Import String.
From Verif Require Import Base.Go Base.IO Base.Text Model.Sip Spec.Sip.
Import ListNotations. Local Open Scope list_scope. Local Open Scope Z_scope.

Definition LF : Z := 10.
(** No value of any header contains a line feed. *)
Definition no_breaks (h : header) : Prop := forall n v, In v (hvals h n) -> ~ In LF v.
(** A value with a whole header in it: the value, a line break, the name, a colon and a space, the other value. *)
Definition with_header_in (v n2 v2 : bytes) : bytes := v ++ [13; 10] ++ n2 ++ str ": " ++ v2.
(** Two ways to fill in a header object: with one value that has a second header in it, or with the two values
    under their two names. *)
Definition forged (h : header) (n v n2 v2 : bytes) (h' h2 : header) : Prop :=
  set_first h n (with_header_in v n2 v2) = Ok h' /\ exists h1, set_first h n v = Ok h1 /\ set_first h1 n2 v2 = Ok h2.
