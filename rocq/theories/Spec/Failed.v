(** One of the Write calls made between two states of a writer returned an error. *)
From Verif Require Import Base.Go Base.IO.
Definition failed (w w' : writer) : Prop := exists n, (w_calls w <= n < w_calls w')%nat /\ w_script w n <> None.
