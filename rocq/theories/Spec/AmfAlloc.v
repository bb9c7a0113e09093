(** Memory asked for: the sum of the sizes of the buffers made, in bytes. *)
From Verif Require Import Base.Go.
Fixpoint total (l : list Z) : Z := match l with [] => 0 | n :: l' => n + total l' end.
