(** Chunks of input and the bytes a reader may take them for when short reads go unnoticed. *)
From Verif Require Import Base.Go.

(** [s] is the chunks one after the other, each followed by some number of zero bytes ([zeros] = false: by none). *)
Inductive padded (zeros : bool) : list bytes -> bytes -> Prop :=
| padded_nil : padded zeros [] []
| padded_cons c k cs s : (zeros = false -> k = O) -> padded zeros cs s -> padded zeros (c :: cs) (c ++ repeat 0 k ++ s).
