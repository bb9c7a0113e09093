(** What an encoder does on a writer whose calls may fail. *)
From Verif Require Import Base.Go Base.IO.
Import ListNotations.

(** [fails_first w n i k]: of the next n calls of the writer, number i (from 0) is the first to fail, accepting k
    bytes. [all_work w n]: none of them fails. *)
Definition fails_first (w : writer) (n i k : nat) : Prop :=
  (i < n)%nat /\ w_script w (w_calls w + i) = Some k /\ forall j, (j < i)%nat -> w_script w (w_calls w + j) = None.
Definition all_work (w : writer) (n : nat) : Prop := forall j, (j < n)%nat -> w_script w (w_calls w + j) = None.
(** The writer after these Write calls, all of which worked. *)
Definition accepted (calls : list bytes) (w : writer) : writer := mkW (w_out w ++ concat calls) (w_calls w + length calls) (w_script w).
(** The writer after call number i accepted k bytes and failed; there were no more calls. *)
Definition stopped (calls : list bytes) (i k : nat) (w : writer) : writer :=
  mkW (w_out w ++ concat (firstn i calls) ++ firstn k (nth i calls [])) (w_calls w + S i) (w_script w).

(** [delivers m full r]: m cuts full into Write calls, always in the same way. It answers r if all of them work. At the first that
    fails it stops and returns that failure. *)
Definition delivers {A} (m : Wm A) (full : bytes) (r : res A) : Prop :=
  exists calls, concat calls = full /\ forall w,
    (all_work w (length calls) -> m w = (accepted calls w, r)) /\
    (forall i k, fails_first w (length calls) i k -> m w = (stopped calls i k w, Err EWrite)).
(** The same, but if the first call fails it returns a count of 0 and no error. *)
Definition delivers_but_first (m : Wm Z) (full : bytes) (r : res Z) : Prop :=
  exists calls, concat calls = full /\ forall w,
    (all_work w (length calls) -> m w = (accepted calls w, r)) /\
    (forall i k, fails_first w (length calls) i k -> m w = (stopped calls i k w, if Nat.eqb i 0 then Ok 0%Z else Err EWrite)).
