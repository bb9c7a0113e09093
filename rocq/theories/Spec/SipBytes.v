(** How much of the text ParseBytes takes for the payload (C186). *)
From Verif Require Import Base.Go Base.IO Base.Text Model.Sip Spec.Sip Spec.SipWhole.
Import ListNotations. Local Open Scope list_scope. Local Open Scope Z_scope.

(** A text is read line by line through a buffer of 4096 bytes. [ahead r k rest k']: from a state where [r] is still to be read,
    [k] bytes of it being in the buffer, some lines lead to one where [rest] is still to be read, [k'] bytes of it being in
    the buffer. The buffer is filled up when the line is not in it entirely. *)
Inductive ahead : bytes -> Z -> bytes -> Z -> Prop :=
| A_here r k : ahead r k r k
| A_line r k l r' rest k' : next_line 4096 r l r' -> ahead r' ((if len l <=? k then k else Z.min 4096 (len r)) - len l) rest k' ->
    ahead r k rest k'.
(** How many bytes are taken when [need] are missing and [k] are in the buffer: none, or the buffer and as many blocks of 4096 as needed. *)
Definition taken (need k : Z) : Z := if need <=? 0 then 0 else k + 4096 * Z.max 0 ((need - k + 4095) / 4096).
