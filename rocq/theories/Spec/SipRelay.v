(** Messages passed on over connections (C213). *)
From Coq Require Import String.
From Verif Require Import Base.Go Base.IO Base.Text Model.Sip Spec.Sip Spec.SipHops.
Import ListNotations. Local Open Scope list_scope. Local Open Scope Z_scope.

(** One hop over a connection: the message is written with Bytes, in any order of its header map; the text arrives in blocks of any
    sizes; and Parse reads it into a new object through a buffer of at least 128 bytes that every line of the message fits.  (A body is never longer than
    an int can say.) *)
Definition hop_over (s x : sip) : Prop :=
  exists order s1 text blocks size b, iteration order /\ sip_bytes order s = Ok (s1, text) /\
    concat blocks = text /\ 128 <= size /\ fits size s /\ sip_parse (reader blocks size) new_sip = (b, (x, Ok tt)) /\ len (s_payload x) <= 9223372036854775807.
(** Any number of such hops. *)
Inductive hops_over : nat -> sip -> sip -> Prop :=
| O_none s : hops_over 0 s s
| O_more k s x y : hops_over k s x -> hop_over x y -> hops_over (S k) s y.

(** What may have become of a body after [k] hops: an empty one stays empty; one of one or two bytes is CRLF from the first hop on; any
    other has got a CRLF in front at every hop and lost some bytes at its end, at most two for every hop. *)
Definition body_over (k : nat) (body got : bytes) : Prop :=
  (body = [] -> got = []) /\
  (1 <= len body <= 2 -> got = match k with O => body | _ => [13; 10] end) /\
  (2 < len body -> exists lost, got ++ lost = crlfs k ++ body /\ len lost <= 2 * Z.of_nat k).
