(** Messages passed on from hop to hop (C190). *)
From Coq Require Import String.
From Verif Require Import Base.Go Base.IO Base.Text Model.Sip Spec.Sip.
Import ListNotations. Local Open Scope list_scope. Local Open Scope Z_scope.

(** One hop: the message is written with Bytes, in any order of its header map, and the text, of at most 4096 bytes, is read with
    ParseBytes into a new object. *)
Definition hop (s x : sip) : Prop :=
  exists order s1 text, iteration order /\ sip_bytes order s = Ok (s1, text) /\ len text <= 4096 /\ sip_parse_bytes text new_sip = (x, Ok tt).
(** Any number of hops. *)
Inductive hops : nat -> sip -> sip -> Prop :=
| H_none s : hops 0 s s
| H_more k s x y : hops k s x -> hop x y -> hops (S k) s y.

(** The body after some hops: an empty one stays empty; of a body of one or two bytes the first hop leaves CRLF; any other gets
    another CRLF in front at every hop. *)
Fixpoint crlfs (k : nat) : bytes := match k with O => [] | S k => [13; 10] ++ crlfs k end.
Definition body_after (k : nat) (body : bytes) : bytes :=
  match k, body with
  | O, _ => body
  | _, [] => []
  | _, [_] | _, [_; _] => [13; 10]
  | _, _ => crlfs k ++ body
  end.
