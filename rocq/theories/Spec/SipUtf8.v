(** Parameter lists in any text, UTF-8 or not (C192). *)
From Coq Require Import String.
From Verif Require Import Base.Go Base.IO Base.Text Model.Sip Spec.Sip Spec.SipParams.
Import ListNotations. Local Open Scope list_scope. Local Open Scope Z_scope.

(** The Unicode characters, and their encoding in UTF-8. *)
Definition scalar (r : Z) : Prop := 0 <= r < 55296 \/ 57344 <= r < 1114112.
Definition utf8 (r : Z) : bytes :=
  if r <? 128 then [r]
  else if r <? 2048 then [192 + r / 64; 128 + r mod 64]
  else if r <? 65536 then [224 + r / 4096; 128 + r / 64 mod 64; 128 + r mod 64]
  else [240 + r / 262144; 128 + r / 4096 mod 64; 128 + r / 64 mod 64; 128 + r mod 64].
Definition utf8s (cs : list Z) : bytes := flat_map utf8 cs.
(** The characters of a text: a byte with which no character begins counts as U+FFFD. *)
Inductive chars : bytes -> list Z -> Prop :=
| Ch_nil : chars [] []
| Ch_char r t cs : scalar r -> chars t cs -> chars (utf8 r ++ t) (r :: cs)
| Ch_bad b t cs : (forall r u, scalar r -> b :: t <> utf8 r ++ u) -> chars t cs -> chars (b :: t) (65533 :: cs).
(** The white space of Unicode (property White_Space). *)
Definition white (c : Z) : Prop :=
  9 <= c <= 13 \/ 8192 <= c <= 8202 \/ In c [32; 133; 160; 5760; 8232; 8233; 8239; 8287; 12288].
Definition stripped (s t : list Z) : Prop :=
  exists a b, s = a ++ t ++ b /\ Forall white a /\ Forall white b /\
    (forall c u, t = c :: u -> ~ white c) /\ (forall c u, t = u ++ [c] -> ~ white c).
(** The elements of a list, as [elements] of C155, with all white space stripped. *)
Inductive items : list Z -> list (list Z) -> Prop :=
| It_none : items [] []
| It_last t v e : t <> [] -> last_element t v -> stripped v e -> items t [e]
| It_more t v e c rest es : element t v -> separator c -> stripped v e -> items rest es -> items (t ++ c :: rest) (e :: es).
