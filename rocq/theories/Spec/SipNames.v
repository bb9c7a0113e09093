(** Which spellings of a header name mean the same (C191). *)
From Coq Require Import String.
From Verif Require Import Base.Go Base.IO Base.Text Model.Sip Spec.Sip.
Import ListNotations. Local Open Scope list_scope. Local Open Scope Z_scope.

(** [spells s n]: s is the lower-case name n up to ASCII case, where U+0130 (I with dot) may stand for i and U+212A (Kelvin) for k. *)
Inductive spells : bytes -> bytes -> Prop :=
| SP_nil : spells [] []
| SP_char c s n : spells s n -> spells (c :: s) (c :: n)
| SP_upper c s n : 65 <= c <= 90 -> spells s n -> spells (c :: s) ((c + 32) :: n)
| SP_dotted_i s n : spells s n -> spells (196 :: 176 :: s) (105 :: n)
| SP_kelvin s n : spells s n -> spells (226 :: 132 :: 170 :: s) (107 :: n).
(** A name in lower-case ASCII. *)
Definition lower_ascii (n : bytes) : Prop := Forall (fun d => d < 128 /\ ~ 65 <= d <= 90) n.
(** The credentials of the scheme Digest: the word in any case, a space, and something. *)
Definition digest (src rest : bytes) : Prop := exists pre, src = pre ++ rest /\ same_ignoring_case pre (str "digest ") /\ rest <> [].
