(** Parameter values with characters that do not print, as CommaString writes them and NewSIPAuth reads them back (C194). *)
From Coq Require Import String.
From Verif Require Import Base.Go Base.IO Base.Text Model.Sip Spec.Sip Spec.SipUtf8.
Import ListNotations. Local Open Scope list_scope. Local Open Scope Z_scope.

Definition printable (c : Z) : Prop := 32 <= c <= 126.
Definition hex_digit (d : Z) : Z := nth (Z.to_nat d) (str "0123456789abcdef") 0.
(** What is left of an escaped byte: one letter for some control characters, x and two hexadecimal digits for the others. *)
Definition left_of (b : Z) : bytes :=
  match b with
  | 7 => str "a" | 8 => str "b" | 9 => str "t" | 10 => str "n" | 11 => str "v" | 12 => str "f" | 13 => str "r"
  | _ => str "x" ++ [hex_digit (b / 16); hex_digit (b mod 16)]
  end.
(** [w] is what comes back for the value [v]: of ASCII, and bytes with which no character of UTF-8 begins. *)
Inductive comes_back : bytes -> bytes -> Prop :=
| Cb_nil : comes_back [] []
| Cb_char c v w : printable c -> comes_back v w -> comes_back (c :: v) (c :: w)
| Cb_control c v w : 0 <= c < 32 -> comes_back v w -> comes_back (c :: v) (left_of c ++ w)
| Cb_stray b v w : 128 <= b < 256 -> (forall r u, scalar r -> b :: v <> utf8 r ++ u) -> comes_back v w -> comes_back (b :: v) (left_of b ++ w).
Definition param_key (k : bytes) : Prop := k <> [] /\ Forall graphic k /\ without (str ",;=""") k.
