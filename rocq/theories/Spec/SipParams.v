(** Parameter lists, for every ASCII text (C155). *)
From Coq Require Import String.
From Verif Require Import Base.Go Base.IO Base.Text Model.Sip Spec.Sip.
Import ListNotations. Local Open Scope list_scope. Local Open Scope Z_scope.

Definition separator (c : Z) : Prop := c = 44 \/ c = 59 \/ c = 10.          (* comma, semicolon, LF *)
Definition blank (c : Z) : Prop := c = 32 \/ 9 <= c <= 13.
Definition trimmed (s t : bytes) : Prop :=
  exists a b, s = a ++ t ++ b /\ Forall blank a /\ Forall blank b /\
    (forall c u, t = c :: u -> ~ blank c) /\ (forall c u, t = u ++ [c] -> ~ blank c).
(** The inside of a quoted string, and what it stands for: a backslash stands for the character after it. *)
Inductive quoted : bytes -> bytes -> Prop :=
| Q_nil : quoted [] []
| Q_char c t v : c <> 34 -> c <> 92 -> quoted t v -> quoted (c :: t) (c :: v)
| Q_escape c t v : quoted t v -> quoted (92 :: c :: t) (c :: v).
(** An element: characters other than separators, and quoted strings; it stands for itself, quotes included, but for
    the backslashes. *)
Inductive element : bytes -> bytes -> Prop :=
| El_nil : element [] []
| El_char c t v : ~ separator c -> c <> 34 -> element t v -> element (c :: t) (c :: v)
| El_quoted q w t v : quoted q w -> element t v -> element (34 :: q ++ 34 :: t) (34 :: w ++ 34 :: v).
(** The last one may end in a quoted string that is not closed; a lone backslash at the very end is dropped. *)
Inductive last_element : bytes -> bytes -> Prop :=
| LE_whole t v : element t v -> last_element t v
| LE_open a b q w : element a b -> quoted q w -> last_element (a ++ 34 :: q) (b ++ 34 :: w)
| LE_escape a b q w : element a b -> quoted q w -> last_element (a ++ 34 :: q ++ [92]) (b ++ 34 :: w).
(** The elements of a list; no element after a final separator. *)
Inductive elements : bytes -> list bytes -> Prop :=
| Es_none : elements [] []
| Es_last t v e : t <> [] -> last_element t v -> trimmed v e -> elements t [e]
| Es_more t v e c rest es : element t v -> separator c -> trimmed v e -> elements rest es -> elements (t ++ c :: rest) (e :: es).
(** One parameter: a key alone, or a key, an equals sign and a value, which loses the quotes around it. *)
Inductive param : bytes -> bytes -> bytes -> Prop :=
| Pa_key k : without (str "=") k -> param k k []
| Pa_quoted k v : without (str "=") k -> param (k ++ str "=" ++ [34] ++ v ++ [34]) k v
| Pa_value k v : without (str "=") k -> v <> [] -> v <> [34] -> (forall w, v <> [34] ++ w ++ [34]) -> param (k ++ str "=" ++ v) k v.
(** The value a key has in the end: that of the last parameter with this key. *)
Definition last_value (es : list bytes) (k v : bytes) : Prop :=
  exists before e after, es = before ++ e :: after /\ param e k v /\ forall e' v', In e' after -> ~ param e' k v'.
