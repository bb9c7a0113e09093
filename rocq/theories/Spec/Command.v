(** Texts at the front of AMF0 data, and what DelMetaHeader and AddMetaHeader should make of them. *)
From Coq Require Import String.
From Verif Require Import Base.Go Base.IO Model.AmfTypes Spec.Amf Spec.Amf3Doc.
Import ListNotations.
Local Open Scope Z_scope.

(** [text_at p s]: the first value in p is the text s, as the AMF0 decoder reads it from a bytes.Reader: a string, a long
    string or XML document (not if it is empty and nothing follows, C57), or, after the AMF3 switch, an AMF3 string, XML
    document or XML text, the latter two also with bytes missing at the end of p, which are read as zeros (C70). *)
Inductive text_at : bytes -> bytes -> Prop :=
| Tx_string s rest : len s <= 65535 -> s ++ rest <> [] -> text_at (2 :: be16 (len s) ++ s ++ rest) s
| Tx_long m s rest : m = 12 \/ m = 15 -> len s < 2 ^ 32 -> s ++ rest <> [] -> text_at (m :: be32 (len s) ++ s ++ rest) s
| Tx_amf3 m b s rest : m = 6 \/ m = 7 \/ m = 11 -> u29 (2 * len s + 1) b -> text_at (17 :: m :: b ++ s ++ rest) s
| Tx_cut m b s n : m = 7 \/ m = 11 -> s <> [] -> u29 (2 * (len s + Z.of_nat n) + 1) b -> text_at (17 :: m :: b ++ s) (s ++ repeat 0 n).

(** The data without the command. It is taken to have 16 bytes, which is so for its AMF0 string and AMF3 string layouts. *)
Inductive without_command (p : bytes) : bytes -> Prop :=
| Wc_command q : text_at p (str "@setDataFrame") -> (exists h, len h = 16 /\ p = h ++ q) -> without_command p q
| Wc_other s : text_at p s -> s <> str "@setDataFrame" -> without_command p p.
(** The data with the command. *)
Inductive with_command (p : bytes) : bytes -> Prop :=
| Ac_command : text_at p (str "@setDataFrame") -> with_command p p
| Ac_other s : text_at p s -> s <> str "@setDataFrame" -> with_command p ([2; 0; 13] ++ str "@setDataFrame" ++ p).
