(** AMF3 documents as the pieces their reader asks for, and where a document may end too early. *)
From Verif Require Import Base.Go Base.Float64 Model.AmfTypes Spec.Amf Spec.AmfDoc Spec.Amf3Doc.

(** Single bytes (markers and the bytes of an integer) and the eight bytes of a double; the bytes of a string; the eight bytes of a date;
    the content of a byte array or XML document. *)
Inductive kind := Whole | Text | Stamp | Content.
Definition pieces := list (kind * bytes).
Definition piece_bytes (us : pieces) : bytes := concat (map snd us).
Definition singles (b : bytes) : pieces := map (fun x => (Whole, [x])) b.
Definition piece (k : kind) (s : bytes) : pieces := match s with [] => [] | _ => [(k, s)] end.

(** The grammar of Spec/Amf3Doc.v (loose = false) with the pieces in the place of the bytes and without the values. *)
Inductive vr_pieces : list bytes -> pieces -> bytes -> list bytes -> Prop :=
| vrp_ref st i s b : u29 (2 * Z.of_nat i) b -> nth_error st i = Some s -> vr_pieces st (singles b) s st
| vrp_empty st b : u29 1 b -> vr_pieces st (singles b) [] st
| vrp_lit st s b : s <> [] -> u29 (2 * len s + 1) b -> vr_pieces st (singles b ++ piece Text s) s (st ++ [s]).
Inductive vrs_pieces : list bytes -> pieces -> list bytes -> list bytes -> Prop :=
| vrsp_nil st : vrs_pieces st [] [] st
| vrsp_cons st b s st1 bs ss st2 : vr_pieces st b s st1 -> vrs_pieces st1 bs ss st2 -> vrs_pieces st (b ++ bs) (s :: ss) st2.
Inductive traits_pieces : tables -> pieces -> bytes * list bytes -> tables -> Prop :=
| trp_ref T i c b : u29 (4 * Z.of_nat i + 1) b -> nth_error (t_classes T) i = Some c -> traits_pieces T (singles b) c T
| trp_new T b b1 ty st1 b2 props st2 : u29 (16 * len props + 3) b -> vr_pieces (t_strings T) b1 ty st1 -> vrs_pieces st1 b2 props st2 ->
    traits_pieces T (singles b ++ b1 ++ b2) (ty, props) (mkTables st2 (t_classes T ++ [(ty, props)])).
Inductive value_pieces : tables -> pieces -> tables -> Prop :=
| vp_byte T m : m = 0 \/ m = 1 \/ m = 2 \/ m = 3 -> value_pieces T (singles [m]) T
| vp_integer T n b : n < 2 ^ 28 -> u29 n b -> value_pieces T (singles [4] ++ singles b) T
| vp_double T bits : 0 <= bits < 2 ^ 64 -> value_pieces T (singles [5] ++ piece Whole (be64 bits)) T
| vp_string T b s st : vr_pieces (t_strings T) b s st -> value_pieces T (singles [6] ++ b) (with_strings st T)
| vp_xml T m b s : m = 7 \/ m = 11 -> u29 (2 * len s + 1) b -> value_pieces T (singles [m] ++ singles b ++ piece Content s) T
| vp_date T k b bits : u29 (2 * k + 1) b -> 0 <= bits < 2 ^ 64 -> value_pieces T (singles [8] ++ singles b ++ piece Stamp (be64 bits)) T
| vp_array T b bk T1 bd n T2 : u29 (2 * Z.of_nat n + 1) b -> assoc_pieces T bk T1 -> values_pieces T1 bd n T2 ->
    value_pieces T (singles [9] ++ singles b ++ bk ++ bd) T2
| vp_object T b ty props T1 bv T2 : traits_pieces T b (ty, props) T1 -> values_pieces T1 bv (length props) T2 ->
    value_pieces T (singles [10] ++ b ++ bv) T2
| vp_bytes T b s : u29 (2 * len s + 1) b -> value_pieces T (singles [12] ++ singles b ++ piece Content s) T
with values_pieces : tables -> pieces -> nat -> tables -> Prop :=
| vsp_nil T : values_pieces T [] 0 T
| vsp_cons T b T1 bs n T2 : value_pieces T b T1 -> values_pieces T1 bs n T2 -> values_pieces T (b ++ bs) (S n) T2
with assoc_pieces : tables -> pieces -> tables -> Prop :=
| asp_nil T b st : vr_pieces (t_strings T) b [] st -> assoc_pieces T b (with_strings st T)
| asp_cons T bk k st bv T1 bs T2 : vr_pieces (t_strings T) bk k st -> k <> [] -> value_pieces (with_strings st T) bv T1 -> assoc_pieces T1 bs T2 ->
    assoc_pieces T (bk ++ bv ++ bs) T2.

(** The input p, a proper beginning of the document, stops
    - before a piece that is not a date's eight bytes, or inside content with something after it;
    - inside a double;
    - inside a string, or before or inside the eight bytes of a date;
    - inside content at the very end. *)
Definition stops_quietly (us : pieces) (p : bytes) : Prop :=
  (exists a k s b, us = a ++ (k, s) :: b /\ p = piece_bytes a /\ k <> Stamp) \/
  (exists a s x y w b, us = a ++ (Content, s) :: w :: b /\ p = piece_bytes a ++ x /\ s = x ++ y /\ x <> [] /\ y <> []).
Definition stops_in (k : kind) (us : pieces) (p : bytes) : Prop :=
  exists a s b x y, us = a ++ (k, s) :: b /\ p = piece_bytes a ++ x /\ s = x ++ y /\ x <> [] /\ y <> [].
Definition stops_at_date (us : pieces) (p : bytes) : Prop := exists a s b, us = a ++ (Stamp, s) :: b /\ p = piece_bytes a.
Definition stops_in_last (us : pieces) (p : bytes) : Prop :=
  exists a s x y, us = a ++ [(Content, s)] /\ p = piece_bytes a ++ x /\ s = x ++ y /\ x <> [] /\ y <> [].
