(** Adobe "AMF 3", as a relation between the bytes of a value, the tables of strings and traits before and after it, and the
    value: every layout the specification allows, with string and trait references and integers that are longer than needed.

    [loose = false]: the specification, restricted to values without object references, without dynamic or externalizable
    objects, and with integers below 2^28. [loose = true] adds object references of any kind (their value is left open), the
    other integers, and treats the dynamic and externalizable bits of a class as if they were not there. *)
From Coq Require Import Permutation.
From Verif Require Import Base.Go Base.Float64 Model.AmfTypes Spec.Amf Spec.AmfDoc.

(** 1.3.1: up to three bytes of seven bits with the high bit set on all but the last; a fourth byte has eight bits. *)
Inductive u29 : Z -> bytes -> Prop :=
| u29_1 a : 0 <= a < 128 -> u29 a [a]
| u29_2 a b : 0 <= a < 128 -> 0 <= b < 128 -> u29 (a * 128 + b) [128 + a; b]
| u29_3 a b c : 0 <= a < 128 -> 0 <= b < 128 -> 0 <= c < 128 -> u29 ((a * 128 + b) * 128 + c) [128 + a; 128 + b; c]
| u29_4 a b c d : 0 <= a < 128 -> 0 <= b < 128 -> 0 <= c < 128 -> 0 <= d < 256 ->
    u29 (((a * 128 + b) * 128 + c) * 256 + d) [128 + a; 128 + b; 128 + c; d].

(** 1.3.2 UTF-8-vr, with the string table before and after: low bit 0 and an index, or low bit 1, the length and the bytes;
    the empty string never enters the table. *)
Inductive utf8vr : list bytes -> bytes -> bytes -> list bytes -> Prop :=
| vr_ref st i s b : u29 (2 * Z.of_nat i) b -> nth_error st i = Some s -> utf8vr st b s st
| vr_empty st b : u29 1 b -> utf8vr st b [] st
| vr_lit st s b : s <> [] -> u29 (2 * len s + 1) b -> utf8vr st (b ++ s) s (st ++ [s]).
Inductive utf8vrs : list bytes -> bytes -> list bytes -> list bytes -> Prop :=
| vrs_nil st : utf8vrs st [] [] st
| vrs_cons st b s st1 bs ss st2 : utf8vr st b s st1 -> utf8vrs st1 bs ss st2 -> utf8vrs st (b ++ bs) (s :: ss) st2.

(** The tables: strings, and the classes (name and sealed member names). *)
Record tables := mkTables { t_strings : list bytes; t_classes : list (bytes * list bytes) }.
Definition with_strings (st : list bytes) (T : tables) : tables := mkTables st (t_classes T).

(** 3.12, U29O-traits: a class by reference, or its member count, name and member names. *)
Inductive traits3 (loose : bool) : tables -> bytes -> bytes * list bytes -> tables -> Prop :=
| tr_ref T i c b : u29 (4 * Z.of_nat i + 1) b -> nth_error (t_classes T) i = Some c -> traits3 loose T b c T
| tr_new T flags b b1 ty st1 b2 props st2 : flags = 0 \/ loose = true /\ 0 <= flags < 4 ->
    u29 (16 * len props + 4 * flags + 3) b -> utf8vr (t_strings T) b1 ty st1 -> utf8vrs st1 b2 props st2 ->
    traits3 loose T (b ++ b1 ++ b2) (ty, props) (mkTables st2 (t_classes T ++ [(ty, props)])).

(** Section 3. *)
Inductive value3 (loose : bool) : tables -> bytes -> pval -> tables -> Prop :=
| v3_undefined T : value3 loose T [0] PNil T
| v3_null T : value3 loose T [1] PNil T
| v3_false T : value3 loose T [2] (PBool false) T
| v3_true T : value3 loose T [3] (PBool true) T
| v3_integer T n b : n < 2 ^ 28 \/ loose = true -> u29 n b -> value3 loose T (4 :: b) (PU32 n) T
| v3_double T bits : 0 <= bits < 2 ^ 64 -> value3 loose T (5 :: be64 bits) (PNum bits) T
| v3_string T b s st : utf8vr (t_strings T) b s st -> value3 loose T (6 :: b) (PStr s) (with_strings st T)
| v3_xml T m b s : m = 7 \/ m = 11 -> u29 (2 * len s + 1) b -> value3 loose T (m :: b ++ s) (PStr s) T
| v3_date T k b bits : u29 (2 * k + 1) b -> 0 <= bits < 2 ^ 64 ->
    value3 loose T (8 :: b ++ be64 bits) (PTime (f64_to_i64 (f64_div_c bits 1000))) T
| v3_array T b bk assoc T1 bd dense T2 : u29 (2 * len dense + 1) b ->
    assoc3 loose T bk assoc T1 -> values3 loose T1 bd dense T2 ->
    value3 loose T (9 :: b ++ bk ++ bd) (PEcma dense (members assoc)) T2
| v3_object T b ty props T1 bv vs T2 : traits3 loose T b (ty, props) T1 -> values3 loose T1 bv vs T2 -> length vs = length props ->
    value3 loose T (10 :: b ++ bv) (PObj (members (combine props vs))) T2
| v3_bytes T b s : u29 (2 * len s + 1) b -> value3 loose T (12 :: b ++ s) (PBytes s) T
| v3_reference T m k b p : loose = true -> 7 <= m <= 12 -> u29 (2 * k) b -> value3 loose T (m :: b) p T
with values3 (loose : bool) : tables -> bytes -> list pval -> tables -> Prop :=
| vs3_nil T : values3 loose T [] [] T
| vs3_cons T b p T1 bs ps T2 : value3 loose T b p T1 -> values3 loose T1 bs ps T2 -> values3 loose T (b ++ bs) (p :: ps) T2
(** The associative part of an array: names and values, closed by the empty name. *)
with assoc3 (loose : bool) : tables -> bytes -> list (bytes * pval) -> tables -> Prop :=
| as3_nil T b st : utf8vr (t_strings T) b [] st -> assoc3 loose T b [] (with_strings st T)
| as3_cons T bk k st bv p T1 bs fs T2 : utf8vr (t_strings T) bk k st -> k <> [] ->
    value3 loose (with_strings st T) bv p T1 -> assoc3 loose T1 bs fs T2 -> assoc3 loose T (bk ++ bv ++ bs) ((k, p) :: fs) T2.

(** 3.6: an integer is 29 bits in two's complement. *)
Definition int29 (n : Z) : Z := if n <? 2 ^ 28 then n else n - 2 ^ 29.

(** The same value up to the order of an object's members. *)
Inductive same_value : pval -> pval -> Prop :=
| same_refl p : same_value p p
| same_ecma l l' fs : Forall2 same_value l l' -> same_value (PEcma l fs) (PEcma l' fs)
| same_obj fs fs1 fs' : Forall2 (fun a b => fst a = fst b /\ same_value (snd a) (snd b)) fs fs1 -> Permutation fs1 fs' ->
    same_value (PObj fs) (PObj fs').

(** No integer between 2^28 and 2^29 - 2, which Encode would write as an AMF3 integer. *)
Fixpoint ints_fit (t : tree) : Prop :=
  match t with
  | TInt false z | TUint false z => z < 2 ^ 28 \/ 2 ^ 29 - 1 <= z
  | TArr l => all_of (map ints_fit l)
  | TObj fs | TTyped _ fs => all_of (map (fun p => ints_fit (snd p)) fs)
  | _ => True
  end.
