(** What AMF3 Encode writes and returns for every Go value, those outside the specification's limits included. *)
From Verif Require Import Base.Go Base.Float64 Model.AmfTypes Spec.Amf Spec.AmfRaw.
From Coq Require Import Permutation Sorted.
Import ListNotations.
Local Open Scope Z_scope.

(** A U29 number; others are refused. *)
Definition number29 (n : Z) : bytes * bool := if n <? 2 ^ 29 then done (wire_u29 n) else ([], false).
(** Lengths are shifted by one bit in a uint32, where the flag "no reference" comes in. *)
Definition length29 (n : Z) : bytes * bool := number29 ((2 * n) mod 2 ^ 32 + 1).
Definition text29 (s : bytes) : bytes * bool := and_then (length29 (len s)) (done s).
(** The layouts of wire3 (Spec/Amf.v) as far as they are written; negative integers above -2^29 fail after their marker. *)
Inductive written3 : tree -> bytes * bool -> Prop :=
| X_other : written3 TOther ([], false)
| X_nil : written3 TNil (done [1])
| X_bool b : written3 (TBool b) (done [if b then 3 else 2])
| X_float bits : written3 (TFloat bits) (done (5 :: be64 bits))
| X_int (sg : bool) z : 0 <= z < 536870911 -> written3 (if sg then TInt false z else TUint false z) (done (4 :: wire_u29 z))
| X_negative z : -536870911 <= z < 0 -> written3 (TInt false z) ([4], false)
| X_num (sg wide : bool) z : wide = true \/ z < -536870911 \/ 536870911 <= z -> written3 (if sg then TInt wide z else TUint wide z) (done (5 :: be64 (f64_of_Z z)))
| X_str s : written3 (TStr s) (and_then (done [6]) (text29 s))
| X_time sec : written3 (TTime sec) (done (8 :: 1 :: be64 (f64_mul_c (f64_of_Z sec) 1000)))
| X_bytes s : written3 (TBytes s) (and_then (done [12]) (text29 s))
| X_arr l xs : Forall2 written3 l xs -> written3 (TArr l) (in_order ([done [9]; length29 (len l); done [1]] ++ xs))
| X_obj fs fs' xs : Permutation fs fs' -> StronglySorted key_lt (map fst fs') -> Forall2 written3 (map snd fs') xs ->
    written3 (TObj fs) (in_order ([done [10]; number29 ((16 * len fs) mod 2 ^ 32 + 3); done [1]] ++ map text29 (map fst fs') ++ xs))
| X_typed ty fs fs' xs : Permutation fs fs' -> StronglySorted key_lt (map fst fs') -> Forall2 written3 (map snd fs') xs ->
    written3 (TTyped ty fs) (in_order ([done [10]; number29 ((16 * len fs) mod 2 ^ 32 + 3); text29 ty] ++ map text29 (map fst fs') ++ xs)).

(** Go values: unsigned integers are not negative and the keys of a map are distinct. *)
Fixpoint go_value (t : tree) : Prop :=
  match t with
  | TUint _ z => 0 <= z
  | TArr l => all_of (map go_value l)
  | TObj fs | TTyped _ fs => NoDup (map fst fs) /\ all_of (map (fun p => go_value (snd p)) fs)
  | _ => True
  end.
(** Values that are encoded: no other Go types, no negative integers in the integer range, and all lengths below 2^28 (members
    below 2^25); lengths that differ by 2^31 (members by 2^28) are not told apart. *)
Definition short (n : Z) : bool := n mod 2 ^ 31 <? 2 ^ 28.
Fixpoint supported3 (t : tree) : bool :=
  match t with
  | TOther => false
  | TInt false z => negb ((-536870911 <=? z) && (z <? 0))
  | TStr s | TBytes s => short (len s)
  | TArr l => short (len l) && forallb supported3 l
  | TObj fs => (len fs mod 2 ^ 28 <? 2 ^ 25) && forallb (fun p => short (len (fst p)) && supported3 (snd p)) fs
  | TTyped ty fs => (len fs mod 2 ^ 28 <? 2 ^ 25) && short (len ty) && forallb (fun p => short (len (fst p)) && supported3 (snd p)) fs
  | _ => true
  end.
