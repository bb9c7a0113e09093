(** What AMF0 Encode writes and returns for every Go value, those outside the specification's limits included. *)
From Verif Require Import Base.Go Base.Float64 Model.AmfTypes Spec.Amf.
Import ListNotations.
Local Open Scope Z_scope.

(** Bytes written, and whether everything was written. Nothing is written after a failure. *)
Definition and_then (a b : bytes * bool) : bytes * bool := if snd a then (fst a ++ fst b, snd b) else a.
Definition in_order (l : list (bytes * bool)) : bytes * bool := fold_right and_then ([], true) l.
Definition done (s : bytes) : bytes * bool := (s, true).
(** The layouts of wire0 (Spec/Amf.v), but for dates, which have a number marker inside (C56). Lengths of keys and type names
    are cut to 16 bits, of strings and arrays to 32 bits; the bytes are not. Values of other Go types fail. *)
Fixpoint written0 (t : tree) : bytes * bool :=
  match t with
  | TOther => ([], false)
  | TTime sec => done (11 :: 0 :: be64 (f64_mul_c (f64_of_Z sec) 1000) ++ [0; 0])
  | TArr l => and_then (done (10 :: be32 (len l))) (in_order (map written0 l))
  | TObj fs => and_then (done [3]) (and_then (in_order (map (fun p => and_then (done (wire_utf8 (fst p))) (written0 (snd p))) fs)) (done [0; 0; 9]))
  | TTyped ty fs => and_then (done (16 :: wire_utf8 ty)) (and_then (in_order (map (fun p => and_then (done (wire_utf8 (fst p))) (written0 (snd p))) fs)) (done [0; 0; 9]))
  | _ => done (wire0 t)
  end.
(** The count returned: the bytes written, less 65536 for every 65536 bytes of a key or type name. *)
Definition name_count (k : bytes) : Z := 2 + len k mod 65536.
Fixpoint counted0 (t : tree) : Z :=
  match t with
  | TArr l => 5 + fold_right Z.add 0 (map counted0 l)
  | TObj fs => 4 + fold_right Z.add 0 (map (fun p => name_count (fst p) + counted0 (snd p)) fs)
  | TTyped ty fs => 4 + name_count ty + fold_right Z.add 0 (map (fun p => name_count (fst p) + counted0 (snd p)) fs)
  | TTime _ => 12
  | _ => len (wire0 t)
  end.
(** No value of another Go type inside. *)
Fixpoint supported (t : tree) : bool :=
  match t with
  | TOther => false
  | TArr l => forallb supported l
  | TObj fs | TTyped _ fs => forallb (fun p => supported (snd p)) fs
  | _ => true
  end.
(** How often a name exceeds 16 bits. *)
Fixpoint cut_off (t : tree) : Z :=
  let sum := fold_right Z.add 0 in
  match t with
  | TArr l => sum (map cut_off l)
  | TObj fs => sum (map (fun p => len (fst p) / 65536 + cut_off (snd p)) fs)
  | TTyped ty fs => len ty / 65536 + sum (map (fun p => len (fst p) / 65536 + cut_off (snd p)) fs)
  | _ => 0
  end.
