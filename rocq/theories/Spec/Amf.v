(** Specifications for the amf package, independent of the model's helpers. *)
From Coq Require Import Permutation Sorted.
From Verif Require Import Base.Go Base.IO Base.Float64 Model.AmfTypes.

(** A decoded value with all map references followed: a finite tree. Maps are lists of
    fields considered up to order. *)
Inductive pval : Type :=
| PNil | PNum (bits : Z) | PBool (b : bool) | PStr (s : bytes) | PU32 (n : Z)
| PTime (sec : Z) | PBytes (s : bytes)
| PArr (l : list pval)
| PEcma (dense : list pval) (assoc : list (bytes * pval))
| PObj (fs : list (bytes * pval))
| PTyped (ty : bytes) (fs : list (bytes * pval)).

(** [unfolds h v p]: in heap h, following every map reference of v gives the finite tree p. *)
Inductive unfolds (h : list omap) : value -> pval -> Prop :=
| U_nil : unfolds h VNil PNil
| U_num b : unfolds h (VNum b) (PNum b)
| U_bool b : unfolds h (VBool b) (PBool b)
| U_str s : unfolds h (VStr s) (PStr s)
| U_u32 n : unfolds h (VU32 n) (PU32 n)
| U_time n : unfolds h (VTime n) (PTime n)
| U_bytes s : unfolds h (VBytes s) (PBytes s)
| U_arr l ps : Forall2 (unfolds h) l ps -> unfolds h (VArr l) (PArr ps)
| U_ecma l ps loc m fs fs' :
    Forall2 (unfolds h) l ps ->
    nth_error h loc = Some m ->
    Forall2 (fun a b => fst a = fst b /\ unfolds h (snd a) (snd b)) m fs ->
    Permutation fs fs' -> unfolds h (VEcma l (Some loc)) (PEcma ps fs')
(** A nil map has no fields. *)
| U_ecma_nil l ps : Forall2 (unfolds h) l ps -> unfolds h (VEcma l None) (PEcma ps [])
| U_obj loc m fs fs' :
    nth_error h loc = Some m ->
    Forall2 (fun a b => fst a = fst b /\ unfolds h (snd a) (snd b)) m fs ->
    Permutation fs fs' -> unfolds h (VObj loc) (PObj fs')
| U_typed ty loc m fs fs' :
    nth_error h loc = Some m ->
    Forall2 (fun a b => fst a = fst b /\ unfolds h (snd a) (snd b)) m fs ->
    Permutation fs fs' -> unfolds h (VTyped ty (Some loc)) (PTyped ty fs')
| U_typed_nil ty : unfolds h (VTyped ty None) (PTyped ty []).

(** What a Go value is after an AMF0 round trip: all numbers are float64, byte slices are
    arrays of numbers. (Times are excluded by [ok0].) *)
Fixpoint img0 (t : tree) : pval :=
  match t with
  | TNil | TOther => PNil
  | TBool b => PBool b
  | TFloat bits => PNum bits
  | TInt _ z | TUint _ z => PNum (f64_of_Z z)
  | TStr s => PStr s
  | TTime sec => PNum (f64_mul_c (f64_of_Z sec) 1000)
  | TBytes s => PArr (map (fun b => PNum (f64_of_Z b)) s)
  | TArr l => PArr (map img0 l)
  | TObj fs => PObj (map (fun p => (fst p, img0 (snd p))) fs)
  | TTyped ty fs => PTyped ty (map (fun p => (fst p, img0 (snd p))) fs)
  end.

(** Conjunction over a list (usable in structural recursion). *)
Definition all_of (ps : list Prop) : Prop := fold_right and True ps.

(** Go values AMF0 Encode can represent: strings below 4 GiB, arrays below 2^32 elements,
    keys non-empty, distinct and at most 65535 bytes, type names at most 65535 bytes, no
    time.Time and no unknown kind. *)
Fixpoint ok0 (t : tree) : Prop :=
  match t with
  | TNil | TBool _ => True
  | TFloat bits => 0 <= bits < 18446744073709551616
  | TInt _ z => -9223372036854775808 <= z < 9223372036854775808
  | TUint _ z => 0 <= z < 18446744073709551616
  | TStr s => is_bytes s /\ len s < 4294967296
  | TBytes s => is_bytes s /\ len s < 4294967296
  | TArr l => len l < 4294967296 /\ all_of (map ok0 l)
  | TObj fs =>
      NoDup (map fst fs) /\
      all_of (map (fun p => (is_bytes (fst p) /\ 0 < len (fst p) <= 65535) /\ ok0 (snd p)) fs)
  | TTyped ty fs =>
      is_bytes ty /\ len ty <= 65535 /\ NoDup (map fst fs) /\
      all_of (map (fun p => (is_bytes (fst p) /\ 0 < len (fst p) <= 65535) /\ ok0 (snd p)) fs)
  | TTime _ | TOther => False
  end.

(** Adobe "Action Message Format - AMF 0", sections 2.1-2.18: the wire format.
    U16/U32/DOUBLE are big-endian. *)
Definition wire_utf8 (s : bytes) : bytes := be16 (len s) ++ s.
Definition wire_utf8_long (s : bytes) : bytes := be32 (len s) ++ s.
Fixpoint wire0 (t : tree) : bytes :=
  match t with
  | TNil => [5]
  | TBool b => [1; if b then 1 else 0]
  | TFloat bits => 0 :: be64 bits
  | TInt _ z | TUint _ z => 0 :: be64 (f64_of_Z z)
  | TStr s => if len s <=? 65535 then 2 :: wire_utf8 s else 12 :: wire_utf8_long s
  | TTime sec => 11 :: be64 (f64_mul_c (f64_of_Z sec) 1000) ++ [0; 0]
  | TBytes s => 10 :: be32 (len s) ++ flat_map (fun b => 0 :: be64 (f64_of_Z b)) s
  | TArr l => 10 :: be32 (len l) ++ concat (map wire0 l)
  | TObj fs => 3 :: concat (map (fun p => wire_utf8 (fst p) ++ wire0 (snd p)) fs) ++ [0; 0; 9]
  | TTyped ty fs =>
      16 :: wire_utf8 ty ++ concat (map (fun p => wire_utf8 (fst p) ++ wire0 (snd p)) fs) ++ [0; 0; 9]
  | TOther => []
  end.

(** "the last byte string read when decoding t is the empty string": on such a value a decoder that
    performs a zero-length read touches the end of the input. *)
Fixpoint ends_empty (t : tree) : bool :=
  match t with
  | TStr [] => true
  | TArr l => match rev (map ends_empty l) with e :: _ => e | [] => false end
  | _ => false
  end.

(** A reader over s that satisfies every read in full while bytes remain, and then ends with the
    error of e: bytes.Reader (eof true), bytes.Buffer (eof false), or a source that breaks. *)
Definition cont (s : bytes) (e : rend) : reader := mkR (match s with [] => [] | _ => [s] end) e false.

(** The same source, but the Read call that delivers its last bytes returns the final error too. *)
Definition with_error (r : reader) : reader := mkR (r_chunks r) (r_end r) true.

(** "the last bytes of the AMF0 encoding of t belong to a number or to a length": a decoder collects
    these with io.ReadFull, every other part with a single Read call. *)
Fixpoint ends_number (t : tree) : bool :=
  match t with
  | TFloat _ | TInt _ _ | TUint _ _ | TBytes _ => true
  | TStr [] => true
  | TArr l => last (map ends_number l) true
  | _ => false
  end.

(** What a batch owes its caller when the source ends between two values: no error if that is the
    end of the input, the error of the source otherwise. *)
Definition batch_end (e : rend) : res unit := match e_err e with EEof => Ok tt | x => Err x end.

(** Every key and type name of the value is at most 65535 bytes long. *)
Fixpoint keys_fit (t : tree) : Prop :=
  match t with
  | TArr l => all_of (map keys_fit l)
  | TObj fs => all_of (map (fun p => len (fst p) <= 65535 /\ keys_fit (snd p)) fs)
  | TTyped ty fs =>
      len ty <= 65535 /\ all_of (map (fun p => len (fst p) <= 65535 /\ keys_fit (snd p)) fs)
  | _ => True
  end.

(** [later dec d d']: a decoder in state d is in state d' after some further calls of dec, on
    readers of any kind, whatever these calls returned. *)
Inductive later (dec : Dm value) : dstate -> dstate -> Prop :=
| later_refl d : later dec d d
| later_call d r d'' : later dec (fst (dec (set_r r d))) d'' -> later dec d d''.

(** What a writer computation reports. [reports m]: every run of m ends with a value or an error, and
    ends with an error if one of the Write calls it made failed. *)
Definition reports {A} (m : Wm A) : Prop := forall w,
  let (w', r) := m w in
  (exists s, w_out w' = w_out w ++ s) /\
  ((exists a, r = Ok a) \/ (exists e, r = Err e)) /\
  ((exists k, (w_calls w <= k < w_calls w')%nat /\ w_script w k <> None) -> exists e, r = Err e).

(** * AMF3 *)

(** Adobe "AMF 3", section 1.3.1: the variable-length unsigned 29-bit integer. *)
Definition wire_u29 (v : Z) : bytes :=
  if v <? 128 then [v]
  else if v <? 16384 then [128 + v / 128; v mod 128]
  else if v <? 2097152 then [128 + v / 16384; 128 + (v / 128) mod 128; v mod 128]
  else [128 + v / 4194304; 128 + (v / 32768) mod 128; 128 + (v / 256) mod 128; v mod 256].

(** What a Go value is after an AMF3 round trip. Integers that AMF3 stores as U29 come back as
    uint32, other numbers as float64; arrays are EcmaArrays with an empty associative part; the type
    name of a typed object is not kept in the decoded value. *)
Fixpoint img3 (t : tree) : pval :=
  match t with
  | TNil | TOther => PNil
  | TBool b => PBool b
  | TFloat bits => PNum bits
  | TInt wide z | TUint wide z =>
      if negb wide && (0 <=? z) && (z <? 536870911) then PU32 z else PNum (f64_of_Z z)
  | TStr s => PStr s
  | TTime sec => PTime sec
  | TBytes s => PBytes s
  | TArr l => PEcma (map img3 l) []
  | TObj fs => PObj (map (fun p => (fst p, img3 (snd p))) fs)
  | TTyped ty fs => PObj (map (fun p => (fst p, img3 (snd p))) fs)
  end.

(** Go values AMF3 Encode can represent: no negative integer in the U29 range, times within 2^53 ms,
    strings, byte slices and arrays shorter than 2^28, objects with less than 2^25 distinct keys (the
    empty key included). *)
Fixpoint ok3 (t : tree) : Prop :=
  match t with
  | TNil | TBool _ => True
  | TFloat bits => 0 <= bits < 18446744073709551616
  | TInt wide z => -9223372036854775808 <= z < 9223372036854775808 /\
                   (wide = true \/ 0 <= z \/ z < -536870911)
  | TUint _ z => 0 <= z < 18446744073709551616
  | TTime sec => Z.abs sec * 1000 <= 9007199254740992
  | TStr s => is_bytes s /\ len s < 268435456
  | TBytes s => is_bytes s /\ len s < 268435456
  | TArr l => len l < 268435456 /\ all_of (map ok3 l)
  | TObj fs =>
      len fs < 33554432 /\ NoDup (map fst fs) /\
      all_of (map (fun p => (is_bytes (fst p) /\ len (fst p) < 268435456) /\ ok3 (snd p)) fs)
  | TTyped ty fs =>
      (is_bytes ty /\ len ty < 268435456) /\ len fs < 33554432 /\ NoDup (map fst fs) /\
      all_of (map (fun p => (is_bytes (fst p) /\ len (fst p) < 268435456) /\ ok3 (snd p)) fs)
  | TOther => False
  end.

(** Bytewise lexicographic order on keys. *)
Inductive key_lt : bytes -> bytes -> Prop :=
| kl_nil x b : key_lt [] (x :: b)
| kl_lt x a y b : x < y -> key_lt (x :: a) (y :: b)
| kl_eq x a b : key_lt a b -> key_lt (x :: a) (x :: b).

(** Adobe "AMF 3", section 3: the wire format, without references and without dynamic members;
    the sealed members are written in increasing key order. *)
Definition wire_str3 (s : bytes) : bytes := wire_u29 (2 * len s + 1) ++ s.
Inductive wire3 : tree -> bytes -> Prop :=
| W_nil : wire3 TNil [1]
| W_bool b : wire3 (TBool b) [if b then 3 else 2]
| W_float bits : wire3 (TFloat bits) (5 :: be64 bits)
| W_int (sg wide : bool) z : wide = false -> 0 <= z < 536870911 ->
    wire3 (if sg then TInt wide z else TUint wide z) (4 :: wire_u29 z)
| W_num (sg wide : bool) z : wide = true \/ z < 0 \/ 536870911 <= z ->
    wire3 (if sg then TInt wide z else TUint wide z) (5 :: be64 (f64_of_Z z))
| W_str s : wire3 (TStr s) (6 :: wire_str3 s)
| W_time sec : wire3 (TTime sec) (8 :: 1 :: be64 (f64_mul_c (f64_of_Z sec) 1000))
| W_bytes s : wire3 (TBytes s) (12 :: wire_str3 s)
| W_arr l ss : Forall2 wire3 l ss ->
    wire3 (TArr l) (9 :: wire_u29 (2 * len l + 1) ++ [1] ++ concat ss)
| W_obj fs fs' ss : Permutation fs fs' -> Sorted.StronglySorted key_lt (map fst fs') ->
    Forall2 wire3 (map snd fs') ss ->
    wire3 (TObj fs) (10 :: wire_u29 (16 * len fs + 3) ++ [1] ++
                     concat (map wire_str3 (map fst fs')) ++ concat ss)
| W_typed ty fs fs' ss : Permutation fs fs' -> Sorted.StronglySorted key_lt (map fst fs') ->
    Forall2 wire3 (map snd fs') ss ->
    wire3 (TTyped ty fs) (10 :: wire_u29 (16 * len fs + 3) ++ wire_str3 ty ++
                     concat (map wire_str3 (map fst fs')) ++ concat ss).

(** The non-empty literal strings of the wire format of a value, in wire order: these are the
    strings that AMF3 string references count. *)
Definition literal (s : bytes) : list bytes := match s with [] => [] | _ => [s] end.
Inductive strings3 : tree -> list bytes -> Prop :=
| S_leaf t : match t with TStr _ | TArr _ | TObj _ | TTyped _ _ => False | _ => True end -> strings3 t []
| S_str s : strings3 (TStr s) (literal s)
| S_arr l ss : Forall2 strings3 l ss -> strings3 (TArr l) (concat ss)
| S_obj fs fs' ss : Permutation fs fs' -> Sorted.StronglySorted key_lt (map fst fs') ->
    Forall2 strings3 (map snd fs') ss ->
    strings3 (TObj fs) (concat (map literal (map fst fs')) ++ concat ss)
| S_typed ty fs fs' ss : Permutation fs fs' -> Sorted.StronglySorted key_lt (map fst fs') ->
    Forall2 strings3 (map snd fs') ss ->
    strings3 (TTyped ty fs) (literal ty ++ concat (map literal (map fst fs')) ++ concat ss).

(** [same_value t t']: t' is t with the fields of its maps visited in another order. *)
Inductive same_value : tree -> tree -> Prop :=
| Sv_refl t : same_value t t
| Sv_arr l l' : Forall2 same_value l l' -> same_value (TArr l) (TArr l')
| Sv_obj fs gs fs' : Forall2 (fun a b => fst a = fst b /\ same_value (snd a) (snd b)) fs gs ->
    Permutation gs fs' -> same_value (TObj fs) (TObj fs')
| Sv_typed ty fs gs fs' : Forall2 (fun a b => fst a = fst b /\ same_value (snd a) (snd b)) fs gs ->
    Permutation gs fs' -> same_value (TTyped ty fs) (TTyped ty fs').
