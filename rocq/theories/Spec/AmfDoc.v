(** Adobe "Action Message Format - AMF 0", section 2, as a grammar: every layout of a value that the specification allows a
    writer to produce, not only those the library's own Encode produces. *)
From Verif Require Import Base.Go Base.Float64 Model.AmfTypes Spec.Amf.

Inductive doc0 : Type :=
| A_number (bits : Z)                           (* 2.2 *)
| A_boolean (b : Z)                             (* 2.3: zero is false, any other byte is true *)
| A_string (s : bytes)                          (* 2.4 *)
| A_object (fs : list (bytes * doc0))           (* 2.5 *)
| A_null                                        (* 2.7 *)
| A_undefined                                   (* 2.8 *)
| A_reference (i : Z)                           (* 2.9 *)
| A_ecma (count : Z) (fs : list (bytes * doc0)) (* 2.10: the count is only a hint *)
| A_strict (l : list doc0)                      (* 2.12 *)
| A_date (bits zone : Z)                        (* 2.13: the time zone should be ignored *)
| A_long (s : bytes)                            (* 2.14: also for strings that would fit in 2.4 *)
| A_unsupported                                 (* 2.15 *)
| A_xml (s : bytes)                             (* 2.17 *)
| A_typed (ty : bytes) (fs : list (bytes * doc0))  (* 2.18 *)
| A_avmplus (s : bytes).                        (* 3.1: an AMF3 value, not looked into here *)

Fixpoint layout0 (t : doc0) : bytes :=
  match t with
  | A_number bits => 0 :: be64 bits
  | A_boolean b => [1; b]
  | A_string s => 2 :: wire_utf8 s
  | A_object fs => 3 :: concat (map (fun p => wire_utf8 (fst p) ++ layout0 (snd p)) fs) ++ [0; 0; 9]
  | A_null => [5]
  | A_undefined => [6]
  | A_reference i => 7 :: be16 i
  | A_ecma n fs => 8 :: be32 n ++ concat (map (fun p => wire_utf8 (fst p) ++ layout0 (snd p)) fs) ++ [0; 0; 9]
  | A_strict l => 10 :: be32 (len l) ++ concat (map layout0 l)
  | A_date bits zone => 11 :: be64 bits ++ be16 zone
  | A_long s => 12 :: wire_utf8_long s
  | A_unsupported => [13]
  | A_xml s => 15 :: wire_utf8_long s
  | A_typed ty fs => 16 :: wire_utf8 ty ++ concat (map (fun p => wire_utf8 (fst p) ++ layout0 (snd p)) fs) ++ [0; 0; 9]
  | A_avmplus s => 17 :: s
  end.

(** Setting a member: a later value for the same name replaces the earlier one. *)
Fixpoint put (k : bytes) (v : pval) (fs : list (bytes * pval)) : list (bytes * pval) :=
  match fs with
  | [] => [(k, v)]
  | (k', v') :: fs' => if bytes_eqb k k' then (k', v) :: fs' else (k', v') :: put k v fs'
  end.
Definition members (fs : list (bytes * pval)) : list (bytes * pval) := fold_left (fun acc p => put (fst p) (snd p) acc) fs [].

(** The value: an ECMA array is a map, a date its number of milliseconds, XML its text. Only for values without
    references and AMF3 values. *)
Fixpoint meaning0 (t : doc0) : pval :=
  match t with
  | A_number bits => PNum bits
  | A_boolean b => PBool (negb (b =? 0))
  | A_string s | A_long s | A_xml s => PStr s
  | A_object fs | A_ecma _ fs => PObj (members (map (fun p => (fst p, meaning0 (snd p))) fs))
  | A_null | A_undefined | A_unsupported | A_reference _ | A_avmplus _ => PNil
  | A_strict l => PArr (map meaning0 l)
  | A_date bits _ => PNum bits
  | A_typed ty fs => PTyped ty (members (map (fun p => (fst p, meaning0 (snd p))) fs))
  end.

(** Lengths and numbers fit their fields, member names are not empty. [any]: also with references, AMF3 values and
    booleans other than 0 and 1. *)
Fixpoint doc_ok (any : bool) (t : doc0) : Prop :=
  let fields fs := all_of (map (fun p => 0 < len (fst p) <= 65535 /\ doc_ok any (snd p)) fs) in
  match t with
  | A_number bits => 0 <= bits < 2 ^ 64
  | A_boolean b => if any then 0 <= b < 256 else b = 0 \/ b = 1
  | A_string s => len s <= 65535
  | A_object fs => fields fs
  | A_null | A_undefined | A_unsupported => True
  | A_reference i => any = true /\ 0 <= i < 2 ^ 16
  | A_ecma n fs => 0 <= n < 2 ^ 32 /\ fields fs
  | A_strict l => len l < 2 ^ 32 /\ all_of (map (doc_ok any) l)
  | A_date bits zone => 0 <= bits < 2 ^ 64 /\ 0 <= zone < 2 ^ 16
  | A_long s | A_xml s => len s < 2 ^ 32
  | A_typed ty fs => len ty <= 65535 /\ fields fs
  | A_avmplus _ => any = true
  end.

(** Neither references nor AMF3 values in t. *)
Fixpoint plain (t : doc0) : Prop :=
  match t with
  | A_object fs | A_ecma _ fs | A_typed _ fs => all_of (map (fun p => plain (snd p)) fs)
  | A_strict l => all_of (map plain l)
  | A_reference _ | A_avmplus _ => False
  | _ => True
  end.
(** What the library makes of it: as [meaning0], but a boolean is true for the byte 1 only. *)
Fixpoint read0 (t : doc0) : pval :=
  match t with
  | A_boolean b => PBool (b =? 1)
  | A_object fs | A_ecma _ fs => PObj (members (map (fun p => (fst p, read0 (snd p))) fs))
  | A_strict l => PArr (map read0 l)
  | A_typed ty fs => PTyped ty (members (map (fun p => (fst p, read0 (snd p))) fs))
  | t => meaning0 t
  end.

(** The layout ends with the bytes of an empty string. *)
Fixpoint doc_ends_empty (t : doc0) : bool :=
  match t with
  | A_string s | A_long s | A_xml s => match s with [] => true | _ => false end
  | A_strict l => match rev (map doc_ends_empty l) with e :: _ => e | [] => false end
  | _ => false
  end.

(** The layout the specification prescribes for a Go value. *)
Fixpoint doc_of (t : tree) : doc0 :=
  match t with
  | TNil | TOther => A_null
  | TBool b => A_boolean (if b then 1 else 0)
  | TFloat bits => A_number bits
  | TInt _ z | TUint _ z => A_number (f64_of_Z z)
  | TStr s => if len s <=? 65535 then A_string s else A_long s
  | TTime sec => A_date (f64_mul_c (f64_of_Z sec) 1000) 0
  | TBytes s => A_strict (map (fun b => A_number (f64_of_Z b)) s)
  | TArr l => A_strict (map doc_of l)
  | TObj fs => A_object (map (fun p => (fst p, doc_of (snd p))) fs)
  | TTyped ty fs => A_typed ty (map (fun p => (fst p, doc_of (snd p))) fs)
  end.

(** References (2.9): a value can be referred to once it has begun. The library gives an object, an ECMA array and a
    strict array one place in its table each, and a typed object two. *)
Fixpoint slots (t : doc0) : Z :=
  match t with
  | A_object fs | A_ecma _ fs => 1 + fold_right Z.add 0 (map (fun p => slots (snd p)) fs)
  | A_strict l => 1 + fold_right Z.add 0 (map slots l)
  | A_typed _ fs => 2 + fold_right Z.add 0 (map (fun p => slots (snd p)) fs)
  | _ => 0
  end.
(** Every reference in t denotes a place already taken, when n are taken before t. *)
Fixpoint refs_in (n : Z) (t : doc0) : Prop :=
  let fields := fix fields n fs := match fs with [] => True | (_, x) :: fs' => refs_in n x /\ fields (n + slots x) fs' end in
  match t with
  | A_reference i => i < n
  | A_object fs | A_ecma _ fs => fields (n + 1) fs
  | A_typed _ fs => fields (n + 2) fs
  | A_strict l => (fix elems n l := match l with [] => True | x :: l' => refs_in n x /\ elems (n + slots x) l' end) (n + 1) l
  | _ => True
  end.
(** No AMF3 value in t. *)
Fixpoint no_avm (t : doc0) : Prop :=
  match t with
  | A_object fs | A_ecma _ fs | A_typed _ fs => all_of (map (fun p => no_avm (snd p)) fs)
  | A_strict l => all_of (map no_avm l)
  | A_avmplus _ => False
  | _ => True
  end.

(** A document cut where a value is about to begin: the enclosing values, each with its members before the cut. *)
Inductive open0 : Type :=
| O_here
| O_object (fs : list (bytes * doc0)) (k : bytes) (o : open0)
| O_ecma (count : Z) (fs : list (bytes * doc0)) (k : bytes) (o : open0)
| O_strict (count : Z) (l : list doc0) (o : open0)
| O_typed (ty : bytes) (fs : list (bytes * doc0)) (k : bytes) (o : open0).
Fixpoint open_layout (o : open0) : bytes :=
  let fields fs := concat (map (fun p => wire_utf8 (fst p) ++ layout0 (snd p)) fs) in
  match o with
  | O_here => []
  | O_object fs k o => 3 :: fields fs ++ wire_utf8 k ++ open_layout o
  | O_ecma n fs k o => 8 :: be32 n ++ fields fs ++ wire_utf8 k ++ open_layout o
  | O_strict n l o => 10 :: be32 n ++ concat (map layout0 l) ++ open_layout o
  | O_typed ty fs k o => 16 :: wire_utf8 ty ++ fields fs ++ wire_utf8 k ++ open_layout o
  end.
Fixpoint open_ok (o : open0) : Prop :=
  let fields fs := Forall (fun p => 0 < len (fst p) <= 65535 /\ doc_ok true (snd p)) fs in
  match o with
  | O_here => True
  | O_object fs k o => fields fs /\ 0 < len k <= 65535 /\ open_ok o
  | O_ecma n fs k o => 0 <= n < 2 ^ 32 /\ fields fs /\ 0 < len k <= 65535 /\ open_ok o
  | O_strict n l o => len l < n < 2 ^ 32 /\ Forall (doc_ok true) l /\ open_ok o
  | O_typed ty fs k o => len ty <= 65535 /\ fields fs /\ 0 < len k <= 65535 /\ open_ok o
  end.
(** The places taken up to the cut, and the references and AMF3 values before it. *)
Fixpoint open_slots (o : open0) : Z :=
  match o with
  | O_here => 0
  | O_object fs _ o | O_ecma _ fs _ o => 1 + fold_right Z.add 0 (map (fun p => slots (snd p)) fs) + open_slots o
  | O_strict _ l o => 1 + fold_right Z.add 0 (map slots l) + open_slots o
  | O_typed _ fs _ o => 2 + fold_right Z.add 0 (map (fun p => slots (snd p)) fs) + open_slots o
  end.
Fixpoint open_refs (n : Z) (o : open0) : Prop :=
  match o with
  | O_here => True
  | O_object fs _ o' | O_ecma _ fs _ o' => refs_in n (A_object fs) /\ open_refs (n + slots (A_object fs)) o'
  | O_strict _ l o' => refs_in n (A_strict l) /\ open_refs (n + slots (A_strict l)) o'
  | O_typed _ fs _ o' => refs_in n (A_typed [] fs) /\ open_refs (n + slots (A_typed [] fs)) o'
  end.
Fixpoint open_no_avm (o : open0) : Prop :=
  match o with
  | O_here => True
  | O_object fs _ o | O_ecma _ fs _ o | O_typed _ fs _ o => Forall (fun p => no_avm (snd p)) fs /\ open_no_avm o
  | O_strict _ l o => Forall no_avm l /\ open_no_avm o
  end.

(** What references mean. [env]: for each place of the table, the value that took it, once it is complete. None as a
    result: some reference denotes no value or one that contains the reference.
    With [lib]: as the library has it. A strict array is entered as an empty array and a typed object as an empty typed
    object without a name, for good; a typed object's members then take a place of their own. *)
Definition complete (n : nat) (p : pval) (env : list (option pval)) : list (option pval) := firstn n env ++ Some p :: skipn (S n) env.
Fixpoint deref (lib : bool) (env : list (option pval)) (t : doc0) : option (pval * list (option pval)) :=
  let fields := fix fields env (fs : list (bytes * doc0)) :=
    match fs with
    | [] => Some ([], env)
    | (k, x) :: fs' =>
        match deref lib env x with
        | Some (p, env1) => match fields env1 fs' with Some (ps, env2) => Some ((k, p) :: ps, env2) | None => None end
        | None => None
        end
    end in
  let elems := fix elems env (l : list doc0) :=
    match l with
    | [] => Some ([], env)
    | x :: l' =>
        match deref lib env x with
        | Some (p, env1) => match elems env1 l' with Some (ps, env2) => Some (p :: ps, env2) | None => None end
        | None => None
        end
    end in
  let obj env fs (fin : list (bytes * pval) -> pval) :=
    match fields (env ++ [None]) fs with
    | Some (ps, env') => Some (members ps, complete (length env) (fin (members ps)) env')
    | None => None
    end in
  match t with
  | A_reference i => match nth_error env (Z.to_nat i) with Some (Some p) => Some (p, env) | _ => None end
  | A_object fs | A_ecma _ fs => match obj env fs PObj with Some (ms, env') => Some (PObj ms, env') | None => None end
  | A_strict l =>
      match elems (env ++ [if lib then Some (PArr []) else None]) l with
      | Some (ps, env') => Some (PArr ps, if lib then env' else complete (length env) (PArr ps) env')
      | None => None
      end
  | A_typed ty fs =>
      match (if lib then obj (env ++ [Some (PTyped [] [])]) fs PObj else obj env fs (PTyped ty)) with
      | Some (ms, env') => Some (PTyped ty ms, env')
      | None => None
      end
  | A_boolean b => Some (PBool (if lib then b =? 1 else negb (b =? 0)), env)
  | t => Some (meaning0 t, env)
  end.
(** No strict arrays, no typed objects, no booleans other than 0 and 1: there the library agrees with the specification. *)
Fixpoint only_maps (t : doc0) : Prop :=
  match t with
  | A_object fs | A_ecma _ fs => all_of (map (fun p => only_maps (snd p)) fs)
  | A_strict _ | A_typed _ _ => False
  | A_boolean b => b = 0 \/ b = 1
  | _ => True
  end.
