(** Encoding again what AMF3 Decode returned. *)
From Verif Require Import Base.Go Base.IO Base.Float64 Model.AmfTypes Model.Amf3 Model.Amf0 Spec.Amf.

(** The Go value to pass to Encode for a decoded value: the same one. An EcmaArrayAMF3 is a struct, which Encode does not know. (PArr
    and PTyped are not among the values AMF3 Decode returns.) *)
Fixpoint same_go (p : pval) : tree :=
  match p with
  | PNil => TNil
  | PNum bits => TFloat bits
  | PBool b => TBool b
  | PStr s => TStr s
  | PU32 n => TUint false n
  | PTime sec => TTime sec
  | PBytes s => TBytes s
  | PEcma _ _ => TOther
  | PArr l => TArr (map same_go l)
  | PObj fs => TObj (map (fun f => (fst f, same_go (snd f))) fs)
  | PTyped ty fs => TTyped ty (map (fun f => (fst f, same_go (snd f))) fs)
  end.
(** It is an array or an array is among its members, or their members, and so on. *)
Fixpoint has_array (p : pval) : bool :=
  match p with
  | PEcma _ _ => true
  | PArr l => existsb has_array l
  | PObj fs | PTyped _ fs => existsb (fun f => has_array (snd f)) fs
  | _ => false
  end.
(** All times are within 2^53 milliseconds of 1970. *)
Fixpoint times_fit (p : pval) : Prop :=
  match p with
  | PTime sec => Z.abs sec * 1000 <= 2 ^ 53
  | PArr l => all_of (map times_fit l)
  | PObj fs | PTyped _ fs => all_of (map (fun f => times_fit (snd f)) fs)
  | _ => True
  end.
(** What comes back: the same, but for the largest 29-bit integer, which Encode writes as a float64. *)
Fixpoint comes_as (p : pval) : pval :=
  match p with
  | PU32 n => if n =? 2 ^ 29 - 1 then PNum (f64_of_Z n) else PU32 n
  | PArr l => PArr (map comes_as l)
  | PObj fs => PObj (map (fun f => (fst f, comes_as (snd f))) fs)
  | PTyped ty fs => PTyped ty (map (fun f => (fst f, comes_as (snd f))) fs)
  | _ => p
  end.
(** That integer does not occur. *)
Fixpoint no_largest (p : pval) : Prop :=
  match p with
  | PU32 n => n <> 2 ^ 29 - 1
  | PArr l => all_of (map no_largest l)
  | PObj fs | PTyped _ fs => all_of (map (fun f => no_largest (snd f)) fs)
  | _ => True
  end.

(** A decoder after any calls of the two Decode methods, on readers of any kind, whatever the calls returned. *)
Inductive history : dstate -> Prop :=
| H_new r : is_bytes (r_rest r) -> history (fresh r)
| H_decode0 d r : history d -> is_bytes (r_rest r) -> history (fst (decode0 (set_r r d)))
| H_decode3 d r : history d -> is_bytes (r_rest r) -> history (fst (decode3 (set_r r d))).
