(** Encoding again what AMF0 Decode returned. *)
From Verif Require Import Base.Go Model.AmfTypes Spec.Amf Spec.AmfDoc.

(** The Go value to pass to Encode for a decoded value: the same one. Only for the kinds of values AMF0 has; uint32, time.Time,
    []byte and Array come from AMF3 only. *)
Fixpoint go_value (p : pval) : tree :=
  match p with
  | PNil => TNil
  | PNum bits => TFloat bits
  | PBool b => TBool b
  | PStr s => TStr s
  | PArr l => TArr (map go_value l)
  | PObj fs => TObj (map (fun f => (fst f, go_value (snd f))) fs)
  | PTyped ty fs => TTyped ty (map (fun f => (fst f, go_value (snd f))) fs)
  | PU32 _ | PTime _ | PBytes _ | PEcma _ _ => TOther
  end.
(** No AMF3 value in t. *)
Fixpoint no_amf3 (t : doc0) : Prop :=
  match t with
  | A_object fs | A_ecma _ fs | A_typed _ fs => all_of (map (fun p => no_amf3 (snd p)) fs)
  | A_strict l => all_of (map no_amf3 l)
  | A_avmplus _ => False
  | _ => True
  end.
