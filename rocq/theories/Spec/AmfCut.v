(** Where an AMF0 document may be cut between two Read calls. *)
From Verif Require Import Base.Go Model.AmfTypes Spec.Amf Spec.AmfDoc.

(** A document as the pieces its reader asks for. [true]: the piece is taken by one Read call, so it must not be cut; these
    are the strings (names and texts) and the time zone of a date. *)
Definition units := list (bool * bytes).
Definition unit_bytes (us : units) : bytes := concat (map snd us).
Definition utf8_units (s : bytes) : units := [(false, be16 (len s)); (true, s)].
Definition long_units (s : bytes) : units := [(false, be32 (len s)); (true, s)].
Fixpoint units0 (t : doc0) : units :=
  let fields fs := concat (map (fun p => utf8_units (fst p) ++ units0 (snd p)) fs) ++ utf8_units [] ++ [(false, [9])] in
  match t with
  | A_number bits => [(false, [0]); (false, be64 bits)]
  | A_boolean b => [(false, [1]); (false, [b])]
  | A_string s => (false, [2]) :: utf8_units s
  | A_object fs => (false, [3]) :: fields fs
  | A_null => [(false, [5])]
  | A_undefined => [(false, [6])]
  | A_reference i => [(false, [7]); (false, be16 i)]
  | A_ecma n fs => (false, [8]) :: (false, be32 n) :: fields fs
  | A_strict l => (false, [10]) :: (false, be32 (len l)) :: concat (map units0 l)
  | A_date bits zone => [(false, [11]); (false, be64 bits); (true, be16 zone)]
  | A_long s => (false, [12]) :: long_units s
  | A_unsupported => [(false, [13])]
  | A_xml s => (false, [15]) :: long_units s
  | A_typed ty fs => (false, [16]) :: utf8_units ty ++ fields fs
  | A_avmplus s => [(false, 17 :: s)]
  end.

(** The chunks [cs] that successive Read calls return cut one of the pieces that must not be cut. *)
Definition cut_in (cs : list bytes) (us : units) : Prop :=
  exists pre post a s b, cs = pre ++ post /\ us = a ++ (true, s) :: b /\
    len (unit_bytes a) < len (concat pre) < len (unit_bytes a) + len s.
