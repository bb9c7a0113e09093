(** The AMF decoders of Model/Amf3.v and Model/Amf0.v once more, with a count of how many calls of Decode are active at the same time:
    Decode calls itself for the members of arrays and objects (amf3.go:245-263, 376-406, amf0.go:151-175, 219-230), and the AMF0 Decode
    calls the AMF3 one at the marker 17 (amf0.go:104-105). That the decoders are the same is proved (Proofs/AmfCalls.v). *)
From Verif Require Import Base.Go Base.IO Base.Float64 Model.AmfTypes Model.Amf3 Model.Amf0.

Definition Cm (A : Type) := dstate -> Z * (dstate * res A).
(** Code that does not call Decode. *)
Definition leaf {A} (m : Dm A) : Cm A := fun d => (0, m d).
(** One thing after the other: the larger of the two counts. *)
Definition cbind {A B} (m : Cm A) (k : A -> Cm B) : Cm B := fun d =>
  match m d with
  | (n, (d', Ok a)) => let '(n', x) := k a d' in (Z.max n n', x)
  | (n, (d', Err e)) => (n, (d', Err e))
  | (n, (d', Panic)) => (n, (d', Panic))
  | (n, (d', OutOfFuel)) => (n, (d', OutOfFuel))
  end.
Notation "'c*' x ':=' m 'in' k" := (cbind m (fun x => k))
  (at level 200, x pattern, m at level 100, k at level 200, right associativity).
(** The body of a call of Decode. *)
Definition call {A} (m : Cm A) : Cm A := fun d => let '(n, x) := m d in (n + 1, x).

Fixpoint c_loop_n {A} (body : Cm A) (fuel : nat) (n : Z) : Cm (list A) :=
  if n <=? 0 then leaf (dret []) else
  match fuel with
  | O => leaf (fun d => (d, OutOfFuel))
  | S f => c* x := body in c* xs := c_loop_n body f (n - 1) in leaf (dret (x :: xs))
  end.

(** * AMF3 *)
Section External.
  Variable dec : Cm value.        (* the recursive call to Decode *)
  Variable dec' : Dm value.       (* the same without count, for code that is never reached *)

  (** amf3.go:245-257. *)
  Fixpoint c_assoc_loop (fuel : nat) (loc : nat) (key : bytes) : Cm unit :=
    match key with
    | [] => leaf (dret tt)
    | _ =>
        match fuel with
        | O => leaf (fun d => (d, OutOfFuel))
        | S f =>
            c* v := dec in
            c* _ := leaf (obj_set loc key v) in
            c* key' := leaf decode_string3 in
            c_assoc_loop f loc key'
        end
    end.
  (** amf3.go:208-268 decodeArray. *)
  Definition c_decode_array3 (fuel : nat) : Cm value :=
    c* (is_ref, v) := leaf decode_u29 in
    if is_ref then
      leaf (d* x := obj3_ref v in
            match x with VEcma _ _ => dret x | _ => dfail EOther end)
    else
      c* key := leaf decode_string3 in
      c* _ := leaf (obj3_push (VEcma [] None)) in
      c* loc := leaf alloc in
      c* _ := c_assoc_loop fuel loc key in
      c* dense := c_loop_n dec fuel v in
      leaf (dret (VEcma dense (Some loc))).
  (** amf3.go:376-383. *)
  Fixpoint c_props_loop (loc : nat) (keys : list bytes) : Cm unit :=
    match keys with
    | [] => leaf (dret tt)
    | k :: ks =>
        c* v := dec in
        c* _ := leaf (obj_set loc k v) in
        c_props_loop loc ks
    end.
  (** amf3.go:387-406. *)
  Fixpoint c_dyn_loop (fuel : nat) (loc : nat) : Cm unit :=
    match fuel with
    | O => leaf (fun d => (d, OutOfFuel))
    | S f =>
        c* k := leaf decode_string3 in
        match k with
        | [] => leaf (dret tt)
        | _ =>
            c* v := dec in
            c* _ := leaf (obj_set loc k v) in
            c_dyn_loop f loc
        end
    end.
  (** amf3.go:270-410 decodeObject. *)
  Definition c_decode_object3 (fuel : nat) : Cm value :=
    c* (is_ref, v) := leaf decode_u29 in
    if is_ref then leaf (obj3_ref v)
    else
      c* t := leaf (decode_trait fuel v) in
      c* _ := leaf (obj3_push VNil) in
      if t_ext t then leaf (decode_externalizable dec' fuel t)
      else
        c* loc := leaf alloc in
        c* _ := c_props_loop loc (t_props t) in
        c* _ := (if t_dyn t then c_dyn_loop fuel loc else leaf (dret tt)) in
        leaf (dret (VObj loc)).
End External.

(** amf3.go:73-117 Decode. *)
Fixpoint c_dec3 (fuel : nat) : Cm value :=
  match fuel with
  | O => leaf (fun d => (d, OutOfFuel))
  | S f =>
      call (c* m := leaf read_byte in
      if (m =? 0) || (m =? 1) then leaf (dret VNil)
      else if m =? 2 then leaf (dret (VBool false))
      else if m =? 3 then leaf (dret (VBool true))
      else if m =? 4 then leaf (d* u := read_u29 in dret (VU32 u))
      else if m =? 5 then leaf (d* b := read_be 8 in dret (VNum b))
      else if m =? 6 then leaf (d* s := decode_string3 in dret (VStr s))
      else if m =? 7 then leaf decode_xmldoc3
      else if m =? 8 then leaf decode_date3
      else if m =? 9 then c_decode_array3 (c_dec3 f) f
      else if m =? 10 then c_decode_object3 (c_dec3 f) (dec3 f) f
      else if m =? 11 then leaf decode_xmldoc3
      else if m =? 12 then leaf decode_bytearray3
      else leaf (dfail EOther))
  end.

(** * AMF0 *)
Section Objects.
  Variable dec : Cm value.
  (** amf0.go:151-175. *)
  Fixpoint c_obj_loop (fuel : nat) (loc : nat) : Cm unit :=
    match fuel with
    | O => leaf (fun d => (d, OutOfFuel))
    | S f =>
        c* key := leaf decode_string0 in
        match key with
        | [] => leaf (next_byte_must_be 9)
        | _ =>
            c* v := dec in
            c* _ := leaf (obj_set loc key v) in
            c_obj_loop f loc
        end
    end.
  (** amf0.go:147-176 decodeObject. *)
  Definition c_decode_object0 (fuel : nat) : Cm nat :=
    c* loc := leaf alloc in
    c* _ := leaf (ref0_push (VObj loc)) in
    c* _ := c_obj_loop fuel loc in
    leaf (dret loc).
  (** amf0.go:192-209 decodeEcmaArray. *)
  Definition c_decode_ecma0 (fuel : nat) : Cm value :=
    c* _ := leaf (read_be 4) in
    c* loc := c_decode_object0 fuel in
    leaf (dret (VObj loc)).
  (** amf0.go:211-233 decodeStrictArray. *)
  Definition c_decode_strict0 (fuel : nat) : Cm value :=
    c* n := leaf (read_be 4) in
    c* _ := leaf (ref0_push (VArr [])) in
    c* l := c_loop_n dec fuel n in
    leaf (dret (VArr l)).
  (** amf0.go:267-291 decodeTypedObject. *)
  Definition c_decode_typed0 (fuel : nat) : Cm value :=
    c* _ := leaf (ref0_push (VTyped [] None)) in
    c* ty := leaf decode_string0 in
    c* loc := c_decode_object0 fuel in
    leaf (dret (VTyped ty (Some loc))).
End Objects.
(** amf0.go:45-109 Decode. *)
Fixpoint c_dec0 (fuel : nat) : Cm value :=
  match fuel with
  | O => leaf (fun d => (d, OutOfFuel))
  | S f =>
      call (c* m := leaf read_byte in
      if m =? 0 then leaf (d* b := read_be 8 in dret (VNum b))
      else if m =? 1 then leaf (d* b := read_byte in dret (VBool (b =? 1)))
      else if m =? 2 then leaf (d* s := decode_string0 in dret (VStr s))
      else if m =? 3 then c* loc := c_decode_object0 (c_dec0 f) f in leaf (dret (VObj loc))
      else if m =? 4 then leaf (dfail EOther)
      else if (m =? 5) || (m =? 6) || (m =? 13) then leaf (dret VNil)
      else if m =? 7 then leaf decode_reference0
      else if m =? 8 then c_decode_ecma0 (c_dec0 f) f
      else if m =? 10 then c_decode_strict0 (c_dec0 f) f
      else if m =? 11 then leaf decode_date0
      else if m =? 12 then leaf (d* s := decode_longstring0 in dret (VStr s))
      else if m =? 14 then leaf (dfail EOther)
      else if m =? 15 then leaf (d* s := decode_longstring0 in dret (VStr s))
      else if m =? 16 then c_decode_typed0 (c_dec0 f) f
      else if m =? 17 then c_dec3 f
      else leaf (dfail EOther))
  end.
(** EnDecAMF0.Decode and EnDecAMF3.Decode with their counts. *)
Definition c_decode0 : Cm value := fun d => c_dec0 (fuel_for d) d.
Definition c_decode3 : Cm value := fun d => c_dec3 (fuel_for d) d.
