(** The AMF decoders of Model/Amf3.v and Model/Amf0.v once more, with a log of the sizes in bytes of the buffers they
    make from numbers found in the input. The log lists, in order, every make([]byte, n) (helper.go:65, amf3.go:440,
    481, and the buffer of binary.Read), make(Array, n) (amf3.go:242) and make([]string, n) (amf3.go:315); an
    interface{} and a string header have 16 bytes. Maps, and slices that grow by append one element at a time, are
    not logged. That the decoders are the same is proved (Proofs/AmfAlloc.v). *)
From Verif Require Import Base.Go Base.IO Base.Float64 Model.AmfTypes Model.Amf3 Model.Amf0.

Definition Am (A : Type) := dstate -> list Z * (dstate * res A).
Definition lift {A} (m : Dm A) : Am A := fun d => ([], m d).
Definition make_ (n : Z) : Am unit := fun d => ([n], (d, Ok tt)).
Definition abind {A B} (m : Am A) (k : A -> Am B) : Am B := fun d =>
  match m d with
  | (l, (d', Ok a)) => let '(l', x) := k a d' in (l ++ l', x)
  | (l, (d', Err e)) => (l, (d', Err e))
  | (l, (d', Panic)) => (l, (d', Panic))
  | (l, (d', OutOfFuel)) => (l, (d', OutOfFuel))
  end.
Notation "'a*' x ':=' m 'in' k" := (abind m (fun x => k))
  (at level 200, x pattern, m at level 100, k at level 200, right associativity).

(** helper.go:64-76 readBytes. *)
Definition a_read_bytes (n : Z) : Am bytes := a* _ := make_ n in lift (read_bytes n).
(** helper.go:54-61 readByte. *)
Definition a_read_byte : Am Z := a* s := a_read_bytes 1 in lift (dret (at_ s 0)).
(** helper.go:79-91 nextByteMustBe. *)
Definition a_next_byte_must_be (b : Z) : Am unit := a* m := a_read_byte in lift (if m =? b then dret tt else dfail EOther).
(** binary.Read. *)
Definition a_read_be (n : Z) : Am Z := a* _ := make_ n in lift (read_be n).
(** amf3.go:440-444, 481-485. *)
Definition a_read_into (n : Z) : Am bytes := a* _ := make_ n in lift (read_into n).
Fixpoint a_loop_n {A} (body : Am A) (fuel : nat) (n : Z) : Am (list A) :=
  if n <=? 0 then lift (dret []) else
  match fuel with
  | O => lift (fun d => (d, OutOfFuel))
  | S f => a* x := body in a* xs := a_loop_n body f (n - 1) in lift (dret (x :: xs))
  end.

(** * AMF3 *)
(** amf3.go:509-536 readUint29. *)
Definition a_read_u29 : Am Z :=
  a* b1 := a_read_byte in
  let r1 := u32 (Z.shiftl 0 7 + Z.land b1 127) in
  if Z.land b1 128 =? 0 then lift (dret r1) else
  a* b2 := a_read_byte in
  let r2 := u32 (Z.shiftl r1 7 + Z.land b2 127) in
  if Z.land b2 128 =? 0 then lift (dret r2) else
  a* b3 := a_read_byte in
  let r3 := u32 (Z.shiftl r2 7 + Z.land b3 127) in
  if Z.land b3 128 =? 0 then lift (dret r3) else
  a* b4 := a_read_byte in
  lift (dret (u32 (Z.shiftl r3 8 + b4))).
(** amf3.go:494-506 decodeUint29. *)
Definition a_decode_u29 : Am (bool * Z) :=
  a* u := a_read_u29 in lift (dret (Z.land u 1 =? 0, Z.shiftr u 1)).
(** amf3.go:137-171 decodeString. *)
Definition a_decode_string3 : Am bytes :=
  a* (is_ref, v) := a_decode_u29 in
  if is_ref then
    lift (fun d => if len (d_str3 d) <=? v then (d, Err EOther)
             else (d, Ok (nth (Z.to_nat v) (d_str3 d) [])))
  else if v =? 0 then lift (dret [])
  else
    a* s := a_read_bytes v in
    lift (fun d => (set_str3 (d_str3 d ++ [s]) d, Ok s)).
(** amf3.go:173-206 decodeDate. *)
Definition a_decode_date3 : Am value :=
  a* (is_ref, v) := a_decode_u29 in
  if is_ref then
    lift (d* x := obj3_ref v in
          match x with VTime _ => dret x | _ => dfail EOther end)
  else
    a* _ := make_ 8 in
    lift (d* bits := (fun d => match read_be 8 d with
                         | (d', Err _) => (d', Err EOther)
                         | x => x end) in
          let t := VTime (f64_to_i64 (f64_div_c bits 1000)) in
          d* _ := obj3_push t in
          dret t).
(** amf3.go:412-451 decodeXmlDoc. *)
Definition a_decode_xmldoc3 : Am value :=
  a* (is_ref, v) := a_decode_u29 in
  if is_ref then
    lift (d* x := obj3_ref v in
          match x with VStr _ => dret x | _ => dfail EOther end)
  else if v =? 0 then lift (dret (VStr []))
  else
    a* s := a_read_into v in
    lift (d* _ := obj3_push (VStr s) in dret (VStr s)).
(** amf3.go:453-491 decodeByteArray. *)
Definition a_decode_bytearray3 : Am value :=
  a* (is_ref, v) := a_decode_u29 in
  if is_ref then
    lift (d* x := obj3_ref v in
          match x with VBytes _ => dret x | _ => dfail EOther end)
  else if v =? 0 then lift (dret (VBytes []))
  else
    a* s := a_read_into v in
    lift (d* _ := obj3_push (VBytes s) in dret (VBytes s)).

Section External.
  Variable dec : Am value.        (* the recursive call to Decode *)
  Variable dec' : Dm value.       (* the same without log, for code that is never reached *)

  (** amf3.go:245-257. *)
  Fixpoint a_assoc_loop (fuel : nat) (loc : nat) (key : bytes) : Am unit :=
    match key with
    | [] => lift (dret tt)
    | _ =>
        match fuel with
        | O => lift (fun d => (d, OutOfFuel))
        | S f =>
            a* v := dec in
            a* _ := lift (obj_set loc key v) in
            a* key' := a_decode_string3 in
            a_assoc_loop f loc key'
        end
    end.
  (** amf3.go:208-268 decodeArray; 242 make(Array, refVal) before the members are read. *)
  Definition a_decode_array3 (fuel : nat) : Am value :=
    a* (is_ref, v) := a_decode_u29 in
    if is_ref then
      lift (d* x := obj3_ref v in
            match x with VEcma _ _ => dret x | _ => dfail EOther end)
    else
      a* key := a_decode_string3 in
      a* _ := lift (obj3_push (VEcma [] None)) in
      a* loc := lift alloc in
      a* _ := make_ (16 * v) in
      a* _ := a_assoc_loop fuel loc key in
      a* dense := a_loop_n dec fuel v in
      lift (dret (VEcma dense (Some loc))).
  (** amf3.go:376-383. *)
  Fixpoint a_props_loop (loc : nat) (keys : list bytes) : Am unit :=
    match keys with
    | [] => lift (dret tt)
    | k :: ks =>
        a* v := dec in
        a* _ := lift (obj_set loc k v) in
        a_props_loop loc ks
    end.
  (** amf3.go:387-406. *)
  Fixpoint a_dyn_loop (fuel : nat) (loc : nat) : Am unit :=
    match fuel with
    | O => lift (fun d => (d, OutOfFuel))
    | S f =>
        a* k := a_decode_string3 in
        match k with
        | [] => lift (dret tt)
        | _ =>
            a* v := dec in
            a* _ := lift (obj_set loc k v) in
            a_dyn_loop f loc
        end
    end.
  (** amf3.go:286-324; 315 make([]string, count) after the type name. *)
  Definition a_decode_trait (fuel : nat) (v : Z) : Am trait :=
    if Z.land v 1 =? 0 then
      lift (fun d => let index := Z.shiftr v 1 in
               if len (d_trait3 d) <=? index then (d, Err EOther)
               else (d, Ok (nth (Z.to_nat index) (d_trait3 d) (mkTrait [] false false []))))
    else
      let ext := Z.land v 2 =? 1 in
      let dyn := Z.land v 4 =? 1 in
      a* ty := a_decode_string3 in
      a* _ := make_ (16 * Z.shiftr v 3) in
      a* props := a_loop_n a_decode_string3 fuel (Z.shiftr v 3) in
      let t := mkTrait ty ext dyn props in
      lift (fun d => (set_trait3 (d_trait3 d ++ [t]) d, Ok t)).
  (** amf3.go:270-410 decodeObject. *)
  Definition a_decode_object3 (fuel : nat) : Am value :=
    a* (is_ref, v) := a_decode_u29 in
    if is_ref then lift (obj3_ref v)
    else
      a* t := a_decode_trait fuel v in
      a* _ := lift (obj3_push VNil) in
      if t_ext t then lift (decode_externalizable dec' fuel t)
      else
        a* loc := lift alloc in
        a* _ := a_props_loop loc (t_props t) in
        a* _ := (if t_dyn t then a_dyn_loop fuel loc else lift (dret tt)) in
        lift (dret (VObj loc)).
End External.

(** amf3.go:73-117 Decode. *)
Fixpoint a_dec3 (fuel : nat) : Am value :=
  match fuel with
  | O => lift (fun d => (d, OutOfFuel))
  | S f =>
      a* m := a_read_byte in
      if (m =? 0) || (m =? 1) then lift (dret VNil)
      else if m =? 2 then lift (dret (VBool false))
      else if m =? 3 then lift (dret (VBool true))
      else if m =? 4 then a* u := a_read_u29 in lift (dret (VU32 u))
      else if m =? 5 then a* b := a_read_be 8 in lift (dret (VNum b))
      else if m =? 6 then a* s := a_decode_string3 in lift (dret (VStr s))
      else if m =? 7 then a_decode_xmldoc3
      else if m =? 8 then a_decode_date3
      else if m =? 9 then a_decode_array3 (a_dec3 f) f
      else if m =? 10 then a_decode_object3 (a_dec3 f) (dec3 f) f
      else if m =? 11 then a_decode_xmldoc3
      else if m =? 12 then a_decode_bytearray3
      else lift (dfail EOther)
  end.

(** * AMF0 *)
(** amf0.go:130-145 decodeString. *)
Definition a_decode_string0 : Am bytes := a* n := a_read_be 2 in a_read_bytes n.
(** amf0.go:251-265 decodeLongString. *)
Definition a_decode_longstring0 : Am bytes := a* n := a_read_be 4 in a_read_bytes n.
(** amf0.go:178-190 decodeReference. *)
Definition a_decode_reference0 : Am value :=
  a* ref := a_read_be 2 in
  lift (fun d => if len (d_ref0 d) <? ref then (d, Err EOther)
           else if ref =? len (d_ref0 d) then (d, Panic)
           else (d, Ok (nth (Z.to_nat ref) (d_ref0 d) VNil))).
(** amf0.go:235-249 decodeDate. *)
Definition a_decode_date0 : Am value :=
  a* bits := a_read_be 8 in
  a* _ := a_read_bytes 2 in
  lift (dret (VNum bits)).
Section Objects.
  Variable dec : Am value.
  (** amf0.go:151-175. *)
  Fixpoint a_obj_loop (fuel : nat) (loc : nat) : Am unit :=
    match fuel with
    | O => lift (fun d => (d, OutOfFuel))
    | S f =>
        a* key := a_decode_string0 in
        match key with
        | [] => a_next_byte_must_be 9
        | _ =>
            a* v := dec in
            a* _ := lift (obj_set loc key v) in
            a_obj_loop f loc
        end
    end.
  (** amf0.go:147-176 decodeObject. *)
  Definition a_decode_object0 (fuel : nat) : Am nat :=
    a* loc := lift alloc in
    a* _ := lift (ref0_push (VObj loc)) in
    a* _ := a_obj_loop fuel loc in
    lift (dret loc).
  (** amf0.go:192-209 decodeEcmaArray. *)
  Definition a_decode_ecma0 (fuel : nat) : Am value :=
    a* _ := a_read_be 4 in
    a* loc := a_decode_object0 fuel in
    lift (dret (VObj loc)).
  (** amf0.go:211-233 decodeStrictArray: the array grows by append. *)
  Definition a_decode_strict0 (fuel : nat) : Am value :=
    a* n := a_read_be 4 in
    a* _ := lift (ref0_push (VArr [])) in
    a* l := a_loop_n dec fuel n in
    lift (dret (VArr l)).
  (** amf0.go:267-291 decodeTypedObject. *)
  Definition a_decode_typed0 (fuel : nat) : Am value :=
    a* _ := lift (ref0_push (VTyped [] None)) in
    a* ty := a_decode_string0 in
    a* loc := a_decode_object0 fuel in
    lift (dret (VTyped ty (Some loc))).
End Objects.
(** amf0.go:45-109 Decode. *)
Fixpoint a_dec0 (fuel : nat) : Am value :=
  match fuel with
  | O => lift (fun d => (d, OutOfFuel))
  | S f =>
      a* m := a_read_byte in
      if m =? 0 then a* b := a_read_be 8 in lift (dret (VNum b))
      else if m =? 1 then a* b := a_read_byte in lift (dret (VBool (b =? 1)))
      else if m =? 2 then a* s := a_decode_string0 in lift (dret (VStr s))
      else if m =? 3 then a* loc := a_decode_object0 (a_dec0 f) f in lift (dret (VObj loc))
      else if m =? 4 then lift (dfail EOther)
      else if (m =? 5) || (m =? 6) || (m =? 13) then lift (dret VNil)
      else if m =? 7 then a_decode_reference0
      else if m =? 8 then a_decode_ecma0 (a_dec0 f) f
      else if m =? 10 then a_decode_strict0 (a_dec0 f) f
      else if m =? 11 then a_decode_date0
      else if m =? 12 then a* s := a_decode_longstring0 in lift (dret (VStr s))
      else if m =? 14 then lift (dfail EOther)
      else if m =? 15 then a* s := a_decode_longstring0 in lift (dret (VStr s))
      else if m =? 16 then a_decode_typed0 (a_dec0 f) f
      else if m =? 17 then a_dec3 f
      else lift (dfail EOther)
  end.
(** EnDecAMF0.Decode and EnDecAMF3.Decode with their logs. *)
Definition a_decode0 : Am value := fun d => a_dec0 (fuel_for d) d.
Definition a_decode3 : Am value := fun d => a_dec3 (fuel_for d) d.
