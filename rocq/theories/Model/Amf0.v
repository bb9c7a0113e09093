(** Model of amf/amf0.go. *)
From Coq Require Import String.
From Verif Require Import Base.Go Base.IO Base.Float64 Model.AmfTypes Model.Amf3.

(** * Decoding *)

(** amf0.go:130-145 decodeString. *)
Definition decode_string0 : Dm bytes :=
  d* n := read_be 2 in read_bytes n.
(** amf0.go:251-265 decodeLongString. *)
Definition decode_longstring0 : Dm bytes :=
  d* n := read_be 4 in read_bytes n.

(** ed.deRefCache = append(ed.deRefCache, v). *)
Definition ref0_push (v : value) : Dm unit := fun d => (set_ref0 (d_ref0 d ++ [v]) d, Ok tt).

(** amf0.go:178-190 decodeReference: the bounds check lets ref = len through, and indexing then panics. *)
Definition decode_reference0 : Dm value :=
  d* ref := read_be 2 in
  fun d => if len (d_ref0 d) <? ref then (d, Err EOther)
           else if ref =? len (d_ref0 d) then (d, Panic)
           else (d, Ok (nth (Z.to_nat ref) (d_ref0 d) VNil)).

(** amf0.go:235-249 decodeDate: 8-byte float, 2 unused bytes. *)
Definition decode_date0 : Dm value :=
  d* bits := read_be 8 in
  d* _ := read_bytes 2 in
  dret (VNum bits).

Section Objects.
  Variable dec : Dm value.   (* the recursive call to Decode *)

  (** amf0.go:151-175, the key/value loop. *)
  Fixpoint obj_loop (fuel : nat) (loc : nat) : Dm unit :=
    match fuel with
    | O => fun d => (d, OutOfFuel)
    | S f =>
        d* key := decode_string0 in
        match key with
        | [] => next_byte_must_be 9
        | _ =>
            d* v := dec in
            d* _ := obj_set loc key v in
            obj_loop f loc
        end
    end.

  (** amf0.go:147-176 decodeObject. *)
  Definition decode_object0 (fuel : nat) : Dm nat :=
    d* loc := alloc in
    d* _ := ref0_push (VObj loc) in
    d* _ := obj_loop fuel loc in
    dret loc.

  (** amf0.go:192-209 decodeEcmaArray: the count is read and ignored. *)
  Definition decode_ecma0 (fuel : nat) : Dm value :=
    d* _ := read_be 4 in
    d* loc := decode_object0 fuel in
    dret (VObj loc).

  (** amf0.go:211-233 decodeStrictArray: the nil slice is cached before it is filled. *)
  Definition decode_strict0 (fuel : nat) : Dm value :=
    d* n := read_be 4 in
    d* _ := ref0_push (VArr []) in
    d* l := loop_n dec fuel n in
    dret (VArr l).

  (** amf0.go:267-291 decodeTypedObject: the zero TypedObject is cached. *)
  Definition decode_typed0 (fuel : nat) : Dm value :=
    d* _ := ref0_push (VTyped [] None) in
    d* ty := decode_string0 in
    d* loc := decode_object0 fuel in
    dret (VTyped ty (Some loc)).
End Objects.

(** amf0.go:45-109 Decode. *)
Fixpoint dec0 (fuel : nat) : Dm value :=
  match fuel with
  | O => fun d => (d, OutOfFuel)
  | S f =>
      d* m := read_byte in
      if m =? 0 then d* b := read_be 8 in dret (VNum b)
      else if m =? 1 then d* b := read_byte in dret (VBool (b =? 1))
      else if m =? 2 then d* s := decode_string0 in dret (VStr s)
      else if m =? 3 then d* loc := decode_object0 (dec0 f) f in dret (VObj loc)
      else if m =? 4 then dfail EOther
      else if (m =? 5) || (m =? 6) || (m =? 13) then dret VNil
      else if m =? 7 then decode_reference0
      else if m =? 8 then decode_ecma0 (dec0 f) f
      else if m =? 10 then decode_strict0 (dec0 f) f
      else if m =? 11 then decode_date0
      else if m =? 12 then d* s := decode_longstring0 in dret (VStr s)
      else if m =? 14 then dfail EOther
      else if m =? 15 then d* s := decode_longstring0 in dret (VStr s)
      else if m =? 16 then decode_typed0 (dec0 f) f
      else if m =? 17 then dec3 f
      else dfail EOther
  end.

(** EnDecAMF0.Decode. *)
Definition decode0 : Dm value := fun d => dec0 (fuel_for d) d.

(** amf0.go:112-126 DecodeBatch. *)
Fixpoint batch0 (fuel : nat) (d : dstate) : dstate * (list value * res unit) :=
  match fuel with
  | O => (d, ([], OutOfFuel))
  | S f =>
      match decode0 d with
      | (d', Ok v) => let '(d'', (vs, r)) := batch0 f d' in (d'', (v :: vs, r))
      | (d', Err EEof) => (d', ([], Ok tt))
      | (d', Err e) => (d', ([], Err e))
      | (d', Panic) => (d', ([], Panic))
      | (d', OutOfFuel) => (d', ([], OutOfFuel))
      end
  end.
Definition decode_batch0 (d : dstate) := batch0 (fuel_for d) d.

(** * Encoding *)

(** amf0.go:451-465 encodeNumber. *)
Definition encode_number (bits : Z) : Wm Z :=
  w* _ := write_byte 0 in w* _ := write (be64 bits) in wret 9.
(** amf0.go:467-488 encodeBoolean. *)
Definition encode_boolean (b : bool) : Wm Z :=
  w* _ := write_byte 1 in w* _ := write [if b then 1 else 0] in wret 2.
(** amf0.go:490-516 encodeString: the length is truncated to 16 bits, all bytes are written. *)
Definition encode_string0 (s : bytes) (marker : bool) : Wm Z :=
  w* n := (if marker then w* _ := write_byte 2 in wret 1 else wret 0) in
  let length := u16 (len s) in
  w* _ := write (be16 length) in
  w* _ := write s in
  wret (n + 2 + length).
(** amf0.go:564-571 encodeNull. *)
Definition encode_null : Wm Z := w* _ := write_byte 5 in wret 1.
(** amf0.go:601-622 encodeDate. *)
Definition encode_date0 (sec : Z) : Wm Z :=
  w* _ := write_byte 11 in
  w* m := encode_number (f64_mul_c (f64_of_Z sec) 1000) in
  w* _ := write (be16 0) in
  wret (1 + m + 2).
(** amf0.go:624-652 encodeLongString. *)
Definition encode_longstring0 (s : bytes) (marker : bool) : Wm Z :=
  w* n := (if marker then w* _ := write_byte 12 in wret 1 else wret 0) in
  w* _ := write (be32 (u32 (len s))) in
  w* _ := write s in
  wret (n + 4 + len s).

(** amf0.go:531-545, the `range val` loop, each field with the encoder of its value. *)
Fixpoint encode_fields0 (fs : list (bytes * Wm Z)) : Wm Z :=
  match fs with
  | [] => wret 0
  | (k, v) :: fs' =>
      w* a := encode_string0 k false in
      w* b := v in
      w* c := encode_fields0 fs' in
      wret (a + b + c)
  end.
(** amf0.go:518-562 encodeObject. *)
Definition encode_object0 (fs : list (bytes * Wm Z)) (marker : bool) : Wm Z :=
  w* n := (if marker then w* _ := write_byte 3 in wret 1 else wret 0) in
  w* m := encode_fields0 fs in
  w* e := encode_string0 [] false in
  w* _ := write_byte 9 in
  wret (n + m + e + 1).
(** amf0.go:573-599 encodeStrictArray. *)
Definition encode_strict0 (ms : list (Wm Z)) : Wm Z :=
  w* _ := write_byte 10 in
  w* _ := write (be32 (u32 (len ms))) in
  w* m := w_sum ms in
  wret (5 + m).
(** amf0.go:654-675 encodeTypeObject. *)
Definition encode_typed0 (ty : bytes) (fs : list (bytes * Wm Z)) : Wm Z :=
  w* _ := write_byte 16 in
  w* m1 := encode_string0 ty false in
  w* m2 := encode_object0 fs false in
  wret (1 + m1 + m2).

(** amf0.go:298-341 Encode. A []byte is a slice of uint8, encoded as a strict array of numbers. *)
Fixpoint encode0 (t : tree) : Wm Z :=
  match t with
  | TObj fs => encode_object0 (map (fun p => (fst p, encode0 (snd p))) fs) true
  | TTyped ty fs => encode_typed0 ty (map (fun p => (fst p, encode0 (snd p))) fs)
  | TTime sec => encode_date0 sec
  | TNil => encode_null
  | TFloat bits => encode_number bits
  | TBool b => encode_boolean b
  | TStr s => if len s <=? 65535 then encode_string0 s true else encode_longstring0 s true
  | TInt _ z => encode_number (f64_of_Z z)
  | TUint _ z => encode_number (f64_of_Z z)
  | TArr l => encode_strict0 (map encode0 l)
  | TBytes s => encode_strict0 (map (fun b => encode_number (f64_of_Z b)) s)
  | TOther => wfail EOther
  end.

(** amf0.go:344-354 EncodeBatch. *)
Fixpoint encode_batch0 (ts : list tree) : Wm unit :=
  match ts with
  | [] => wret tt
  | t :: ts' => w* _ := encode0 t in encode_batch0 ts'
  end.

(** amf0.go:357-369 EncodeWithAMF3: an error of the marker write is turned into success. *)
Definition encode_with_amf3 (t : tree) : Wm Z := fun w =>
  match write_byte 17 w with
  | (w', Ok _) => (w* n := encode3 t in wret (n + 1)) w'
  | (w', Err _) => (w', Ok 0)
  | (w', Panic) => (w', Panic)
  | (w', OutOfFuel) => (w', OutOfFuel)
  end.
(** amf0.go:372-384 EncodeXmlDocument: likewise. *)
Definition encode_xmldoc0 (s : bytes) : Wm Z := fun w =>
  match write_byte 15 w with
  | (w', Ok _) => (w* n := encode_longstring0 s false in wret (n + 1)) w'
  | (w', Err _) => (w', Ok 0)
  | (w', Panic) => (w', Panic)
  | (w', OutOfFuel) => (w', OutOfFuel)
  end.
(** amf0.go:387-401 EncodeReference. *)
Definition encode_reference0 (ref : Z) : Wm Z :=
  w* _ := write_byte 7 in w* _ := write (be16 ref) in wret 3.
(** amf0.go:404-427 EncodeEcmaArray. *)
Definition encode_ecma0 (fs : list (bytes * tree)) : Wm Z :=
  w* _ := write_byte 8 in
  w* _ := write (be32 (u32 (len fs))) in
  w* m := encode_object0 (map (fun p => (fst p, encode0 (snd p))) fs) false in
  wret (5 + m).
(** amf0.go:430-437 EncodeUndefined. *)
Definition encode_undefined0 : Wm Z := w* _ := write_byte 6 in wret 1.
(** amf0.go:440-447 EncodeUnsupported. *)
Definition encode_unsupported0 : Wm Z := w* _ := write_byte 13 in wret 1.
