(** Model of amf/amf3.go and amf/amf3_external.go. *)
From Coq Require Import String.
From Verif Require Import Base.Go Base.IO Base.Text Base.Float64 Model.AmfTypes.

(** * Decoding *)

(** amf3.go:509-536 readUint29. *)
Definition read_u29 : Dm Z :=
  d* b1 := read_byte in
  let r1 := u32 (Z.shiftl 0 7 + Z.land b1 127) in
  if Z.land b1 128 =? 0 then dret r1 else
  d* b2 := read_byte in
  let r2 := u32 (Z.shiftl r1 7 + Z.land b2 127) in
  if Z.land b2 128 =? 0 then dret r2 else
  d* b3 := read_byte in
  let r3 := u32 (Z.shiftl r2 7 + Z.land b3 127) in
  if Z.land b3 128 =? 0 then dret r3 else
  d* b4 := read_byte in
  dret (u32 (Z.shiftl r3 8 + b4)).

(** amf3.go:494-506 decodeUint29: (isRef, refVal). *)
Definition decode_u29 : Dm (bool * Z) :=
  d* u := read_u29 in dret (Z.land u 1 =? 0, Z.shiftr u 1).

(** amf3.go:137-171 decodeString. *)
Definition decode_string3 : Dm bytes :=
  d* (is_ref, v) := decode_u29 in
  if is_ref then
    fun d => if len (d_str3 d) <=? v then (d, Err EOther)
             else (d, Ok (nth (Z.to_nat v) (d_str3 d) []))
  else if v =? 0 then dret []
  else
    d* s := read_bytes v in
    fun d => (set_str3 (d_str3 d ++ [s]) d, Ok s).

(** ed.deObjTable[index] with the bounds check all the decoders make. *)
Definition obj3_ref (v : Z) : Dm value := fun d =>
  if len (d_obj3 d) <=? v then (d, Err EOther)
  else (d, Ok (nth (Z.to_nat v) (d_obj3 d) VNil)).
Definition obj3_push (v : value) : Dm unit := fun d => (set_obj3 (d_obj3 d ++ [v]) d, Ok tt).

(** amf3.go:173-206 decodeDate. The io.EOF of a truncated double is wrapped by
    fmt.Errorf, hence no longer io.EOF. *)
Definition decode_date3 : Dm value :=
  d* (is_ref, v) := decode_u29 in
  if is_ref then
    d* x := obj3_ref v in
    match x with VTime _ => dret x | _ => dfail EOther end
  else
    d* bits := (fun d => match read_be 8 d with
                         | (d', Err _) => (d', Err EOther)
                         | x => x end) in
    let t := VTime (f64_to_i64 (f64_div_c bits 1000)) in
    d* _ := obj3_push t in
    dret t.

(** amf3.go:412-451 decodeXmlDoc. *)
Definition decode_xmldoc3 : Dm value :=
  d* (is_ref, v) := decode_u29 in
  if is_ref then
    d* x := obj3_ref v in
    match x with VStr _ => dret x | _ => dfail EOther end
  else if v =? 0 then dret (VStr [])
  else
    d* s := read_into v in
    d* _ := obj3_push (VStr s) in
    dret (VStr s).

(** amf3.go:453-491 decodeByteArray. *)
Definition decode_bytearray3 : Dm value :=
  d* (is_ref, v) := decode_u29 in
  if is_ref then
    d* x := obj3_ref v in
    match x with VBytes _ => dret x | _ => dfail EOther end
  else if v =? 0 then dret (VBytes [])
  else
    d* s := read_into v in
    d* _ := obj3_push (VBytes s) in
    dret (VBytes s).

(** amf3_external.go:103-118 readFlags. *)
Fixpoint read_flags (fuel : nat) : Dm (list Z) :=
  match fuel with
  | O => fun d => (d, OutOfFuel)
  | S f =>
      d* b := read_byte in
      if Z.land b 128 =? 0 then dret [b]
      else d* bs := read_flags f in dret (b :: bs)
  end.

(** amf3_external.go:92, the name of a field for a reserved bit. *)
Definition extra_name (i j : Z) : bytes := str "extra_" ++ itoa i ++ str "_" ++ itoa j.

(** The body of the decoders below is parameterised by the recursive call [dec] to Decode. *)
Section External.
  Variable dec : Dm value.

  (** amf3_external.go:72-81, the named fields; [p] is the index in fieldNames.
      flagBit = uint8(math.Exp2(p)), i.e. 0 for p >= 8. *)
  Fixpoint ext_named (loc : nat) (flags p : Z) (names : list bytes) : Dm unit :=
    match names with
    | [] => dret tt
    | n :: names' =>
        d* _ := (if Z.land flags (u8 (2 ^ p)) =? 1
                 then d* v := dec in obj_set loc n v
                 else dret tt) in
        ext_named loc flags (p + 1) names'
    end.

  (** amf3_external.go:84-96, the reserved bits, j = reserved .. 6. *)
  Fixpoint ext_extra (loc : nat) (i flags : Z) (js : list Z) : Dm unit :=
    match js with
    | [] => dret tt
    | j :: js' =>
        d* _ := (if Z.land (Z.shiftr flags j) 1 =? 1
                 then d* v := dec in obj_set loc (extra_name i j) v
                 else dret tt) in
        ext_extra loc i flags js'
    end.

  (** amf3_external.go:61-97, one iteration per flag byte. *)
  Fixpoint ext_flags (loc : nat) (i : Z) (fields : list (list bytes)) (fs : list Z) : Dm unit :=
    match fs with
    | [] => dret tt
    | flags :: fs' =>
        let names := match fields with [] => [] | ns :: _ => ns end in
        let reserved := len names in
        d* _ := ext_named loc flags 0 names in
        d* _ := (if Z.shiftr flags reserved =? 0 then dret tt
                 else ext_extra loc i flags
                        (map (fun k => reserved + Z.of_nat k) (seq 0 (Z.to_nat (7 - reserved))))) in
        ext_flags loc (i + 1) (tl fields) fs'
    end.

  (** amf3_external.go:53-100 decodeExternal. *)
  Definition decode_external (fuel : nat) (loc : nat) (fields : list (list bytes)) : Dm unit :=
    d* fs := read_flags fuel in ext_flags loc 0 fields fs.

  (** amf3_external.go:40-51 decodeAbstractMessage. *)
  Definition decode_abstract (fuel : nat) : Dm nat :=
    d* loc := alloc in
    d* _ := decode_external fuel loc
              [[str "body"; str "clientId"; str "destination"; str "headers"; str "messageId";
                str "timeStamp"; str "timeToLive"];
               [str "clientIdBytes"; str "messageIdBytes"]] in
    dret loc.
  (** amf3_external.go:10-22 decodeAsyncMessage. *)
  Definition decode_async (fuel : nat) : Dm nat :=
    d* loc := decode_abstract fuel in
    d* _ := decode_external fuel loc [[str "correlationId"; str "correlationIdBytes"]] in
    dret loc.
  (** amf3_external.go:25-37 decodeAcknowledgeMessage. *)
  Definition decode_ack (fuel : nat) : Dm nat :=
    d* loc := decode_async fuel in
    d* _ := decode_external fuel loc [] in
    dret loc.

  (** amf3.go:245-257, the associative part: the key has been read. *)
  Fixpoint assoc_loop (fuel : nat) (loc : nat) (key : bytes) : Dm unit :=
    match key with
    | [] => dret tt
    | _ =>
        match fuel with
        | O => fun d => (d, OutOfFuel)
        | S f =>
            d* v := dec in
            d* _ := obj_set loc key v in
            d* key' := decode_string3 in
            assoc_loop f loc key'
        end
    end.

  (** amf3.go:208-268 decodeArray. *)
  Definition decode_array3 (fuel : nat) : Dm value :=
    d* (is_ref, v) := decode_u29 in
    if is_ref then
      d* x := obj3_ref v in
      match x with VEcma _ _ => dret x | _ => dfail EOther end
    else
      d* key := decode_string3 in
      d* _ := obj3_push (VEcma [] None) in
      d* loc := alloc in
      d* _ := assoc_loop fuel loc key in
      d* dense := loop_n dec fuel v in
      dret (VEcma dense (Some loc)).

  (** amf3.go:376-383, sealed members. *)
  Fixpoint props_loop (loc : nat) (keys : list bytes) : Dm unit :=
    match keys with
    | [] => dret tt
    | k :: ks =>
        d* v := dec in
        d* _ := obj_set loc k v in
        props_loop loc ks
    end.

  (** amf3.go:387-406, dynamic members. *)
  Fixpoint dyn_loop (fuel : nat) (loc : nat) : Dm unit :=
    match fuel with
    | O => fun d => (d, OutOfFuel)
    | S f =>
        d* k := decode_string3 in
        match k with
        | [] => dret tt
        | _ =>
            d* v := dec in
            d* _ := obj_set loc k v in
            dyn_loop f loc
        end
    end.

  (** amf3.go:286-324: the traits of the object, by reference or inline. *)
  Definition decode_trait (fuel : nat) (v : Z) : Dm trait :=
    if Z.land v 1 =? 0 then
      fun d => let index := Z.shiftr v 1 in
               if len (d_trait3 d) <=? index then (d, Err EOther)
               else (d, Ok (nth (Z.to_nat index) (d_trait3 d) (mkTrait [] false false [])))
    else
      let ext := Z.land v 2 =? 1 in
      let dyn := Z.land v 4 =? 1 in
      d* ty := decode_string3 in
      d* props := loop_n decode_string3 fuel (Z.shiftr v 3) in
      let t := mkTrait ty ext dyn props in
      fun d => (set_trait3 (d_trait3 d ++ [t]) d, Ok t).

  (** amf3.go:332-369, externalizable objects, with no handler registered (Model/Amf3Ext.v has handlers). *)
  Definition decode_externalizable (fuel : nat) (t : trait) : Dm value :=
    if bytes_eqb (t_type t) (str "DSA") then
      d* loc := decode_async fuel in dret (VObj loc)
    else if bytes_eqb (t_type t) (str "DSK") then
      d* loc := decode_ack fuel in dret (VObj loc)
    else if bytes_eqb (t_type t) (str "flex.messaging.io.ArrayCollection") then
      d* v := dec in d* _ := obj3_push v in dret v
    else dfail EOther.

  (** amf3.go:270-410 decodeObject. *)
  Definition decode_object3 (fuel : nat) : Dm value :=
    d* (is_ref, v) := decode_u29 in
    if is_ref then obj3_ref v
    else
      d* t := decode_trait fuel v in
      d* _ := obj3_push VNil in
      if t_ext t then decode_externalizable fuel t
      else
        d* loc := alloc in
        d* _ := props_loop loc (t_props t) in
        d* _ := (if t_dyn t then dyn_loop fuel loc else dret tt) in
        dret (VObj loc).
End External.

(** amf3.go:73-117 Decode. *)
Fixpoint dec3 (fuel : nat) : Dm value :=
  match fuel with
  | O => fun d => (d, OutOfFuel)
  | S f =>
      d* m := read_byte in
      if (m =? 0) || (m =? 1) then dret VNil
      else if m =? 2 then dret (VBool false)
      else if m =? 3 then dret (VBool true)
      else if m =? 4 then d* u := read_u29 in dret (VU32 u)
      else if m =? 5 then d* b := read_be 8 in dret (VNum b)
      else if m =? 6 then d* s := decode_string3 in dret (VStr s)
      else if m =? 7 then decode_xmldoc3
      else if m =? 8 then decode_date3
      else if m =? 9 then decode_array3 (dec3 f) f
      else if m =? 10 then decode_object3 (dec3 f) f
      else if m =? 11 then decode_xmldoc3
      else if m =? 12 then decode_bytearray3
      else dfail EOther
  end.

(** Fuel that suffices for any decoding from this reader (see the termination theorems). *)
Definition fuel_for (d : dstate) : nat := S (length (r_rest (d_r d))).

(** EnDecAMF3.Decode. *)
Definition decode3 : Dm value := fun d => dec3 (fuel_for d) d.

(** amf3.go:120-133 DecodeBatch: (values so far, outcome). [fuel] bounds the number of values. *)
Fixpoint batch3 (fuel : nat) (d : dstate) : dstate * (list value * res unit) :=
  match fuel with
  | O => (d, ([], OutOfFuel))
  | S f =>
      match decode3 d with
      | (d', Ok v) => let '(d'', (vs, r)) := batch3 f d' in (d'', (v :: vs, r))
      | (d', Err EEof) => (d', ([], Ok tt))
      | (d', Err e) => (d', ([], Err e))
      | (d', Panic) => (d', ([], Panic))
      | (d', OutOfFuel) => (d', ([], OutOfFuel))
      end
  end.
Definition decode_batch3 (d : dstate) := batch3 (fuel_for d) d.

(** * Encoding *)

(** amf3.go:912-927 writeUint29. *)
Definition write_u29 (v : Z) : Wm Z :=
  if v <=? 127 then w* _ := write [u8 v] in wret 1
  else if v <=? 16383 then
    w* _ := write [u8 (Z.lor (Z.shiftr v 7) 128); u8 (Z.land v 127)] in wret 2
  else if v <=? 2097151 then
    w* _ := write [u8 (Z.lor (Z.shiftr v 14) 128); u8 (Z.lor (Z.land (Z.shiftr v 7) 127) 128);
                   u8 (Z.land v 127)] in wret 3
  else if v <=? 536870911 then
    w* _ := write [u8 (Z.lor (Z.shiftr v 22) 128); u8 (Z.lor (Z.land (Z.shiftr v 15) 127) 128);
                   u8 (Z.lor (Z.land (Z.shiftr v 8) 127) 128); u8 v] in wret 4
  else wfail EOther.

(** amf3.go:903-910 encodeUint29 with isRef = false; val is a uint32. *)
Definition encode_u29 (v : Z) : Wm Z := write_u29 (Z.lor (u32 (Z.shiftl (u32 v) 1)) 1).

(** amf3.go:885-901 encodeUtf8. *)
Definition encode_utf8 (s : bytes) : Wm Z :=
  w* m := encode_u29 (len s) in
  w* _ := write s in
  wret (m + len s).

(** amf3.go:651-666 encodeInteger. *)
Definition encode_integer (v : Z) : Wm Z :=
  w* _ := write_byte 4 in w* m := write_u29 v in wret (1 + m).
(** amf3.go:668-682 encodeDouble. *)
Definition encode_double (bits : Z) : Wm Z :=
  w* _ := write_byte 5 in w* _ := write (be64 bits) in wret 9.
(** amf3.go:684-700 encodeString. *)
Definition encode_string3 (s : bytes) : Wm Z :=
  w* _ := write_byte 6 in w* m := encode_utf8 s in wret (1 + m).
(** amf3.go:702-723 encodeDate. *)
Definition encode_date3 (sec : Z) : Wm Z :=
  w* _ := write_byte 8 in
  w* _ := write_byte 1 in
  w* _ := write (be64 (f64_mul_c (f64_of_Z sec) 1000)) in
  wret 10.
(** amf3.go:861-883 encodeByteArray. *)
Definition encode_bytearray3 (s : bytes) : Wm Z :=
  w* _ := write_byte 12 in
  w* m := encode_u29 (len s) in
  w* _ := write s in
  wret (1 + m + len s).

(** Run a list of encoders, adding up the counts. *)
Fixpoint w_sum (ms : list (Wm Z)) : Wm Z :=
  match ms with
  | [] => wret 0
  | m :: ms' => w* a := m in w* b := w_sum ms' in wret (a + b)
  end.

(** String order of sort.Strings (amf3.go:773): bytewise lexicographic. *)
Fixpoint bytes_leb (a b : bytes) : bool :=
  match a, b with
  | [], _ => true
  | _ :: _, [] => false
  | x :: a', y :: b' => (x <? y) || ((x =? y) && bytes_leb a' b')
  end.
Fixpoint insert_key {A} (p : bytes * A) (l : list (bytes * A)) : list (bytes * A) :=
  match l with
  | [] => [p]
  | q :: l' => if bytes_leb (fst p) (fst q) then p :: l else q :: insert_key p l'
  end.
Fixpoint sort_keys {A} (l : list (bytes * A)) : list (bytes * A) :=
  match l with [] => [] | p :: l' => insert_key p (sort_keys l') end.

(** amf3.go:756-859 encodeObject; the fields come with the encoder of their value.
    trait.Dynamic and trait.Externalizable are always false there, so the code under them
    (lines 777-782, 809-812, 823-856) is dead and not modelled. *)
Definition encode_object3 (ty : bytes) (fs : list (bytes * Wm Z)) : Wm Z :=
  let sorted := sort_keys fs in
  w* _ := write_byte 10 in
  w* m1 := write_u29 (Z.lor 3 (u32 (Z.shiftl (u32 (len sorted)) 4))) in
  w* m2 := encode_utf8 ty in
  w* m3 := w_sum (map (fun p => encode_utf8 (fst p)) sorted) in
  w* m4 := w_sum (map snd sorted) in
  wret (1 + m1 + m2 + m3 + m4).

(** amf3.go:725-754 encodeArray. *)
Definition encode_array3 (ms : list (Wm Z)) : Wm Z :=
  w* _ := write_byte 9 in
  w* m1 := encode_u29 (len ms) in
  w* m2 := encode_utf8 [] in
  w* m3 := w_sum ms in
  wret (1 + m1 + m2 + m3).

(** amf3.go:541-598 Encode. *)
Fixpoint encode3 (t : tree) : Wm Z :=
  match t with
  | TTime sec => encode_date3 sec
  | TObj fs => encode_object3 [] (map (fun p => (fst p, encode3 (snd p))) fs)
  | TTyped ty fs => encode_object3 ty (map (fun p => (fst p, encode3 (snd p))) fs)
  | TBytes s => encode_bytearray3 s
  | TNil => w* _ := write_byte 1 in wret 1
  | TBool true => w* _ := write_byte 3 in wret 1
  | TBool false => w* _ := write_byte 2 in wret 1
  | TInt false z =>
      if (-536870911 <=? z) && (z <? 536870911) then encode_integer (u32 z)
      else encode_double (f64_of_Z z)
  | TUint false z =>
      if z <? 536870911 then encode_integer (u32 z) else encode_double (f64_of_Z z)
  | TStr s => encode_string3 s
  | TInt true z => encode_double (f64_of_Z z)
  | TUint true z => encode_double (f64_of_Z z)
  | TFloat bits => encode_double bits
  | TArr l => encode_array3 (map encode3 l)
  | TOther => wfail EOther
  end.

(** amf3.go:601-611 EncodeBatch. *)
Fixpoint encode_batch3 (ts : list tree) : Wm unit :=
  match ts with
  | [] => wret tt
  | t :: ts' => w* _ := encode3 t in encode_batch3 ts'
  end.
