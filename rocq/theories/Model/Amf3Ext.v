(** Model of AMF3 decoding with registered external handlers: amf/amf3.go:49-70 and 73-133, 208-410 again, with
    ed.externalHandlers. Model/Amf3.v is the decoder without handlers. *)
From Coq Require Import String.
From Verif Require Import Base.Go Base.IO Base.Float64 Model.AmfTypes Model.Amf3.

(** amf3.go:50 ExternalHandler: code of the caller's that may use the decoder and the reader in any way. Simplified: it
    cannot register handlers while a Decode runs. amf3.go:57, 68-70: the map, as a function. *)
Definition handlers := bytes -> option (Dm value).
Definition no_handlers : handlers := fun _ => None.
Definition register (name : bytes) (f : Dm value) (hs : handlers) : handlers := fun n => if bytes_eqb n name then Some f else hs n.

Section Handlers.
  Variable hs : handlers.
  Variable dec : Dm value.
  (** amf3.go:332-373. *)
  Definition decode_externalizable_h (fuel : nat) (t : trait) : Dm value :=
    if bytes_eqb (t_type t) (str "DSA") then
      d* loc := decode_async dec fuel in dret (VObj loc)
    else if bytes_eqb (t_type t) (str "DSK") then
      d* loc := decode_ack dec fuel in dret (VObj loc)
    else if bytes_eqb (t_type t) (str "flex.messaging.io.ArrayCollection") then
      d* v := dec in d* _ := obj3_push v in dret v
    else match hs (t_type t) with Some f => f | None => dfail EOther end.
  (** amf3.go:270-410 decodeObject. *)
  Definition decode_object3_h (fuel : nat) : Dm value :=
    d* (is_ref, v) := decode_u29 in
    if is_ref then obj3_ref v
    else
      d* t := decode_trait fuel v in
      d* _ := obj3_push VNil in
      if t_ext t then decode_externalizable_h fuel t
      else
        d* loc := alloc in
        d* _ := props_loop dec loc (t_props t) in
        d* _ := (if t_dyn t then dyn_loop dec fuel loc else dret tt) in
        dret (VObj loc).
End Handlers.

(** amf3.go:73-117 Decode. *)
Fixpoint dec3_h (hs : handlers) (fuel : nat) : Dm value :=
  match fuel with
  | O => fun d => (d, OutOfFuel)
  | S f =>
      d* m := read_byte in
      if (m =? 0) || (m =? 1) then dret VNil
      else if m =? 2 then dret (VBool false)
      else if m =? 3 then dret (VBool true)
      else if m =? 4 then d* u := read_u29 in dret (VU32 u)
      else if m =? 5 then d* b := read_be 8 in dret (VNum b)
      else if m =? 6 then d* s := decode_string3 in dret (VStr s)
      else if m =? 7 then decode_xmldoc3
      else if m =? 8 then decode_date3
      else if m =? 9 then decode_array3 (dec3_h hs f) f
      else if m =? 10 then decode_object3_h hs (dec3_h hs f) f
      else if m =? 11 then decode_xmldoc3
      else if m =? 12 then decode_bytearray3
      else dfail EOther
  end.
Definition decode3_h (hs : handlers) : Dm value := fun d => dec3_h hs (fuel_for d) d.
(** amf3.go:120-133 DecodeBatch. *)
Fixpoint batch3_h (hs : handlers) (fuel : nat) (d : dstate) : dstate * (list value * res unit) :=
  match fuel with
  | O => (d, ([], OutOfFuel))
  | S f =>
      match decode3_h hs d with
      | (d', Ok v) => let '(d'', (vs, r)) := batch3_h hs f d' in (d'', (v :: vs, r))
      | (d', Err EEof) => (d', ([], Ok tt))
      | (d', Err e) => (d', ([], Err e))
      | (d', Panic) => (d', ([], Panic))
      | (d', OutOfFuel) => (d', ([], OutOfFuel))
      end
  end.
Definition decode_batch3_h (hs : handlers) (d : dstate) := batch3_h hs (fuel_for d) d.

(** A decoder some calls have been made on: RegisterExternalHandler, Decode and DecodeBatch, each of the last two with
    a reader of its own. *)
Inductive ext_op := ERegister (name : bytes) (f : Dm value) | EDecode (r : reader) | EBatch (r : reader).
Definition ext_step (s : handlers * dstate) (o : ext_op) : handlers * dstate * (list value * res unit) :=
  let '(hs, d) := s in
  match o with
  | ERegister n f => (register n f hs, d, ([], Ok tt))
  | EDecode r => match decode3_h hs (set_r r d) with (d', Ok v) => (hs, d', ([v], Ok tt)) | (d', x) => (hs, d', ([], let* _ := x in Ok tt)) end
  | EBatch r => let '(d', x) := decode_batch3_h hs (set_r r d) in (hs, d', x)
  end.
Fixpoint ext_run (s : handlers * dstate) (os : list ext_op) : handlers * dstate * list (list value * res unit) :=
  match os with
  | [] => (s, [])
  | o :: os' => let '(s1, r) := ext_step s o in let '(s2, rs) := ext_run s1 os' in (s2, r :: rs)
  end.
