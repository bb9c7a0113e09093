(** Go values seen by amf: what Decode returns and what Encode accepts.
    Models amf/helper.go lines 8-18 (Array, Object, TypedObject) and
    amf/amf3.go lines 35-58 (TraitAMF3, EcmaArrayAMF3, decoder tables). *)
From Verif Require Import Base.Go Base.IO.

(** A decoded interface{} value. Go maps are reference values: an Object is a location in
    the heap [d_heap] below, so two values may share one map.
    float64 is its 64-bit pattern. A nil slice and an empty slice are not distinguished. *)
Inductive value : Type :=
| VNil                                        (* nil *)
| VNum (bits : Z)                             (* float64 *)
| VBool (b : bool)                            (* bool *)
| VStr (s : bytes)                            (* string *)
| VU32 (n : Z)                                (* uint32: AMF3 integer *)
| VTime (sec : Z)                             (* time.Time, whole Unix seconds *)
| VBytes (s : bytes)                          (* []byte *)
| VArr (l : list value)                       (* Array *)
| VEcma (dense : list value) (assoc : option nat)  (* EcmaArrayAMF3; None = nil map *)
| VObj (loc : nat)                            (* Object *)
| VTyped (ty : bytes) (obj : option nat).     (* TypedObject; None = nil map *)

(** Contents of a Go map[string]interface{}: distinct keys, in insertion order. *)
Definition omap := list (bytes * value).

(** m[k] = v. *)
Fixpoint map_set (k : bytes) (v : value) (m : omap) : omap :=
  match m with
  | [] => [(k, v)]
  | (k', v') :: m' => if bytes_eqb k k' then (k', v) :: m' else (k', v') :: map_set k v m'
  end.

(** amf/amf3.go:35-41 TraitAMF3. *)
Record trait := mkTrait { t_type : bytes; t_ext : bool; t_dyn : bool; t_props : list bytes }.

(** Everything a Decode call reads or updates: the reader it is given, the heap of maps,
    EnDecAMF0.deRefCache (amf0.go:34-37) and EnDecAMF3's three tables (amf3.go:53-58).
    externalHandlers is in Model/Amf3Ext.v. *)
Record dstate := mkD {
  d_r : reader;
  d_heap : list omap;
  d_ref0 : list value;
  d_str3 : list bytes;
  d_obj3 : list value;
  d_trait3 : list trait
}.

Definition set_r r d := mkD r (d_heap d) (d_ref0 d) (d_str3 d) (d_obj3 d) (d_trait3 d).
Definition set_heap h d := mkD (d_r d) h (d_ref0 d) (d_str3 d) (d_obj3 d) (d_trait3 d).
Definition set_ref0 c d := mkD (d_r d) (d_heap d) c (d_str3 d) (d_obj3 d) (d_trait3 d).
Definition set_str3 c d := mkD (d_r d) (d_heap d) (d_ref0 d) c (d_obj3 d) (d_trait3 d).
Definition set_obj3 c d := mkD (d_r d) (d_heap d) (d_ref0 d) (d_str3 d) c (d_trait3 d).
Definition set_trait3 c d := mkD (d_r d) (d_heap d) (d_ref0 d) (d_str3 d) (d_obj3 d) c.

(** A new decoder (amf0.go:40-42, amf3.go:61-65) reading from r. *)
Definition fresh (r : reader) : dstate := mkD r [] [] [] [] [].

Definition Dm (A : Type) := dstate -> dstate * res A.
Definition dret {A} (a : A) : Dm A := fun d => (d, Ok a).
Definition dfail {A} (e : err) : Dm A := fun d => (d, Err e).
Definition dbind {A B} (m : Dm A) (k : A -> Dm B) : Dm B := fun d =>
  match m d with
  | (d', Ok a) => k a d'
  | (d', Err e) => (d', Err e)
  | (d', Panic) => (d', Panic)
  | (d', OutOfFuel) => (d', OutOfFuel)
  end.
Notation "'d*' x ':=' m 'in' k" := (dbind m (fun x => k))
  (at level 200, x pattern, m at level 100, k at level 200, right associativity).

(** amf/helper.go:64-76 readBytes: one Read call; a short read is an error. *)
Definition read_bytes (n : Z) : Dm bytes := fun d =>
  match read n (d_r d) with
  | (r', Ok s) => (set_r r' d, if len s =? n then Ok s else Err EOther)
  | (r', Err e) => (set_r r' d, Err e)
  | (r', Panic) => (set_r r' d, Panic)
  | (r', OutOfFuel) => (set_r r' d, OutOfFuel)
  end.

(** amf/helper.go:54-61 readByte. *)
Definition read_byte : Dm Z :=
  d* s := read_bytes 1 in dret (at_ s 0).

(** amf/helper.go:79-91 nextByteMustBe. *)
Definition next_byte_must_be (b : Z) : Dm unit :=
  d* m := read_byte in if m =? b then dret tt else dfail EOther.

(** binary.Read(r, binary.BigEndian, &x) for an n-byte x: the unsigned big-endian value. *)
Definition read_be (n : Z) : Dm Z := fun d =>
  match read_full n (d_r d) with
  | (r', Ok s) => (set_r r' d, Ok (be_val s))
  | (r', Err e) => (set_r r' d, Err e)
  | (r', Panic) => (set_r r' d, Panic)
  | (r', OutOfFuel) => (set_r r' d, OutOfFuel)
  end.

(** buf := make([]byte, n); _, err := r.Read(buf): the count is ignored, missing bytes stay 0. *)
Definition read_into (n : Z) : Dm bytes := fun d =>
  match read n (d_r d) with
  | (r', Ok s) => (set_r r' d, Ok (s ++ repeat 0 (Z.to_nat (n - len s))))
  | (r', Err e) => (set_r r' d, Err e)
  | (r', Panic) => (set_r r' d, Panic)
  | (r', OutOfFuel) => (set_r r' d, OutOfFuel)
  end.

(** make(Object). *)
Definition alloc : Dm nat := fun d =>
  (set_heap (d_heap d ++ [[]]) d, Ok (length (d_heap d))).
(** m[k] = v on the map at location loc. *)
Fixpoint upd_nth {A} (n : nat) (f : A -> A) (l : list A) : list A :=
  match l, n with
  | [], _ => []
  | x :: l', O => f x :: l'
  | x :: l', S n' => x :: upd_nth n' f l'
  end.
Definition obj_set (loc : nat) (k : bytes) (v : value) : Dm unit := fun d =>
  (set_heap (upd_nth loc (map_set k v) (d_heap d)) d, Ok tt).

(** for i := 0; i < n; i++ { x_i = body } - collects the results. *)
Fixpoint loop_n {A} (body : Dm A) (fuel : nat) (n : Z) : Dm (list A) :=
  if n <=? 0 then dret [] else
  match fuel with
  | O => fun d => (d, OutOfFuel)
  | S f => d* x := body in d* xs := loop_n body f (n - 1) in dret (x :: xs)
  end.

(** A Go value handed to Encode. A Go map is a list of fields with distinct keys in the order
    in which `range` happens to visit them. *)
Inductive tree : Type :=
| TNil                                     (* nil *)
| TBool (b : bool)
| TFloat (bits : Z)                        (* float32/float64, already widened to float64 *)
| TInt (wide : bool) (z : Z)               (* int, int8..int32 (wide = false) or int64 (wide = true) *)
| TUint (wide : bool) (z : Z)              (* uint, uint8..uint32, or uint64 *)
| TStr (s : bytes)
| TTime (sec : Z)                          (* time.Time; Encode only looks at Unix() *)
| TBytes (s : bytes)                       (* []byte *)
| TArr (l : list tree)                     (* any other slice or array *)
| TObj (fs : list (bytes * tree))          (* amf.Object *)
| TTyped (ty : bytes) (fs : list (bytes * tree))  (* amf.TypedObject *)
| TOther.                                  (* any kind Encode does not know *)

(** amf/helper.go:33-46 writeByte. *)
Definition write_byte (b : Z) : Wm unit := write [u8 b].
