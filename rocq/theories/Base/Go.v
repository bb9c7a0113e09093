(** Go-level vocabulary used by every model file: byte strings, fixed-width
    wrap-around, big-endian integers, outcomes.

    Nothing in this file models a particular function of /repo; it fixes the
    meaning of the Go language and standard-library operations the repository
    uses (conversions such as byte(x), encoding/binary big-endian, slicing). *)
From Coq Require Export List ZArith Lia Bool ZifyBool ZifyNat.
Export ListNotations.
Global Open Scope Z_scope.
Global Arguments Z.mul : simpl never.
Global Arguments Z.add : simpl never.
Global Arguments Z.sub : simpl never.
Global Arguments Z.modulo : simpl never.
Global Arguments Z.div : simpl never.
Global Arguments Z.pow : simpl never.
Global Arguments Z.of_nat : simpl never.
Global Arguments Z.to_nat : simpl never.
Global Arguments Z.land : simpl never.
Global Arguments Z.lor : simpl never.
Global Arguments Z.lxor : simpl never.
Global Arguments Z.shiftl : simpl never.
Global Arguments Z.shiftr : simpl never.

(** A Go []byte or string: a finite list of numbers in [0,256). *)
Notation bytes := (list Z).
Definition byte (b : Z) : Prop := 0 <= b < 256.
Definition is_bytes (s : bytes) : Prop := Forall byte s.

(** len(s), as Go's int. *)
Definition len {A} (s : list A) : Z := Z.of_nat (length s).

(** Conversions to unsigned fixed-width types: byte(x), uint16(x), uint32(x), uint64(x). *)
Definition u8 (z : Z) : Z := z mod 256.
Definition u16 (z : Z) : Z := z mod 65536.
Definition u32 (z : Z) : Z := z mod 4294967296.
Definition u64 (z : Z) : Z := z mod 18446744073709551616.
(** Conversions to signed fixed-width types: int32(x), int64(x) (two's complement). *)
Definition i32 (z : Z) : Z := (z + 2147483648) mod 4294967296 - 2147483648.
Definition i64 (z : Z) : Z :=
  (z + 9223372036854775808) mod 18446744073709551616 - 9223372036854775808.

(** encoding/binary.BigEndian.PutUint16/32/64. *)
Definition be16 (z : Z) : bytes := [u8 (z / 256); u8 z].
Definition be24 (z : Z) : bytes := [u8 (z / 65536); u8 (z / 256); u8 z].
Definition be32 (z : Z) : bytes :=
  [u8 (z / 16777216); u8 (z / 65536); u8 (z / 256); u8 z].
Definition be64 (z : Z) : bytes := be32 (z / 4294967296) ++ be32 z.

(** Big-endian value of a byte string (binary.BigEndian.Uint16/32/64). *)
Definition be_val (s : bytes) : Z := fold_left (fun a b => a * 256 + b) s 0.

(** Outcome of a Go function: a normal return, a returned error, a run-time panic.
    [OutOfFuel] marks exhaustion of the artificial fuel of a modelled loop. *)
Inductive err := EEof | EUnexpectedEof | EWrite | EOther | ESource.
Inductive res (A : Type) : Type :=
| Ok (a : A)
| Err (e : err)
| Panic
| OutOfFuel.
Arguments Ok {A} a.
Arguments Err {A} e.
Arguments Panic {A}.
Arguments OutOfFuel {A}.

Definition bind {A B} (r : res A) (f : A -> res B) : res B :=
  match r with
  | Ok a => f a
  | Err e => Err e
  | Panic => Panic
  | OutOfFuel => OutOfFuel
  end.
Notation "'let*' x ':=' r 'in' k" := (bind r (fun x => k))
  (at level 200, x pattern, r at level 100, k at level 200, right associativity).

(** Slices s[a:b], s[a:], s[:b] with Go bounds checks (capacity = length: no
    re-slicing beyond the length is modelled). *)
Definition slice (s : bytes) (a b : Z) : bytes :=
  firstn (Z.to_nat (b - a)) (skipn (Z.to_nat a) s).
Definition go_slice (s : bytes) (a b : Z) : res bytes :=
  if (0 <=? a) && (a <=? b) && (b <=? len s) then Ok (slice s a b) else Panic.
Definition drop (s : bytes) (a : Z) : bytes := skipn (Z.to_nat a) s.
Definition take (s : bytes) (a : Z) : bytes := firstn (Z.to_nat a) s.
(** s[i] with default 0; used only where the Go code has checked the bound. *)
Definition at_ (s : bytes) (i : Z) : Z := nth (Z.to_nat i) s 0.
Definition go_at (s : bytes) (i : Z) : res Z :=
  if (0 <=? i) && (i <? len s) then Ok (at_ s i) else Panic.

(** bytes.Equal and string comparison. *)
Fixpoint bytes_eqb (a b : bytes) : bool :=
  match a, b with
  | [], [] => true
  | x :: a', y :: b' => (x =? y) && bytes_eqb a' b'
  | _, _ => false
  end.
