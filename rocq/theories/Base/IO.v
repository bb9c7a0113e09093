(** Scripted writers and readers (io.Writer / io.Reader), and the two small
    effect monads the models are written in. *)
From Coq Require Import String Ascii.
From Verif Require Import Base.Go.

(** Go string literals. *)
Fixpoint str (s : string) : bytes :=
  match s with
  | EmptyString => []
  | String c s' => Z.of_N (N_of_ascii c) :: str s'
  end.

(** * Writers *)

(** An io.Writer: what it has accepted so far, how many Write calls it has seen, and a
    script giving the fate of each call: [None] = the call succeeds; [Some m] = the call
    accepts the first m bytes and returns an error. *)
Record writer := mkW { w_out : bytes; w_calls : nat; w_script : nat -> option nat }.

(** One w.Write(s) call. *)
Definition write (s : bytes) (w : writer) : writer * res unit :=
  match w_script w (w_calls w) with
  | None => (mkW (w_out w ++ s) (S (w_calls w)) (w_script w), Ok tt)
  | Some m => (mkW (w_out w ++ firstn m s) (S (w_calls w)) (w_script w), Err EWrite)
  end.

Definition Wm (A : Type) := writer -> writer * res A.
Definition wret {A} (a : A) : Wm A := fun w => (w, Ok a).
Definition wfail {A} (e : err) : Wm A := fun w => (w, Err e).
Definition wpanic {A} : Wm A := fun w => (w, Panic).
Definition wbind {A B} (m : Wm A) (k : A -> Wm B) : Wm B := fun w =>
  match m w with
  | (w', Ok a) => k a w'
  | (w', Err e) => (w', Err e)
  | (w', Panic) => (w', Panic)
  | (w', OutOfFuel) => (w', OutOfFuel)
  end.
Notation "'w*' x ':=' m 'in' k" := (wbind m (fun x => k))
  (at level 200, x pattern, m at level 100, k at level 200, right associativity).

(** A writer none of whose calls fails. *)
Definition never_fails (w : writer) : Prop := forall n, w_script w n = None.
Definition buffer0 : writer := mkW [] 0 (fun _ => None).

(** * Readers *)

(** How a reader ends: the error its Read calls return once everything is delivered (io.EOF, or
    the failure of a broken source), and whether a zero-length Read returns that error too
    (bytes.Reader: true, bytes.Buffer: false). *)
Record rend := mkEnd { e_zero : bool; e_err : err }.
Definition eof (zero : bool) : rend := mkEnd zero EEof.
Coercion eof : bool >-> rend.

(** An io.Reader over a fixed input: the input is cut into chunks, one Read call never
    returns bytes of two chunks. A contiguous in-memory reader is a single chunk.
    [r_with]: the call that delivers the last bytes returns the final error along with them,
    as the io.Reader contract allows (n > 0 and err != nil), instead of on the next call. *)
Record reader := mkR { r_chunks : list bytes; r_end : rend; r_with : bool }.

Definition bytes_reader (s : bytes) : reader :=
  mkR (match s with [] => [] | _ => [s] end) (eof true) false.
Definition bytes_buffer (s : bytes) : reader :=
  mkR (match s with [] => [] | _ => [s] end) (eof false) false.

Definition r_rest (r : reader) : bytes := concat (r_chunks r).

(** One r.Read(buf) call with len(buf) = n, seen by a caller that looks at the error first: the
    bytes delivered, or the error (the bytes that came with it are then lost to the caller). *)
Definition read (n : Z) (r : reader) : reader * res bytes :=
  match r_chunks r with
  | [] => if (n =? 0) && negb (e_zero (r_end r)) then (r, Ok []) else (r, Err (e_err (r_end r)))
  | c :: cs =>
      if n =? 0 then (r, Ok [])
      else if len c <=? n then
        (mkR cs (r_end r) (r_with r),
         match cs with [] => if r_with r then Err (e_err (r_end r)) else Ok c | _ => Ok c end)
      else (mkR (drop c n :: cs) (r_end r) (r_with r), Ok (take c n))
  end.

(** io.ReadFull / binary.Read of n bytes (n > 0): keeps reading until n bytes are there, and then
    ignores an error that came with the last of them. If the input ends too early: its final error,
    except that io.EOF after at least one byte becomes io.ErrUnexpectedEOF. *)
Definition early (e : err) (acc : bytes) : err :=
  match acc, e with
  | _ :: _, EEof => EUnexpectedEof
  | _, _ => e
  end.
Fixpoint read_full_chunks (e : err) (n : Z) (acc : bytes) (cs : list bytes) : list bytes * res bytes :=
  match cs with
  | [] => ([], Err (early e acc))
  | c :: cs' =>
      if len c <? n then read_full_chunks e (n - len c) (acc ++ c) cs'
      else if len c =? n then (cs', Ok (acc ++ c))
      else (drop c n :: cs', Ok (acc ++ take c n))
  end.
Definition read_full (n : Z) (r : reader) : reader * res bytes :=
  match read_full_chunks (e_err (r_end r)) n [] (r_chunks r) with
  | (cs, x) => (mkR cs (r_end r) (r_with r), x)
  end.
