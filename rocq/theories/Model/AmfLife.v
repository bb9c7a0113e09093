(** DecodeBatch, and a decoder over any number of calls, with the logs of Model/AmfAlloc.v and the counts of Model/AmfCalls.v. *)
From Verif Require Import Base.Go Base.IO Model.AmfTypes Model.Amf3 Model.Amf0 Model.AmfAlloc Model.AmfCalls.

(** amf0.go:112-126, amf3.go:120-133 DecodeBatch for a Decode with a log. The slice of the results, which append makes, is left out. *)
Fixpoint a_batch (dec : Am value) (fuel : nat) (d : dstate) : list Z * (dstate * (list value * res unit)) :=
  match fuel with
  | O => ([], (d, ([], OutOfFuel)))
  | S f =>
      match dec d with
      | (l, (d', Ok v)) => let '(l', (d'', (vs, r))) := a_batch dec f d' in (l ++ l', (d'', (v :: vs, r)))
      | (l, (d', Err EEof)) => (l, (d', ([], Ok tt)))
      | (l, (d', Err e)) => (l, (d', ([], Err e)))
      | (l, (d', Panic)) => (l, (d', ([], Panic)))
      | (l, (d', OutOfFuel)) => (l, (d', ([], OutOfFuel)))
      end
  end.
(** The same for a Decode that counts its active calls: those of one value have returned when the next is read. *)
Fixpoint c_batch (dec : Cm value) (fuel : nat) (d : dstate) : Z * (dstate * (list value * res unit)) :=
  match fuel with
  | O => (0, (d, ([], OutOfFuel)))
  | S f =>
      match dec d with
      | (n, (d', Ok v)) => let '(n', (d'', (vs, r))) := c_batch dec f d' in (Z.max n n', (d'', (v :: vs, r)))
      | (n, (d', Err EEof)) => (n, (d', ([], Ok tt)))
      | (n, (d', Err e)) => (n, (d', ([], Err e)))
      | (n, (d', Panic)) => (n, (d', ([], Panic)))
      | (n, (d', OutOfFuel)) => (n, (d', ([], OutOfFuel)))
      end
  end.

(** The calls that can be made on one EnDecAMF0: its own methods and those of the EnDecAMF3 embedded in it (amf0.go:34-37), each with
    a reader of its own. *)
Inductive dec_call := Decode0 (r : reader) | Batch0 (r : reader) | Decode3 (r : reader) | Batch3 (r : reader).
Definition call_reader (c : dec_call) : reader := match c with Decode0 r | Batch0 r | Decode3 r | Batch3 r => r end.
(** What Decode returns, as a list: one value, or none and the error. *)
Definition one (x : dstate * res value) : dstate * (list value * res unit) :=
  match x with (d, Ok v) => (d, ([v], Ok tt)) | (d, Err e) => (d, ([], Err e)) | (d, Panic) => (d, ([], Panic)) | (d, OutOfFuel) => (d, ([], OutOfFuel)) end.
Definition dec_step (d : dstate) (c : dec_call) : dstate * (list value * res unit) :=
  match c with
  | Decode0 r => one (decode0 (set_r r d))
  | Batch0 r => decode_batch0 (set_r r d)
  | Decode3 r => one (decode3 (set_r r d))
  | Batch3 r => decode_batch3 (set_r r d)
  end.
Definition a_step (d : dstate) (c : dec_call) : list Z * (dstate * (list value * res unit)) :=
  match c with
  | Decode0 r => let '(l, x) := a_decode0 (set_r r d) in (l, one x)
  | Batch0 r => a_batch a_decode0 (fuel_for (set_r r d)) (set_r r d)
  | Decode3 r => let '(l, x) := a_decode3 (set_r r d) in (l, one x)
  | Batch3 r => a_batch a_decode3 (fuel_for (set_r r d)) (set_r r d)
  end.
Definition c_step (d : dstate) (c : dec_call) : Z * (dstate * (list value * res unit)) :=
  match c with
  | Decode0 r => let '(n, x) := c_decode0 (set_r r d) in (n, one x)
  | Batch0 r => c_batch c_decode0 (fuel_for (set_r r d)) (set_r r d)
  | Decode3 r => let '(n, x) := c_decode3 (set_r r d) in (n, one x)
  | Batch3 r => c_batch c_decode3 (fuel_for (set_r r d)) (set_r r d)
  end.
