(** Reading an H.264 byte stream (ITU-T H.264 Annex B), and the units a decoder should find. *)
From Verif Require Import Base.Go Base.IO Model.Packet Spec.Parsers.
Import ListNotations.
Local Open Scope Z_scope.

(** A start code prefix 00 00 01, here and behind zeros. *)
Definition at_prefix (s : bytes) : bool := match s with a :: b :: c :: _ => (a =? 0) && (b =? 0) && (c =? 1) | _ => false end.
Fixpoint behind_prefix (s : bytes) : option bytes :=
  match s with
  | [] => None
  | a :: s' => if at_prefix s then Some (skipn 3 s) else if a =? 0 then behind_prefix s' else None
  end.
(** A unit ends where 00 00 00 or 00 00 01 begins, or with the stream (B.1.2). *)
Definition at_end (s : bytes) : bool := match s with a :: b :: c :: _ => (a =? 0) && (b =? 0) && ((c =? 0) || (c =? 1)) | _ => false end.
Fixpoint one_unit (s : bytes) : bytes * bytes :=
  match s with
  | [] => ([], [])
  | b :: s' => if at_end s then ([], s) else let '(n, rest) := one_unit s' in (b :: n, rest)
  end.
Fixpoint read_units_fuel (fuel : nat) (s : bytes) : option (list bytes) :=
  match fuel with
  | O => None
  | S fuel' =>
      if forallb (fun b => b =? 0) s then Some []
      else match behind_prefix s with
           | None => None
           | Some r => let '(n, rest) := one_unit r in option_map (cons n) (read_units_fuel fuel' rest)
           end
  end.
Definition read_units (s : bytes) : option (list bytes) := read_units_fuel (S (length s)) s.

(** A unit as H.264 7.4.1 requires it: not empty, the last byte is not zero, and no 00 00 00 or 00 00 01 inside. *)
Definition legal_unit (n : bytes) : Prop :=
  n <> [] /\ (forall a, n <> a ++ [0]) /\ forall a b, n <> a ++ 0 :: 0 :: 0 :: b /\ n <> a ++ 0 :: 0 :: 1 :: b.

(** What a decoder should get of the units of one picture: slices and SEI; before the first IDR the parameter sets of the
    picture that came before it ([own]), or else those of the stream ([sets]). *)
Fixpoint picture (sets own nals : list bytes) : list bytes :=
  match nals with
  | [] => []
  | n :: ns =>
      if is_idr n then (match own with [] => sets | _ => own end) ++ n :: filter is_slice_or_sei ns
      else if is_pset n then picture sets (own ++ [n]) ns
      else if is_slice_or_sei n then n :: picture sets own ns
      else picture sets own ns
  end.
(** The access unit delimiter before every picture. *)
Definition aud : bytes := [9; 240].

(** What a decoder should find in a stream of packets, each with the flag that says whether it is a sequence header: the
    parameter sets of every header stay (C24), with what follows them in the header (C25). *)
Inductive unit_stream : list bytes -> list (bytes * bool) -> list bytes -> Prop :=
| Us_end sets : unit_stream sets [] []
| Us_header sets b sps pps ext bs us : header_of sps pps ext b -> legal_unit sps -> legal_unit (pps ++ ext) ->
    unit_stream (sets ++ [sps; pps ++ ext]) bs us -> unit_stream sets ((b, true) :: bs) us
| Us_picture sets nals bs us : nals <> [] -> Forall good_nal nals -> Forall (fun n => is_supported n = true) nals -> (forall n ns, nals = n :: ns -> len n <> 1) ->
    Forall legal_unit nals -> unit_stream sets bs us -> unit_stream sets ((avcc nals, false) :: bs) (aud :: picture sets [] nals ++ us).
