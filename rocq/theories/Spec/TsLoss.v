(** A transport stream on a channel that loses packets. *)
From Verif Require Import Base.Go Spec.Ts.

(** The elements whose mark is set. *)
Definition pick {A} (marks : list bool) (l : list A) : list A := map snd (filter fst (combine marks l)).

(** A receiver that watches the continuity counters (2.4.3.3) of one PID. It collects the unit it is in, with the counter of the
    packet that came last. A packet that does not follow that one makes it drop the unit and wait for the next one to begin. A unit
    is complete when the next one begins without a gap. *)
Fixpoint careful (st : option (Z * bytes)) (l : list tspkt) : list bytes :=
  match l with
  | [] => []
  | q :: l' =>
      let kept := match st with Some (c, cur) => if ts_cc q =? (c + 1) mod 16 then Some cur else None | None => None end in
      if ts_pusi q then match kept with Some cur => [cur] | None => [] end ++ careful (Some (ts_cc q, ts_payload q)) l'
      else careful (match kept with Some cur => Some (ts_cc q, cur ++ ts_payload q) | None => None end) l'
  end.

(** For packets with a mark that says whether they arrive: for every unit, whether all its packets and the first packet of the next
    unit arrive. The last unit has none after it. *)
Fixpoint marks_after (ok : bool) (l : list (bool * tspkt)) : list bool :=
  match l with
  | [] => [false]
  | (a, q) :: l' => if ts_pusi q then (ok && a) :: marks_after a l' else marks_after (ok && a) l'
  end.
Fixpoint intact (l : list (bool * tspkt)) : list bool :=
  match l with
  | [] => []
  | (a, q) :: l' => if ts_pusi q then marks_after a l' else intact l'
  end.

(** Between two packets that arrive, no 16 packets are lost, nor 32, 48 and so on: the counters have four bits. *)
Definition noticeable (arrives : list bool) : Prop :=
  forall a n b, arrives = a ++ true :: repeat false n ++ true :: b -> (n mod 16 = 0)%nat -> n = 0%nat.
