(** The clock of a transport stream as a receiver sees it (ISO/IEC 13818-1, 2.4.2.2 and 2.4.3.5): the clock references in the order of
    the packets, and the time a PES packet is to be decoded. *)
From Verif Require Import Base.Go Spec.Ts.

(** PID and value (base, extension) of every clock reference. *)
Definition clocks (l : list tspkt) : list (Z * (Z * Z)) :=
  flat_map (fun q => match packet_mark q with Some (_, Some c) => [(ts_pid q, c)] | _ => [] end) l.
(** A frame is to be decoded at its DTS or, without one, at its PTS. *)
Definition decode_time (e : pes) : option Z := match pes_dts e with Some (_, t) => Some t | None => option_map snd (pes_pts e) end.
(** The difference between consecutive clock references is at most 100 ms of the 90 kHz clock (2.7.2). *)
Fixpoint clock_often (l : list (Z * (Z * Z))) : Prop :=
  match l with
  | (_, (a, _)) :: (((_, (b, _)) :: _) as l') => b - a <= 9000 /\ clock_often l'
  | _ => True
  end.
