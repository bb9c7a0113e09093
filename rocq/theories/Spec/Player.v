(** A player of transport streams that finds its way from the program tables (ISO/IEC 13818-1, 2.4.4): it takes the PMT's PID
    from the PAT and the streams from the PMT, ignores tables whose version number it has already seen, and drops the packets of streams
    that have not been announced. One program. *)
From Verif Require Import Base.Go Spec.Ts.

(** The version number in a section body: five bits of the third byte. *)
Definition version_of (body : bytes) : Z := nth 2 body 0 / 2 mod 32.
(** What has been learnt: version of the PAT and PID of the PMT; version of the PMT and the streams, (type, PID). *)
Record tuned := mkTuned { tn_pat : option (Z * Z); tn_pmt : option (Z * list (Z * Z)) }.
Definition untuned : tuned := mkTuned None None.
Definition known_version {A} (o : option (Z * A)) (v : Z) : bool := match o with Some (v', _) => v' =? v | None => false end.
Definition hear_pat (t : tuned) (payload : bytes) : tuned :=
  match read_section payload with
  | Some (0, _, b) =>
      match read_pat b with
      | Some (_, programs) =>
          match find (fun e => negb (fst e =? 0)) programs with
          | Some (_, pid) => if known_version (tn_pat t) (version_of b) then t else mkTuned (Some (version_of b, pid)) None
          | None => t
          end
      | None => t
      end
  | _ => t
  end.
Definition hear_pmt (t : tuned) (payload : bytes) : tuned :=
  match read_section payload with
  | Some (2, _, b) =>
      match read_pmt b with
      | Some (_, _, streams) => if known_version (tn_pmt t) (version_of b) then t else mkTuned (tn_pat t) (Some (version_of b, streams))
      | None => t
      end
  | _ => t
  end.
Definition streams_of (t : tuned) : list (Z * Z) := match tn_pmt t with Some (_, l) => l | None => [] end.
Definition is_map (t : tuned) (pid : Z) : bool := match tn_pat t with Some (_, m) => pid =? m | None => false end.
(** One packet: what is known afterwards, and whether the packet is part of an announced stream. *)
Definition hear (t : tuned) (q : tspkt) : tuned * bool :=
  if ts_pid q =? 0 then (hear_pat t (ts_payload q), false)
  else if is_map t (ts_pid q) then (hear_pmt t (ts_payload q), false)
  else (t, existsb (fun e => snd e =? ts_pid q) (streams_of t)).
Fixpoint watch (t : tuned) (l : list tspkt) : tuned * list tspkt :=
  match l with
  | [] => (t, [])
  | q :: l' => let '(t1, keep) := hear t q in let '(t2, kept) := watch t1 l' in (t2, if keep then q :: kept else kept)
  end.
(** The streams the player plays: type and PES packets. *)
Definition play (s : bytes) : option (list (Z * option (list pes))) :=
  match read_stream s with
  | Some pkts => let '(t, kept) := watch untuned pkts in Some (map (fun e => (fst e, all_pes (units (on_pid (snd e) kept)))) (streams_of t))
  | None => None
  end.
