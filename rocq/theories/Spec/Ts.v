(** An MPEG-2 transport stream receiver (ISO/IEC 13818-1), independent of the muxer's code: packets, adaptation
    fields, PES packets, program tables. *)
From Verif Require Import Base.Go Spec.Crc32.

(** ** 2.4.3.2 Transport packets *)
Record tspkt := mkTs { ts_pusi : bool; ts_pid : Z; ts_cc : Z; ts_af : option bytes; ts_payload : bytes }.
(** Exactly 188 bytes; sync byte; transport_error_indicator and transport_scrambling_control zero; the adaptation
    field, when present, is preceded by its length and fits, leaving at least one payload byte if there is a payload. *)
Definition read_packet (s : bytes) : option tspkt :=
  match s with
  | b0 :: b1 :: b2 :: b3 :: r =>
      if (len s =? 188) && (b0 =? 0x47) && (b1 <? 128) && (b3 <? 64) then
        let pusi := 64 <=? b1 in
        let pid := (b1 mod 32) * 256 + b2 in
        let cc := b3 mod 16 in
        match b3 / 16 with
        | 1 => Some (mkTs pusi pid cc None r)
        | 2 => match r with
               | l :: r' => if l =? 183 then Some (mkTs pusi pid cc (Some r') []) else None
               | [] => None
               end
        | 3 => match r with
               | l :: r' => if l <=? 182 then Some (mkTs pusi pid cc (Some (take r' l)) (drop r' l)) else None
               | [] => None
               end
        | _ => None
        end
      else None
  | _ => None
  end.
(** A stream is a sequence of whole packets. *)
Fixpoint read_stream_fuel (n : nat) (s : bytes) : option (list tspkt) :=
  match s with
  | [] => Some []
  | _ =>
      match n with
      | O => None
      | S n' =>
          match read_packet (take s 188), read_stream_fuel n' (drop s 188) with
          | Some p, Some l => Some (p :: l)
          | _, _ => None
          end
      end
  end.
Definition read_stream (s : bytes) : option (list tspkt) := read_stream_fuel (length s) s.

(** ** 2.4.3.4 Adaptation fields (without the length byte): random_access_indicator and the PCR (base, extension).
    Fields other than the PCR are not understood; what follows must be stuffing. *)
Definition is_ff (b : Z) : bool := b =? 255.
Definition read_af (s : bytes) : option (bool * option (Z * Z)) :=
  match s with
  | [] => Some (false, None)
  | f :: r =>
      let ra := 64 <=? f mod 128 in
      match f mod 32 with
      | 0 => if forallb is_ff r then Some (ra, None) else None
      | 16 => match r with
              | b0 :: b1 :: b2 :: b3 :: b4 :: b5 :: r' =>
                  if ((b4 / 2) mod 64 =? 63) && forallb is_ff r'
                  then Some (ra, Some (b0 * 2 ^ 25 + b1 * 2 ^ 17 + b2 * 2 ^ 9 + b3 * 2 + b4 / 128, b4 mod 2 * 256 + b5))
                  else None
              | _ => None
              end
      | _ => None
      end
  end.
(** The PCR of a packet: [Some None] is "well-formed, no PCR". *)
Definition packet_pcr (p : tspkt) : option (option (Z * Z)) :=
  match ts_af p with None => Some None | Some a => match read_af a with Some (_, c) => Some c | None => None end end.
(** The same with the random_access_indicator. *)
Definition packet_mark (p : tspkt) : option (bool * option (Z * Z)) := match ts_af p with None => Some (false, None) | Some a => read_af a end.

(** ** 2.4.3.6 PES packets *)
(** A 33-bit time stamp in five bytes: the 4-bit prefix and the value, if the three marker bits are set. *)
Definition read_stamp (s : bytes) : option (Z * Z) :=
  match s with
  | [a; b; c; d; e] =>
      if (a mod 2 =? 1) && (c mod 2 =? 1) && (e mod 2 =? 1)
      then Some (a / 16, (a / 2) mod 8 * 2 ^ 30 + (b * 128 + c / 2) * 2 ^ 15 + (d * 128 + e / 2))
      else None
  | _ => None
  end.
(** Stream id, PES_packet_length, PTS and DTS (prefix, value), payload. *)
Record pes := mkPes { pes_sid : Z; pes_len : Z; pes_pts : option (Z * Z); pes_dts : option (Z * Z); pes_payload : bytes }.
(** Only the time stamp flags may be set; a DTS comes only with a PTS; the rest of the optional header is stuffing. *)
Definition read_pes (s : bytes) : option pes :=
  match s with
  | 0 :: 0 :: 1 :: sid :: l1 :: l2 :: m :: f :: n :: r =>
      if (m / 64 =? 2) && (n <=? len r) then
        let opt := take r n in
        let pl := drop r n in
        if (f =? 0) && forallb is_ff opt then Some (mkPes sid (l1 * 256 + l2) None None pl)
        else if (f =? 0x80) && (5 <=? n) && forallb is_ff (drop opt 5) then
          match read_stamp (take opt 5) with
          | Some t => Some (mkPes sid (l1 * 256 + l2) (Some t) None pl)
          | None => None
          end
        else if (f =? 0xc0) && (10 <=? n) && forallb is_ff (drop opt 10) then
          match read_stamp (take opt 5), read_stamp (take (drop opt 5) 5) with
          | Some t, Some d => Some (mkPes sid (l1 * 256 + l2) (Some t) (Some d) pl)
          | _, _ => None
          end
        else None
      else None
  | _ => None
  end.

(** ** 2.4.4 Program tables *)
(** The payload of a packet that starts a section: pointer field 0, one section, then stuffing bytes 0xff. Returns
    table id, the 12-bit section length and the section body without its CRC; the CRC must be right. *)
Definition read_section (payload : bytes) : option (Z * Z * bytes) :=
  match payload with
  | 0 :: t :: a :: b :: r =>
      let n := a mod 16 * 256 + b in
      if (128 <=? a) && (4 <=? n) && (n <=? len r) && (n <=? 1021) &&
         (crc_mpeg2 (t :: a :: b :: take r n) =? 0) && forallb is_ff (drop r n)
      then Some (t, n, take r (n - 4)) else None
  | _ => None
  end.
(** PAT section body: transport_stream_id, version and current_next, section numbers 0 of 0, then
    (program_number, PID) pairs. *)
Fixpoint read_pairs (s : bytes) : option (list (Z * Z)) :=
  match s with
  | [] => Some []
  | a :: b :: c :: d :: r =>
      match read_pairs r with Some l => Some ((a * 256 + b, c mod 32 * 256 + d) :: l) | None => None end
  | _ => None
  end.
Definition read_pat (body : bytes) : option (Z * list (Z * Z)) :=
  match body with
  | a :: b :: v :: 0 :: 0 :: r =>
      if v mod 2 =? 1 then match read_pairs r with Some l => Some (a * 256 + b, l) | None => None end else None
  | _ => None
  end.
(** PMT section body: program number, PCR_PID and (stream_type, elementary_PID) entries; descriptors are empty. *)
Fixpoint read_entries (s : bytes) : option (list (Z * Z)) :=
  match s with
  | [] => Some []
  | t :: a :: b :: c :: d :: r =>
      if (c mod 16 =? 0) && (d =? 0)
      then match read_entries r with Some l => Some ((t, a mod 32 * 256 + b) :: l) | None => None end else None
  | _ => None
  end.
Definition read_pmt (body : bytes) : option (Z * Z * list (Z * Z)) :=
  match body with
  | p1 :: p2 :: v :: 0 :: 0 :: c1 :: c2 :: i1 :: i2 :: r =>
      if (v mod 2 =? 1) && (i1 mod 16 =? 0) && (i2 =? 0)
      then match read_entries r with Some l => Some (p1 * 256 + p2, c1 mod 32 * 256 + c2, l) | None => None end else None
  | _ => None
  end.
(** SDT section body (EN 300 468 5.2.3) with one service: transport_stream_id, original_network_id, service_id and
    the descriptor loop, whose length must be exact. *)
Definition read_sdt (body : bytes) : option (Z * Z * Z * bytes) :=
  match body with
  | t1 :: t2 :: v :: 0 :: 0 :: o1 :: o2 :: _ :: s1 :: s2 :: _ :: d1 :: d2 :: r =>
      if (v mod 2 =? 1) && (d1 mod 16 * 256 + d2 =? len r)
      then Some (t1 * 256 + t2, o1 * 256 + o2, s1 * 256 + s2, r) else None
  | _ => None
  end.

(** ** Descriptors (EN 300 468 6.2) *)
(** A descriptor loop as (tag, contents) pairs. *)
Fixpoint read_descs_fuel (n : nat) (s : bytes) : option (list (Z * bytes)) :=
  match s with
  | [] => Some []
  | t :: l :: r =>
      match n with
      | O => None
      | S n' =>
          if l <=? len r then
            match read_descs_fuel n' (drop r l) with Some ds => Some ((t, take r l) :: ds) | None => None end
          else None
      end
  | _ => None
  end.
Definition read_descs (s : bytes) : option (list (Z * bytes)) := read_descs_fuel (length s) s.
(** A counted string. *)
Definition read_counted (s : bytes) : option (bytes * bytes) :=
  match s with l :: r => if l <=? len r then Some (take r l, drop r l) else None | [] => None end.
(** 6.2.33 service_descriptor: service type, provider, service. *)
Definition read_service (c : bytes) : option (Z * bytes * bytes) :=
  match c with
  | ty :: r => match read_counted r with
               | Some (p, r') => match read_counted r' with Some (s, []) => Some (ty, p, s) | _ => None end
               | None => None
               end
  | [] => None
  end.

(** What is on one PID, in order. *)
Definition on_pid (pid : Z) (l : list tspkt) : list tspkt := filter (fun p => ts_pid p =? pid) l.
(** Continuity counters that follow each other. *)
Fixpoint continuous (c : Z) (l : list tspkt) : Prop :=
  match l with [] => True | p :: l' => ts_cc p = c /\ continuous ((c + 1) mod 16) l' end.

(** What the PMT should list for a list of media types (0 video, 1 audio; anything else is skipped): H.264 on PID 0x100,
    ADTS AAC on PID 0x101. *)
Definition media_entries (mt : list Z) : list (Z * Z) :=
  flat_map (fun t => match t with 0 => [(0x1b, 0x100)] | 1 => [(0x0f, 0x101)] | _ => [] end) mt.

(** ** 2.4.3.3 payload_unit_start_indicator: a demultiplexer joins the payloads of one PID from one packet that starts a
    unit to the next; packets before the first such packet are dropped. *)
Fixpoint units_after (cur : bytes) (l : list tspkt) : list bytes :=
  match l with
  | [] => [cur]
  | q :: l' => if ts_pusi q then cur :: units_after (ts_payload q) l' else units_after (cur ++ ts_payload q) l'
  end.
Fixpoint units (l : list tspkt) : list bytes :=
  match l with
  | [] => []
  | q :: l' => if ts_pusi q then units_after (ts_payload q) l' else units l'
  end.
Fixpoint all_pes (l : list bytes) : option (list pes) :=
  match l with
  | [] => Some []
  | b :: l' => match read_pes b, all_pes l' with Some e, Some es => Some (e :: es) | _, _ => None end
  end.
(** The PES packets of one PID of a transport stream. *)
Definition demultiplex (pid : Z) (s : bytes) : option (list pes) :=
  match read_stream s with Some pkts => all_pes (units (on_pid pid pkts)) | None => None end.
