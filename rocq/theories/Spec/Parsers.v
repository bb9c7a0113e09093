(** ADTS (ISO/IEC 14496-3 1.A.2.2), MPEG-1 audio (ISO/IEC 11172-3 2.4.1.3) and H.264 byte stream (ISO/IEC
    14496-10 annex B, 14496-15 5.2) formats, independent of the parsers. *)
From Verif Require Import Base.Go Base.IO Model.Packet.

(** * ADTS: the 56 header bits, most significant first, cut into their fields. *)
Record adts := mkAdts {
  ad_sync : Z; ad_id : Z; ad_layer : Z; ad_noprot : Z; ad_profile : Z; ad_rate : Z; ad_private : Z; ad_chan : Z;
  ad_orig : Z; ad_home : Z; ad_cid : Z; ad_cstart : Z; ad_length : Z; ad_fullness : Z; ad_blocks : Z }.
(** Bits from (counted from the left, of 56) of the given width. *)
Definition field (v from width : Z) : Z := v / 2 ^ (56 - from - width) mod 2 ^ width.
Definition read_adts (s : bytes) : option (adts * bytes) :=
  match s with
  | a :: b :: c :: d :: e :: f :: g :: rest =>
      let v := be_val [a; b; c; d; e; f; g] in
      Some (mkAdts (field v 0 12) (field v 12 1) (field v 13 2) (field v 15 1) (field v 16 2) (field v 18 4)
                   (field v 22 1) (field v 23 3) (field v 26 1) (field v 27 1) (field v 28 1) (field v 29 1)
                   (field v 30 13) (field v 43 11) (field v 54 2), rest)
  | _ => None
  end.

(** AudioSpecificConfig (14496-3 1.6.2.1): five bits of object type, four of frequency index, four of channel
    configuration. *)
Definition config_bits (b0 b1 : Z) : Z * Z * Z :=
  let v := b0 * 256 + b1 in (v / 2048, v / 128 mod 16, v / 8 mod 16).
(** Table 1.18: sampling frequencies. *)
Definition frequency (index : Z) : option Z :=
  match index with
  | 0 => Some 96000 | 1 => Some 88200 | 2 => Some 64000 | 3 => Some 48000 | 4 => Some 44100 | 5 => Some 32000
  | 6 => Some 24000 | 7 => Some 22050 | 8 => Some 16000 | 9 => Some 12000 | 10 => Some 11025 | 11 => Some 8000
  | 12 => Some 7350 | _ => None
  end.

(** * MPEG-1 audio frame header: third byte = bitrate_index(4) sampling_frequency(2) padding(1) private(1). *)
Definition mp3_frequency (b2 : Z) : option Z :=
  match b2 / 4 mod 4 with 0 => Some 44100 | 1 => Some 48000 | 2 => Some 32000 | _ => None end.
Definition mp3_padding (b2 : Z) : Z := b2 / 2 mod 2.

(** * H.264 *)
(** nal_unit_type of a NAL unit. *)
Definition nal_type (n : bytes) : Z := match n with b :: _ => b mod 32 | [] => 0 end.
(** Length-prefixed (AVCC) sequence of NAL units, four-byte lengths. *)
Definition avcc (nals : list bytes) : bytes := concat (map (fun n => be32 (len n) ++ n) nals).
(** Byte-stream form: each unit behind a start code. *)
Definition annexb (nals : list bytes) : bytes := concat (map (fun n => [0; 0; 0; 1] ++ n) nals).
Definition is_slice_or_sei (n : bytes) : bool := (nal_type n =? 1) || (nal_type n =? 5) || (nal_type n =? 6).
Definition is_pset (n : bytes) : bool := (nal_type n =? 7) || (nal_type n =? 8).
Definition is_idr (n : bytes) : bool := nal_type n =? 5.
Definition is_supported (n : bytes) : bool := is_slice_or_sei n || is_pset n || (nal_type n =? 9).
(** A NAL unit AVCC can carry. *)
Definition good_nal (n : bytes) : Prop := n <> [] /\ is_bytes n /\ len n < 2 ^ 32.

(** The byte stream for an access unit: delimiter, slices and SEI in order; immediately before the first IDR the
    parameter sets of this access unit that precede it, or else the cached ones. *)
Definition delimiter : bytes := [0; 0; 0; 1; 9; 240].
Inductive converts (cached : bytes) : list bytes -> bytes -> Prop :=
| Cv_no_idr nals : (forall n, In n nals -> is_idr n = false) ->
    converts cached nals (delimiter ++ annexb (filter is_slice_or_sei nals))
| Cv_idr pre idr post : (forall n, In n pre -> is_idr n = false) -> is_idr idr = true ->
    converts cached (pre ++ idr :: post)
      (delimiter ++ annexb (filter is_slice_or_sei pre) ++
       (if existsb is_pset pre then annexb (filter is_pset pre) else cached) ++
       annexb (filter is_slice_or_sei (idr :: post))).

(** Data that looks like a byte stream already. *)
Definition starts_0001 (b : bytes) : Prop := exists rest, b = 0 :: 0 :: 0 :: 1 :: rest.
(** Data that does not begin with a length-prefixed unit of a supported type: truncated, of length zero, or of
    another type. *)
Definition bad_tail (tail : bytes) : Prop :=
  tail <> [] /\ forall n rest, good_nal n -> is_supported n = true -> tail <> be32 (len n) ++ n ++ rest.

(** A sequence header that can be read: an AVCDecoderConfigurationRecord (14496-15 5.2.4.1) with a non-empty first
    SPS, a non-empty first PPS, and the bytes that follow it. *)
Inductive header_of (sps pps ext : bytes) : bytes -> Prop :=
| Hd_record v p c l ls ns np : 0 < len sps < 2 ^ 16 -> 0 < len pps < 2 ^ 16 ->
    header_of sps pps ext ([v; p; c; l; ls; ns] ++ be16 (len sps) ++ sps ++ [np] ++ be16 (len pps) ++ pps ++ ext).

(** * Codec selection *)
(** What a packet is for: its header and media present, its type and codec known; [RNoIface] when the header does
    not implement the interface its type calls for. *)
Inductive route := RNone | RNoIface | RAvc (seq : bool) (media : bytes) | RAac (types : Z) (media : bytes) | RMp3 (media : bytes).
Definition route_of (p : packet) : route :=
  match p_header p, p_media p with
  | Some h, Some m =>
      if p_type p =? PktVideo then
        match h_video h with Some v => if v_avc v then RAvc (v_seq v) m else RNone | None => RNoIface end
      else if p_type p =? PktAudio then
        match h_audio h with Some a => if a_aac a then RAac (a_aactype a) m else if a_mp3 a then RMp3 m else RNone | None => RNoIface end
      else RNone
  | _, _ => RNone
  end.

(** The calls, of a history of Parse calls each with its writer, that are for one codec. *)
Definition avc_ops (ops : list (packet * writer)) : list (bytes * bool * writer) :=
  flat_map (fun q => match route_of (fst q) with RAvc s m => [(m, s, snd q)] | _ => [] end) ops.
Definition aac_ops (ops : list (packet * writer)) : list (bytes * Z * writer) :=
  flat_map (fun q => match route_of (fst q) with RAac t m => [(m, t, snd q)] | _ => [] end) ops.
Definition mp3_ops (ops : list (packet * writer)) : list bytes :=
  flat_map (fun q => match route_of (fst q) with RMp3 m => [m] | _ => [] end) ops.
(** The results of a history at the packets selected. *)
Definition results_at {A B} (sel : A -> bool) (ops : list A) (rs : list B) : list B :=
  map snd (filter (fun q => sel (fst q)) (combine ops rs)).
Definition for_avc (q : packet * writer) : bool := match route_of (fst q) with RAvc _ _ => true | _ => false end.
Definition for_aac (q : packet * writer) : bool := match route_of (fst q) with RAac _ _ => true | _ => false end.
Definition for_mp3 (q : packet * writer) : bool := match route_of (fst q) with RMp3 _ => true | _ => false end.

(** * Sampling rates reported after a history *)
Fixpoint last_some {A} (l : list (option A)) : option A :=
  match l with
  | [] => None
  | x :: l' => match last_some l' with Some y => Some y | None => x end
  end.
(** The frequency index of a sequence header of at least two bytes. *)
Definition config_index (o : bytes * Z * writer) : option Z :=
  match o with
  | (b0 :: b1 :: _, t, _) => if t =? 0 then Some (snd (fst (config_bits b0 b1))) else None
  | _ => None
  end.
(** That of the last such header, 44100 Hz for indices without a frequency; 96000 Hz (index 0) before. *)
Definition aac_rate_after (h : list (bytes * Z * writer)) : Z :=
  match last_some (map config_index h) with
  | None => 96000
  | Some i => match frequency i with Some r => r | None => 44100 end
  end.
(** What the library takes for the frequency of a frame: bits 1 and 2 of the third byte. *)
Definition mp3_rate_read (b : bytes) : option Z :=
  match b with
  | _ :: _ :: b2 :: _ => nth_error [44100; 48000; 32000] (Z.to_nat (b2 / 2 mod 4))
  | _ => None
  end.
Definition mp3_rate_after (h : list bytes) : Z :=
  match last_some (map mp3_rate_read h) with None => 44100 | Some r => r end.
