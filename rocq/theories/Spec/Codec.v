(** What converting a stream of demuxed packets gives, packet by packet, and the sampling rate known after them. *)
From Verif Require Import Base.Go Base.IO Model.Packet Spec.Parsers Spec.H264.

(** What is known of the stream: H.264 parameter sets; the last AAC configuration (object type, frequency index, channels),
    if any, and whether there was any AAC packet; the sampling rate of MP3, if there was any. *)
Record known := mkKnown { k_sets : bytes; k_aac : bool; k_config : option (Z * Z * Z); k_mp3 : option Z }.
Definition nothing : known := mkKnown [] false None None.

(** The 56 bits of the ADTS header (14496-3 1.A.2.2) of a frame of n bytes, as a number: syncword, ID 0, layer 0, no CRC; profile;
    sampling_frequency_index; private_bit and channel_configuration; four zeros; aac_frame_length; buffer fullness; one block.
    Object types, channels and lengths that do not fit lose their high bits; a fourth channel bit is the private bit. *)
Definition adts_number (o i c n : Z) : Z :=
  0xfff1 * 2 ^ 40 + (o - 1) mod 4 * 2 ^ 38 + i * 2 ^ 34 + c * 2 ^ 30 + (n + 7) mod 8192 * 2 ^ 13 + 2047 * 2 ^ 2.
Definition seven_bytes (v : Z) : bytes := map (fun k => v / 256 ^ k mod 256) [6; 5; 4; 3; 2; 1; 0].
Definition adts_frame (o i c : Z) (frame : bytes) : bytes := seven_bytes (adts_number o i c (len frame)) ++ frame.

Inductive verdict := Accepted | Refused | Crashed.
Inductive codec_converted (k : known) : route -> known -> bytes -> verdict -> Prop :=
| K_none : codec_converted k RNone k [] Refused
| K_no_interface : codec_converted k RNoIface k [] Crashed
| K_avc b seq sets out ok : converted (k_sets k) b seq sets out ok ->
    codec_converted k (RAvc seq b) (mkKnown sets (k_aac k) (k_config k) (k_mp3 k)) out (if ok then Accepted else Refused)
| K_config b0 b1 rest o i c : config_bits b0 b1 = (o, i, c) ->
    codec_converted k (RAac 0 (b0 :: b1 :: rest)) (mkKnown (k_sets k) true (Some (o, i, c)) (k_mp3 k)) [] (if i =? 15 then Refused else Accepted)
| K_frame frame o i c : frame <> [] -> k_config k = Some (o, i, c) ->
    codec_converted k (RAac 1 frame) (mkKnown (k_sets k) true (k_config k) (k_mp3 k)) (adts_frame o i c frame) Accepted
| K_aac_refused t b : (t = 0 -> len b < 2) -> (t = 1 -> b = [] \/ k_config k = None) ->
    codec_converted k (RAac t b) (mkKnown (k_sets k) true (k_config k) (k_mp3 k)) [] Refused
| K_mp3 b r : mp3_rate_read b = Some r -> codec_converted k (RMp3 b) (mkKnown (k_sets k) (k_aac k) (k_config k) (Some r)) [] Accepted
| K_mp3_refused b : mp3_rate_read b = None ->
    codec_converted k (RMp3 b) (mkKnown (k_sets k) (k_aac k) (k_config k) (Some (match k_mp3 k with Some r => r | None => 44100 end))) [] Refused.

Inductive codec_stream : known -> list packet -> known -> list (bytes * verdict) -> Prop :=
| Ks_nil k : codec_stream k [] k []
| Ks_cons k k1 k2 p ps out v outs : codec_converted k (route_of p) k1 out v -> codec_stream k1 ps k2 outs ->
    codec_stream k (p :: ps) k2 ((out, v) :: outs).

(** The sampling rate reported: that of AAC if there was any AAC packet, else that of MP3. *)
Definition known_rate (k : known) : option Z :=
  if k_aac k then
    Some (match k_config k with
          | None => 96000
          | Some (_, i, _) => match frequency i with Some r => r | None => 44100 end
          end)
  else k_mp3 k.
