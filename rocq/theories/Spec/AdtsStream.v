(** An AAC decoder that reads an ADTS stream (ISO/IEC 14496-3 1.A.2.1), independent of the parser's code. *)
From Verif Require Import Base.Go Spec.Parsers.

(** One frame behind the other. Every header has the syncword, layer 0, no CRC and one block; aac_frame_length, which includes the
    seven bytes of the header, says where the next frame begins. A frame: object type, frequency index, channels, raw data. *)
Fixpoint read_frames (fuel : nat) (s : bytes) : option (list (Z * Z * Z * bytes)) :=
  match s, fuel with
  | [], _ => Some []
  | _, O => None
  | _, S fuel' =>
      match read_adts s with
      | None => None
      | Some (h, rest) =>
          let n := ad_length h - 7 in
          if (ad_sync h =? 4095) && (ad_layer h =? 0) && (ad_noprot h =? 1) && (ad_blocks h =? 0) && (0 <=? n) && (n <=? len rest)
          then match read_frames fuel' (drop rest n) with
               | Some fs => Some ((ad_profile h + 1, ad_rate h, ad_chan h, take rest n) :: fs)
               | None => None
               end
          else None
      end
  end.
Definition read_adts_stream (s : bytes) : option (list (Z * Z * Z * bytes)) := read_frames (length s) s.

(** The packets of an AAC stream for the parser (data; 0 for a configuration, 1 for a frame), and the frames in it, each with the
    configuration that came last. *)
Inductive aac_published : option (Z * Z * Z) -> list (bytes * Z) -> list (Z * Z * Z * bytes) -> Prop :=
| Ap_end cfg : aac_published cfg [] []
| Ap_config cfg b0 b1 more o i c ps fs : byte b0 -> byte b1 -> config_bits b0 b1 = (o, i, c) -> 1 <= o <= 4 -> i <= 12 -> c <= 7 ->
    aac_published (Some (o, i, c)) ps fs -> aac_published cfg ((b0 :: b1 :: more, 0) :: ps) fs
| Ap_frame o i c raw ps fs : 1 <= len raw <= 8184 -> aac_published (Some (o, i, c)) ps fs ->
    aac_published (Some (o, i, c)) ((raw, 1) :: ps) ((o, i, c, raw) :: fs).
