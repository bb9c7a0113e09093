(** The FLV file format (Adobe, "Video File Format Specification" v10, annex E), independent of the muxer. *)
From Coq Require Import String.
From Verif Require Import Base.Go Base.IO Model.AmfTypes Model.Packet Model.Flv Spec.Amf Spec.Gop.

(** A tag as an FLV reader sees it. *)
Record ftag := mkFT { f_type : Z; f_time : Z; f_stream : Z; f_data : bytes; f_prev : Z }.

(** Read one tag: type, 24-bit data size, 24-bit timestamp and 8 bits of timestamp extension, 24-bit stream
    id, the data, and the 32-bit PreviousTagSize. None if the input is too short. *)
Definition read_tag (s : bytes) : option (ftag * bytes) :=
  match s with
  | ty :: s1 :: s2 :: s3 :: t1 :: t2 :: t3 :: tx :: i1 :: i2 :: i3 :: rest =>
      let size := s1 * 65536 + s2 * 256 + s3 in
      match skipn (Z.to_nat size) rest with
      | p1 :: p2 :: p3 :: p4 :: rest' =>
          Some (mkFT ty (tx * 16777216 + t1 * 65536 + t2 * 256 + t3) (i1 * 65536 + i2 * 256 + i3)
                     (firstn (Z.to_nat size) rest) (p1 * 16777216 + p2 * 65536 + p3 * 256 + p4), rest')
      | _ => None
      end
  | _ => None
  end.
(** The whole input is a sequence of tags. *)
Inductive reads_tags : bytes -> list ftag -> Prop :=
| RT_nil : reads_tags [] []
| RT_cons s t rest ts : read_tag s = Some (t, rest) -> reads_tags rest ts -> reads_tags s (t :: ts).

(** The tag an FLV file should contain for data d of the given type and time. *)
Definition tag_for (ty time : Z) (d : bytes) : ftag := mkFT ty time 0 d (11 + len d).
Definition tag_number (pkt_type : Z) : Z := if pkt_type =? 0 then 9 else if pkt_type =? 1 then 8 else 18.

(** "@setDataFrame" as an AMF0 string. *)
Definition frame_header : bytes := [2; 0; 13] ++ str "@setDataFrame".
(** [payload p d]: d is what the tag for p should carry: the data itself, for metadata without the RTMP
    command @setDataFrame. Metadata starts with an AMF0 string. *)
Inductive payload (p : packet) : bytes -> Prop :=
| Pl_av : p_type p = 0 \/ p_type p = 1 -> payload p (p_data p)
| Pl_meta_rtmp rest : p_type p = 2 -> p_data p = frame_header ++ rest -> payload p rest
| Pl_meta s rest : p_type p = 2 -> 0 < len s < 65536 -> s <> str "@setDataFrame" ->
    p_data p = 2 :: be16 (len s) ++ s ++ rest -> payload p (p_data p).

(** * Header block *)
Definition sel_meta (o : flv_op) : bool := match o with FSaveMeta _ => true | _ => false end.
Definition sel_avc (o : flv_op) : bool := match o with FSaveAVC _ => true | _ => false end.
Definition sel_aac (o : flv_op) : bool := match o with FSaveAAC _ => true | _ => false end.
(** The nine header bytes and PreviousTagSize0: signature, version 1, flags, header size 9. *)
Definition flv_signature (video audio : bool) : bytes :=
  [70; 76; 86; 1; (if audio then 4 else 0) + (if video then 1 else 0); 0; 0; 0; 9; 0; 0; 0; 0].
(** [saved o ts]: the tags the header block should contain for the save operation o: one tag at time 0, or
    none if the packet was of no FLV type. *)
Inductive saved : flv_op -> list ftag -> Prop :=
| Sa_avc p d : payload p d -> len d < 2 ^ 24 -> saved (FSaveAVC p) [tag_for (tag_number (p_type p)) 0 d]
| Sa_aac p d : payload p d -> len d < 2 ^ 24 -> saved (FSaveAAC p) [tag_for (tag_number (p_type p)) 0 d]
| Sa_avc_none p : ~ 0 <= p_type p <= 2 -> saved (FSaveAVC p) []
| Sa_aac_none p : ~ 0 <= p_type p <= 2 -> saved (FSaveAAC p) []
| Sa_meta md s : ok0 (TObj md) -> wire0 (TObj md) = s -> len s < 2 ^ 24 - 13 ->
    saved (FSaveMeta md) [tag_for 18 0 ([2; 0; 10] ++ str "onMetaData" ++ s)].
(** The tags for the latest such operation; none if there was no such operation. *)
Definition saved_last (o : option flv_op) (ts : list ftag) : Prop :=
  match o with None => ts = [] | Some op => saved op ts end.

(** * Tag data headers (annex E.4.2, E.4.3) *)
Definition be24_val (a b c : Z) : Z := a * 65536 + b * 256 + c.
(** What Demux should produce for the data of a packet: header answers and media bytes. *)
Inductive demuxes (ty : Z) : bytes -> vhdr -> ahdr -> bytes -> Prop :=
| Dx_video b0 b1 b2 b3 b4 m a : ty = 0 -> b0 / 16 = 1 \/ b0 / 16 = 2 ->
    demuxes ty (b0 :: b1 :: b2 :: b3 :: b4 :: m)
      (mkVH (b0 / 16 =? 1) (b0 / 16 =? 2) ((b0 / 16 =? 1) && (b1 =? 0)) ((b0 / 16 =? 1) && (b1 =? 2))
            (b0 mod 16 =? 7) (b0 mod 16) (if b1 =? 1 then be24_val b2 b3 b4 else 0)) a m
| Dx_other b0 m a : ty = 0 -> b0 / 16 <> 1 -> b0 / 16 <> 2 -> 4 <= len m ->
    demuxes ty (b0 :: m) (mkVH false false false false (b0 mod 16 =? 7) (b0 mod 16) 0) a m
| Dx_aac b0 b1 m v : ty = 1 -> b0 / 16 = 10 -> demuxes ty (b0 :: b1 :: m) v (mkAH 10 b1 true false (b1 =? 0)) m
| Dx_mp3 b0 m v : ty = 1 -> b0 / 16 = 2 -> m <> [] -> demuxes ty (b0 :: m) v (mkAH 2 0 false true true) m
| Dx_meta m v a : ty = 2 -> demuxes ty m v a m.
