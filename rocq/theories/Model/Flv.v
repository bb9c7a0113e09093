(** Model of container/flv: tag.go, type.go, demuxer.go, muxer.go, mixer.go. *)
From Verif Require Import Base.Go Base.IO Model.AmfTypes Model.Amf0 Model.Metadata Model.Packet.

(** tag.go:20-106 mediaTag (the flvTag part, tag.go:12-17, is never read or written by the package). *)
Record tag := mkTag {
  t_format : Z; t_rate : Z; t_size : Z; t_stype : Z; t_aactype : Z;
  t_frame : Z; t_codec : Z; t_avctype : Z; t_cts : Z }.
Definition tag0 : tag := mkTag 0 0 0 0 0 0 0 0 0.

(** type.go:4-11, 14-19, 22-34, 45, 48-63. *)
Definition AvcSeqHdr := 0. Definition AvcNalu := 1. Definition AvcEndOfSeq := 2.
Definition AacSeqHdr := 0.
Definition KeyFrame := 1. Definition InterFrame := 2.
Definition AvcH264 := 7. Definition SoundMP3 := 2. Definition SoundAAC := 10.

(** tag.go:134-136, one round of the loop: int32 arithmetic. *)
Definition cts_step (c b : Z) : Z := i32 (i32 (Z.shiftl c 8) + b).

(** tag.go:115-141 parseVideoHeader. *)
Definition parse_video (t : tag) (b : bytes) : tag * res Z :=
  if len b <? 5 then (t, Err EOther)
  else
    let flags := at_ b 0 in
    let t := mkTag (t_format t) (t_rate t) (t_size t) (t_stype t) (t_aactype t)
                   (Z.shiftr flags 4) (Z.land flags 15) (t_avctype t) (t_cts t) in
    if (t_frame t =? InterFrame) || (t_frame t =? KeyFrame) then
      let c := cts_step (cts_step (cts_step (t_cts t) (at_ b 2)) (at_ b 3)) (at_ b 4) in
      (mkTag (t_format t) (t_rate t) (t_size t) (t_stype t) (t_aactype t)
             (t_frame t) (t_codec t) (at_ b 1) c, Ok 5)
    else (t, Ok 1).

(** tag.go:144-171 parseAudioHeader. *)
Definition parse_audio (t : tag) (b : bytes) : tag * res Z :=
  if len b <? 2 then (t, Err EOther)
  else
    let flags := at_ b 0 in
    let t := mkTag (Z.shiftr flags 4) (Z.land (Z.shiftr flags 2) 3) (Z.land (Z.shiftr flags 1) 1) (Z.land flags 1)
                   (t_aactype t) (t_frame t) (t_codec t) (t_avctype t) (t_cts t) in
    if t_format t =? SoundAAC then
      (mkTag (t_format t) (t_rate t) (t_size t) (t_stype t) (at_ b 1) (t_frame t) (t_codec t) (t_avctype t) (t_cts t), Ok 2)
    else if t_format t =? SoundMP3 then (t, Ok 1)
    else (t, Err EOther).

(** tag.go:237-249 ParseMediaTagHeader. *)
Definition parse_media_tag_header (t : tag) (b : bytes) (ty : Z) : tag * res Z :=
  if ty =? PktVideo then parse_video t b
  else if ty =? PktAudio then parse_audio t b
  else if ty =? PktMetadata then (t, Ok 0)
  else (t, Err EOther).

(** tag.go:173-196, the audio accessors of *Tag. *)
Definition tag_audio (t : tag) : ahdr :=
  mkAH (t_format t) (t_aactype t) (t_format t =? SoundAAC) (t_format t =? SoundMP3) (t_aactype t =? AacSeqHdr).
(** tag.go:198-234, the video accessors of *Tag. *)
Definition tag_video (t : tag) : vhdr :=
  mkVH (t_frame t =? KeyFrame) (t_frame t =? InterFrame)
       ((t_frame t =? KeyFrame) && (t_avctype t =? AvcSeqHdr))
       ((t_frame t =? KeyFrame) && (t_avctype t =? AvcEndOfSeq))
       (t_codec t =? AvcH264) (t_codec t)
       (if t_avctype t =? AvcNalu then t_cts t else 0).
(** A *Tag as a packet header: it implements both interfaces. *)
Definition tag_header (t : tag) : hdr := mkH (Some (tag_video t)) (Some (tag_audio t)).

(** demuxer.go:18-31 Demux. p.Data[n:] cannot be out of range (n <= len, checked by the parsers) except that
    the model still says so explicitly. *)
Definition demux (p : packet) : packet * res unit :=
  match parse_media_tag_header tag0 (p_data p) (p_type p) with
  | (t, Ok n) => if len (p_data p) <? n then (p, Panic) else (set_demuxed (tag_header t) (drop (p_data p) n) p, Ok tt)
  | (_, Err e) => (p, Err e)
  | (_, Panic) => (p, Panic)
  | (_, OutOfFuel) => (p, OutOfFuel)
  end.

(** * Muxer *)

(** muxer.go:18-21: the two scratch buffers. *)
Record muxer := mkMx { x_flv : bytes; x_tag : bytes }.
(** muxer.go:24-34 newMuxer. copy(tagHdr[8:10], {0,0,0}) copies two zeros over zeros. *)
Definition new_muxer : muxer := mkMx [70; 76; 86; 1; 0; 0; 0; 0; 9; 0; 0; 0; 0] (repeat 0 11).

(** binary.BigEndian.PutUint32(s[i:i+4], v); the slices used here are always in range. *)
Definition put32 (s : bytes) (i v : Z) : bytes := take s i ++ be32 v ++ drop s (i + 4).
(** s[i] = b. *)
Definition put_byte (s : bytes) (i b : Z) : bytes := take s i ++ b :: drop s (i + 1).

(** muxer.go:41-50, the loop of header. *)
Fixpoint header_flags (s : bytes) (mt : list Z) : bytes * res unit :=
  match mt with
  | [] => (s, Ok tt)
  | v :: mt' =>
      if v =? PktVideo then header_flags (put_byte s 4 (Z.lor (at_ s 4) 1)) mt'
      else if v =? PktAudio then header_flags (put_byte s 4 (Z.lor (at_ s 4) 4)) mt'
      else (s, Err EOther)
  end.
(** muxer.go:37-53 header. *)
Definition mx_header (m : muxer) (mt : list Z) : muxer * res bytes :=
  let s := put_byte (x_flv m) 4 (Z.land (at_ (x_flv m) 4) 250) in
  match header_flags s mt with
  | (s', Ok _) => (mkMx s' (x_tag m), Ok s')
  | (s', Err e) => (mkMx s' (x_tag m), Err e)
  | (s', Panic) => (mkMx s' (x_tag m), Panic)
  | (s', OutOfFuel) => (mkMx s' (x_tag m), OutOfFuel)
  end.

(** muxer.go:100-119, the switch of mux: tag type and payload. *)
Definition mux_select (p : packet) : res (Z * bytes) :=
  if p_type p =? PktVideo then Ok (TagVideo, p_data p)
  else if p_type p =? PktAudio then Ok (TagAudio, p_data p)
  else if p_type p =? PktMetadata then
    let* d := snd (del_meta_header decode0 (fresh (bytes_reader [])) (p_data p)) in Ok (TagScriptDataAMF0, d)
  else Err EOther.

(** muxer.go:97-155 mux: the muxer, packet and writer afterwards, and the result. p.Data is replaced for metadata. *)
Definition mux (m : muxer) (p : packet) (pts : Z) (w : writer) : muxer * packet * (writer * res unit) :=
  match mux_select p with
  | Ok (ty, data) =>
      let p := set_data data p in
      let n := u32 (len data) in
      let t1 := put32 (x_tag m) 0 (u32 (u32 (Z.shiftl ty 24) + Z.land n 16777215)) in
      let t2 := put32 t1 4 (u32 (u32 (Z.shiftl (Z.land pts 16777215) 8) + Z.shiftr pts 24)) in
      match write t2 w with
      | (w1, Ok _) =>
          match write data w1 with
          | (w2, Ok _) =>
              let t3 := put32 t2 0 (u32 (11 + n)) in
              (mkMx (x_flv m) t3, p, write (take t3 4) w2)
          | (w2, r) => (mkMx (x_flv m) t2, p, (w2, r))
          end
      | (w1, r) => (mkMx (x_flv m) t2, p, (w1, r))
      end
  | Err e => (m, p, (w, Err e))
  | Panic => (m, p, (w, Panic))
  | OutOfFuel => (m, p, (w, OutOfFuel))
  end.

(** muxer.go:56-94 metadata. The pool and d buffers are bytes.Buffers, which never fail. *)
Definition mx_metadata (m : muxer) (md : list (bytes * tree)) : muxer * res bytes :=
  let '(pool, r) :=
    (w* _ := encode0 (TStr set_data_frame) in
     w* _ := encode0 (TStr on_metadata) in
     encode0 (TObj md)) buffer0 in
  match r with
  | Ok _ =>
      let '(m', _, (d, r2)) := mux m (mkP PktMetadata 0 0 0 None (w_out pool) None) 0 buffer0 in
      (m', match r2 with Ok _ => Ok (w_out d) | Err e => Err e | Panic => Panic | OutOfFuel => OutOfFuel end)
  | Err e => (m, Err e)
  | Panic => (m, Panic)
  | OutOfFuel => (m, OutOfFuel)
  end.

(** * Mixer *)

(** mixer.go:11-23: Mixer and its cache; the io.Writer is kept apart. The buffers are their contents. *)
Record mixer := mkMix { mx_muxer : muxer; mx_meta : bytes; mx_avc : bytes; mx_aac : bytes; mx_types : Z }.
(** mixer.go:26-37 NewMixer. *)
Definition new_mixer : mixer := mkMix new_muxer [] [] [] new_types.

(** mixer.go:45-47 Mux. *)
Definition mixer_mux (x : mixer) (p : packet) (pts : Z) (w : writer) : mixer * packet * (writer * res unit) :=
  let '(m, p', wr) := mux (mx_muxer x) p pts w in
  (mkMix m (mx_meta x) (mx_avc x) (mx_aac x) (mx_types x), p', wr).

(** mixer.go:50-64 SaveMetadata. *)
Definition save_metadata (x : mixer) (md : list (bytes * tree)) : mixer * res unit :=
  let '(m, r) := mx_metadata (mx_muxer x) md in
  match r with
  | Ok b => (mkMix m b (mx_avc x) (mx_aac x) (mx_types x), Ok tt)
  | Err e => (mkMix m [] (mx_avc x) (mx_aac x) (mx_types x), Err e)
  | Panic => (mkMix m [] (mx_avc x) (mx_aac x) (mx_types x), Panic)
  | OutOfFuel => (mkMix m [] (mx_avc x) (mx_aac x) (mx_types x), OutOfFuel)
  end.
(** mixer.go:67-73 SaveAVCHeader. *)
Definition save_avc_header (x : mixer) (p : packet) : mixer * packet * res unit :=
  let '(m, p', (w, r)) := mux (mx_muxer x) p 0 buffer0 in
  (mkMix m (mx_meta x) (w_out w) (mx_aac x) (types_is_video (mx_types x)), p', r).
(** mixer.go:76-82 SaveAACHeader. *)
Definition save_aac_header (x : mixer) (p : packet) : mixer * packet * res unit :=
  let '(m, p', (w, r)) := mux (mx_muxer x) p 0 buffer0 in
  (mkMix m (mx_meta x) (mx_avc x) (w_out w) (types_is_audio (mx_types x)), p', r).

(** mixer.go:103-107 and alike: write a cache if it is not empty. *)
Definition write_cache (b : bytes) : Wm unit := if 0 <? len b then write b else wret tt.
(** mixer.go:85-127 SetFlvHeader. *)
Definition set_flv_header (x : mixer) (w : writer) : mixer * (writer * res unit) :=
  let '(m, r) := mx_header (mx_muxer x) (types_to_slice (mx_types x)) in
  let x' := mkMix m (mx_meta x) (mx_avc x) (mx_aac x) (mx_types x) in
  match r with
  | Ok h => (x', (w* _ := write h in
                  w* _ := write_cache (mx_meta x) in
                  w* _ := write_cache (mx_avc x) in
                  write_cache (mx_aac x)) w)
  | Err e => (x', (w, Err e))
  | Panic => (x', (w, Panic))
  | OutOfFuel => (x', (w, OutOfFuel))
  end.

(** Histories of one Mixer. SetWriter (mixer.go:40-42) replaces the writer. *)
Inductive flv_op :=
| FSaveMeta (md : list (bytes * tree)) | FSaveAVC (p : packet) | FSaveAAC (p : packet)
| FMux (p : packet) (pts : Z) | FHeader | FSetWriter (w : writer).
Definition flv_step (s : mixer * writer) (o : flv_op) : mixer * writer * res unit :=
  let '(x, w) := s in
  match o with
  | FSaveMeta md => let '(x', r) := save_metadata x md in (x', w, r)
  | FSaveAVC p => let '(x', _, r) := save_avc_header x p in (x', w, r)
  | FSaveAAC p => let '(x', _, r) := save_aac_header x p in (x', w, r)
  | FMux p pts => let '(x', _, (w', r)) := mixer_mux x p pts w in (x', w', r)
  | FHeader => let '(x', (w', r)) := set_flv_header x w in (x', w', r)
  | FSetWriter w' => (x, w', Ok tt)
  end.
Fixpoint flv_run (s : mixer * writer) (os : list flv_op) : mixer * writer * list (res unit) :=
  match os with
  | [] => (s, [])
  | o :: os' => let '(s1, r) := flv_step s o in let '(s2, rs) := flv_run s1 os' in (s2, r :: rs)
  end.
