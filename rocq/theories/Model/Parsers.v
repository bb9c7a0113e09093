(** Model of package parser: aac/parser.go, mp3/parser.go, h264/parser.go, parser.go.
    Simplified: the io.Writer is never nil (h264 rejects a nil one, aac would panic on it). *)
From Verif Require Import Base.Go Base.IO Model.Packet.

(** * aac *)

(** aac/parser.go:12-16 Parser and aac/type.go:18-27 mpegCfgInfo. adtsHeader is a scratch buffer of which every
    byte is overwritten before each use (parser.go:89-126), so it is no state. *)
Record aac := mkAac { ac_got : bool; ac_object : Z; ac_rate : Z; ac_chan : Z }.
(** aac/parser.go:19-25 NewParser. *)
Definition new_aac : aac := mkAac false 0 0 0.
(** aac/type.go:11. *)
Definition aac_rates : list Z := [96000; 88200; 64000; 48000; 44100; 32000; 24000; 22050; 16000; 12000; 11025; 8000; 7350].
(** aac/parser.go:45-53 SampleRate. *)
Definition aac_sample_rate (p : aac) : Z :=
  if ac_rate p <? len aac_rates then nth (Z.to_nat (ac_rate p)) aac_rates 0 else 44100.
(** aac/parser.go:57-74 specificInfo. *)
Definition specific_info (p : aac) (src : bytes) : aac * res unit :=
  if len src <? 2 then (p, Err EOther)
  else
    let o := Z.land (Z.shiftr (at_ src 0) 3) 255 in
    let r := Z.lor (u8 (Z.shiftl (Z.land (at_ src 0) 7) 1)) (Z.shiftr (at_ src 1) 7) in
    let c := Z.land (Z.shiftr (at_ src 1) 3) 15 in
    (mkAac true o r c, if r =? 15 then Err EOther else Ok tt).
(** aac/parser.go:83-126: the ADTS header for a frame of n bytes. *)
Definition adts_header (p : aac) (n : Z) : bytes :=
  let frame_len := Z.land (u16 (u16 n + 7)) 8191 in
  [255; 241;
   Z.lor (Z.lor (u8 (Z.shiftl (u8 (ac_object p - 1)) 6)) (u8 (Z.shiftl (ac_rate p) 2))) (Z.shiftr (ac_chan p) 2);
   Z.lor (u8 (Z.shiftl (Z.land (ac_chan p) 3) 6)) (u8 (Z.shiftr frame_len 11));
   u8 (Z.shiftr (Z.land frame_len 2047) 3);
   Z.lor (u8 (u16 (Z.shiftl (Z.land frame_len 7) 5))) 31;
   252].
(** aac/parser.go:77-141 addADTSToFrame. *)
Definition add_adts (p : aac) (src : bytes) : Wm unit :=
  if (len src =? 0) || negb (ac_got p) then wfail EOther
  else w* _ := write (adts_header p (len src)) in write src.
(** aac/parser.go:28-42 Parse. *)
Definition aac_parse (p : aac) (b : bytes) (types : Z) (w : writer) : aac * (writer * res unit) :=
  if len b =? 0 then (p, (w, Err EOther))
  else if types =? 0 then let '(p', r) := specific_info p b in (p', (w, r))
  else if types =? 1 then (p, add_adts p b w)
  else (p, (w, Err EOther)).

(** * mp3: a Parser (mp3/parser.go:8-10) is its sampling frequency *)
(** mp3/parser.go:13-17. *)
Definition new_mp3 : Z := 44100.
(** mp3/parser.go:24. *)
Definition mp3_rates : list Z := [44100; 48000; 32000].
(** mp3/parser.go:27-40 Parse. *)
Definition mp3_parse (p : Z) (src : bytes) : Z * res unit :=
  if len src <? 3 then (p, Err EOther)
  else
    let index := Z.land (Z.shiftr (at_ src 2) 1) 3 in
    if index <? len mp3_rates then (nth (Z.to_nat index) mp3_rates 0, Ok tt) else (p, Err EOther).

(** * h264 *)

(** h264/parser.go:11-14 Parser. *)
Record h264 := mkH264 { h_info : bytes; h_buf : bytes }.
(** h264/parser.go:17-21 NewParser; maxSpsPpsLen (type.go:29) zero bytes, never read before Reset. *)
Definition new_h264 : h264 := mkH264 [] (repeat 0 (Z.to_nat 2048)).
(** h264/type.go:32-33. *)
Definition start_code : bytes := [0; 0; 0; 1].
Definition nalu_aud : bytes := [0; 0; 0; 1; 9; 240].

(** h264/parser.go:49-95 parseSpecificInfo; the fields of sequenceHeader that are never read are left out. *)
Definition parse_specific_info (p : h264) (src : bytes) : h264 * res unit :=
  if len src <? 9 then (p, Err EOther)
  else
    let sps_len := Z.lor (Z.shiftl (at_ src 6) 8) (at_ src 7) in
    if (len src - 8 <? sps_len) || (sps_len <=? 0) then (p, Err EOther)
    else
      match go_slice src 8 (8 + sps_len), go_slice src (8 + sps_len) (len src) with
      | Ok sps, Ok tmp =>
          if len tmp <? 4 then (p, Err EOther)
          else
            let pps_len := Z.lor (Z.shiftl (at_ tmp 1) 8) (at_ tmp 2) in
            if (len tmp - 3 <? pps_len) || (pps_len <=? 0) then (p, Err EOther)
            else (mkH264 (h_info p ++ (start_code ++ sps) ++ start_code ++ drop tmp 3) (h_buf p), Ok tt)
      | _, _ => (p, Panic)
      end.

(** h264/parser.go:98-104 isStartAtNaluHeader. *)
Definition is_start (src : bytes) : bool :=
  if len src <? 4 then false
  else (at_ src 0 =? 0) && (at_ src 1 =? 0) && (at_ src 2 =? 0) && (at_ src 3 =? 1).

(** h264/parser.go:107-122 naluSize. *)
Definition nalu_size (src : bytes) : res Z :=
  if len src <? 4 then Err EOther
  else Ok (fold_left (fun size b => Z.shiftl size 8 + b) (take src 4) 0).

(** h264/parser.go:146-225, the loop of getAnnexbH264, with its variables index, dataSize, hasSpsPps,
    hasWriteSpsPps and the contents of p.spsPps, which the result includes. *)
Fixpoint annexb_loop (fuel : nat) (src info : bytes) (index size : Z) (has wrote : bool) (buf : bytes) (w : writer)
  : bytes * (writer * res unit) :=
  if size <=? 0 then (buf, (w, Ok tt)) else
  match fuel with
  | O => (buf, (w, OutOfFuel))
  | S f =>
      match (let* s := go_slice src index (len src) in nalu_size s) with
      | Ok n =>
          if n <=? 0 then (buf, (w, Err EOther)) else
          let index := index + 4 in
          let size := size - 4 in
          if size <? n then (buf, (w, Err EOther)) else
          match go_at src index, go_slice src index (index + n) with
          | Ok b0, Ok nal =>
              let ty := Z.land b0 31 in
              if ty =? 9 then annexb_loop f src info (index + n) (size - n) has wrote buf w
              else if (ty =? 5) || (ty =? 1) || (ty =? 6) then
                let wr := (ty =? 5) || wrote in
                match (w* _ := (if (ty =? 5) && negb wrote then write (if has then buf else info) else wret tt) in
                       w* _ := write start_code in
                       write nal) w with
                | (w', Ok _) => annexb_loop f src info (index + n) (size - n) has wr buf w'
                | (w', r) => (buf, (w', r))
                end
              else if (ty =? 7) || (ty =? 8) then
                annexb_loop f src info (index + n) (size - n) true wrote (buf ++ start_code ++ nal) w
              else (buf, (w, Err EOther))
          | _, _ => (buf, (w, Panic))
          end
      | Err e => (buf, (w, Err e))
      | Panic => (buf, (w, Panic))
      | OutOfFuel => (buf, (w, OutOfFuel))
      end
  end.
(** h264/parser.go:125-228 getAnnexbH264. *)
Definition get_annexb (p : h264) (src : bytes) (w : writer) : h264 * (writer * res unit) :=
  if len src <? 4 then (p, (w, Err EOther))
  else match write nalu_aud w with
       | (w', Ok _) =>
           let '(buf, wr) := annexb_loop (length src) src (h_info p) 0 (len src) false false [] w' in
           (mkH264 (h_info p) buf, wr)
       | (w', r) => (p, (w', r))
       end.
(** h264/parser.go:24-46 Parse. *)
Definition h264_parse (p : h264) (b : bytes) (seq : bool) (w : writer) : h264 * (writer * res unit) :=
  if len b =? 0 then (p, (w, Err EOther))
  else if seq then let '(p', r) := parse_specific_info p b in (p', (w, r))
  else if is_start b then (p, write b w)
  else get_annexb p b w.

(** * CodecParser *)

(** parser.go:15-19. *)
Record codec := mkCodec { cp_aac : option aac; cp_mp3 : option Z; cp_h264 : option h264 }.
(** parser.go:22-24. *)
Definition new_codec : codec := mkCodec None None None.
Definition or_new {A} (o : option A) (d : A) : A := match o with Some a => a | None => d end.
(** parser.go:27-73 Parse. *)
Definition codec_parse (c : codec) (p : packet) (w : writer) : codec * (writer * res unit) :=
  match p_header p, p_media p with
  | Some _, Some media =>
      if p_type p =? PktVideo then
        match video_of p with
        | None => (c, (w, Panic))
        | Some vh =>
            if v_avc vh then
              let '(h, wr) := h264_parse (or_new (cp_h264 c) new_h264) media (v_seq vh) w in
              (mkCodec (cp_aac c) (cp_mp3 c) (Some h), wr)
            else (c, (w, Err EOther))
        end
      else if p_type p =? PktAudio then
        match audio_of p with
        | None => (c, (w, Panic))
        | Some ah =>
            if a_aac ah then
              let '(a, wr) := aac_parse (or_new (cp_aac c) new_aac) media (a_aactype ah) w in
              (mkCodec (Some a) (cp_mp3 c) (cp_h264 c), wr)
            else if a_mp3 ah then
              let '(m, r) := mp3_parse (or_new (cp_mp3 c) new_mp3) media in
              (mkCodec (cp_aac c) (Some m) (cp_h264 c), (w, r))
            else (c, (w, Err EOther))
        end
      else (c, (w, Err EOther))
  | _, _ => (c, (w, Err EOther))
  end.
(** parser.go:76-86 SampleRate. *)
Definition codec_rate (c : codec) : res Z :=
  match cp_aac c, cp_mp3 c with
  | None, None => Err EOther
  | Some a, _ => Ok (aac_sample_rate a)
  | None, Some m => Ok m
  end.

(** Histories. *)
(** aac.Parser: Parse(b, types, w) calls, each with its writer. *)
Fixpoint aac_run (p : aac) (ops : list (bytes * Z * writer)) : aac * list (writer * res unit) :=
  match ops with
  | [] => (p, [])
  | (b, t, w) :: ops' => let '(p1, r) := aac_parse p b t w in let '(p2, rs) := aac_run p1 ops' in (p2, r :: rs)
  end.
Fixpoint h264_run (p : h264) (ops : list (bytes * bool * writer)) : h264 * list (writer * res unit) :=
  match ops with
  | [] => (p, [])
  | (b, s, w) :: ops' => let '(p1, r) := h264_parse p b s w in let '(p2, rs) := h264_run p1 ops' in (p2, r :: rs)
  end.
Fixpoint mp3_run (p : Z) (ops : list bytes) : Z * list (res unit) :=
  match ops with
  | [] => (p, [])
  | b :: ops' => let '(p1, r) := mp3_parse p b in let '(p2, rs) := mp3_run p1 ops' in (p2, r :: rs)
  end.
Fixpoint codec_run (c : codec) (ops : list (packet * writer)) : codec * list (writer * res unit) :=
  match ops with
  | [] => (c, [])
  | (p, w) :: ops' => let '(c1, r) := codec_parse c p w in let '(c2, rs) := codec_run c1 ops' in (c2, r :: rs)
  end.
