(** Model of container/ts/mixer.go with memory: packet.Packet.Media as a slice of an array, and the three
    bytes.Buffer caches of a Mixer, whose arrays the media slices of packets come to share. The other models give
    every packet its own bytes; this one follows parser/aac/parser.go, parser/h264/parser.go, parser/parser.go and
    container/ts/muxer.go again, reading the source from memory at the moment the code reads it. *)
From Verif Require Import Base.Go Base.IO Model.AmfTypes Model.Packet Model.Parsers Model.Ts.

(** * Memory *)

(** The byte arrays allocated so far; an array is named by its position and has its capacity as length. *)
Definition mem := list bytes.
Definition arr (m : mem) (a : nat) : bytes := nth a m [].
Fixpoint put_arr (m : mem) (a : nat) (s : bytes) : mem :=
  match m, a with
  | [], _ => []
  | _ :: m', O => s :: m'
  | x :: m', S a' => x :: put_arr m' a' s
  end.
(** A slice a[0:n] of an array. Simplified: every slice starts at the beginning of its array. bytes.Buffer.Bytes
    does so here, since the caches are never read from; a slice from Demux that starts later in its array is
    modelled as the array from there on, which is all that its holder can reach through it. *)
Record sl := mkSl { s_arr : nat; s_len : Z }.
Definition rd (m : mem) (s : sl) : bytes := take (arr m (s_arr s)) (s_len s).
(** bytes.Buffer: the array and the length written. The read offset is 0, since the mixer never reads. *)
Record buf := mkB { b_arr : nat; b_len : Z }.
(** Buffer.Reset keeps the array. *)
Definition breset (b : buf) : buf := mkB (b_arr b) 0.
(** Buffer.Bytes. *)
Definition bbytes (b : buf) : sl := mkSl (b_arr b) (b_len b).
(** Buffer.Write: in place when the capacity allows, otherwise into a new array. The capacity of the new array
    depends on the Go release: [pol old needed] is the runtime's choice, at least what is needed. The panic for a
    buffer too large for memory is not modelled. *)
Definition bput (pol : Z -> Z -> Z) (d : bytes) (s : mem * buf) : mem * buf :=
  let '(m, b) := s in
  let a := arr m (b_arr b) in
  let n := b_len b + len d in
  if n <=? len a then (put_arr m (b_arr b) (take a (b_len b) ++ d ++ drop a n), mkB (b_arr b) n)
  else (m ++ [take a (b_len b) ++ d ++ repeat 0 (Z.to_nat (Z.max n (pol (len a) n) - n))], mkB (length m) n).

(** * Parsers writing to a cache *)

(** aac/parser.go:28-42, 77-141. The frame length is that of the source; the source is read after the header has
    been written. *)
Definition aac_parse_a (pol : Z -> Z -> Z) (p : aac) (src : sl) (types : Z) (s : mem * buf) : aac * (mem * buf * res unit) :=
  if len (rd (fst s) src) =? 0 then (p, (s, Err EOther))
  else if types =? 0 then let '(p', r) := specific_info p (rd (fst s) src) in (p', (s, r))
  else if types =? 1 then
    if negb (ac_got p) then (p, (s, Err EOther))
    else
      let s1 := bput pol (adts_header p (len (rd (fst s) src))) s in
      (p, (bput pol (rd (fst s1) src) s1, Ok tt))
  else (p, (s, Err EOther)).

(** h264/parser.go:146-225. In each round the size and the type are read before the round's writes, the NAL unit
    after those that come before it. *)
Fixpoint annexb_loop_a (pol : Z -> Z -> Z) (fuel : nat) (src : sl) (info : bytes) (index size : Z) (has wrote : bool) (sp : bytes)
  (s : mem * buf) : bytes * (mem * buf * res unit) :=
  if size <=? 0 then (sp, (s, Ok tt)) else
  match fuel with
  | O => (sp, (s, OutOfFuel))
  | S f =>
      let cur := rd (fst s) src in
      match (let* t := go_slice cur index (len cur) in nalu_size t) with
      | Ok n =>
          if n <=? 0 then (sp, (s, Err EOther)) else
          let index := index + 4 in
          let size := size - 4 in
          if size <? n then (sp, (s, Err EOther)) else
          match go_at cur index, go_slice cur index (index + n) with
          | Ok b0, Ok nal =>
              let ty := Z.land b0 31 in
              if ty =? 9 then annexb_loop_a pol f src info (index + n) (size - n) has wrote sp s
              else if (ty =? 5) || (ty =? 1) || (ty =? 6) then
                let s1 := if (ty =? 5) && negb wrote then bput pol (if has then sp else info) s else s in
                let s2 := bput pol start_code s1 in
                let s3 := bput pol (slice (rd (fst s2) src) index (index + n)) s2 in
                annexb_loop_a pol f src info (index + n) (size - n) has ((ty =? 5) || wrote) sp s3
              else if (ty =? 7) || (ty =? 8) then
                annexb_loop_a pol f src info (index + n) (size - n) true wrote (sp ++ start_code ++ nal) s
              else (sp, (s, Err EOther))
          | _, _ => (sp, (s, Panic))
          end
      | Err e => (sp, (s, Err e))
      | Panic => (sp, (s, Panic))
      | OutOfFuel => (sp, (s, OutOfFuel))
      end
  end.
(** h264/parser.go:125-228. *)
Definition get_annexb_a (pol : Z -> Z -> Z) (p : h264) (src : sl) (s : mem * buf) : h264 * (mem * buf * res unit) :=
  let n := len (rd (fst s) src) in
  if n <? 4 then (p, (s, Err EOther))
  else
    let '(sp, sr) := annexb_loop_a pol (Z.to_nat n) src (h_info p) 0 n false false [] (bput pol nalu_aud s) in
    (mkH264 (h_info p) sp, sr).
(** h264/parser.go:24-46. *)
Definition h264_parse_a (pol : Z -> Z -> Z) (p : h264) (src : sl) (seq : bool) (s : mem * buf) : h264 * (mem * buf * res unit) :=
  let b := rd (fst s) src in
  if len b =? 0 then (p, (s, Err EOther))
  else if seq then let '(p', r) := parse_specific_info p b in (p', (s, r))
  else if is_start b then (p, (bput pol b s, Ok tt))
  else get_annexb_a pol p src s.

(** packet.go:19-27 Packet: [ap_pkt] has all fields but Media (its own p_media is not used), [ap_media] is Media. *)
Record apkt := mkAP { ap_pkt : packet; ap_media : option sl }.
(** The packet with the bytes its Media slice shows in a memory. *)
Definition view (m : mem) (p : apkt) : packet :=
  let q := ap_pkt p in
  mkP (p_type q) (p_ts q) (p_base q) (p_stream q) (p_header q) (p_data q) (option_map (rd m) (ap_media p)).

(** parser.go:27-73. *)
Definition codec_parse_a (pol : Z -> Z -> Z) (c : codec) (p : apkt) (s : mem * buf) : codec * (mem * buf * res unit) :=
  let q := ap_pkt p in
  match p_header q, ap_media p with
  | Some _, Some media =>
      if p_type q =? PktVideo then
        match video_of q with
        | None => (c, (s, Panic))
        | Some vh =>
            if v_avc vh then
              let '(h, sr) := h264_parse_a pol (or_new (cp_h264 c) new_h264) media (v_seq vh) s in
              (mkCodec (cp_aac c) (cp_mp3 c) (Some h), sr)
            else (c, (s, Err EOther))
        end
      else if p_type q =? PktAudio then
        match audio_of q with
        | None => (c, (s, Panic))
        | Some ah =>
            if a_aac ah then
              let '(a, sr) := aac_parse_a pol (or_new (cp_aac c) new_aac) media (a_aactype ah) s in
              (mkCodec (Some a) (cp_mp3 c) (cp_h264 c), sr)
            else if a_mp3 ah then
              let '(k, r) := mp3_parse (or_new (cp_mp3 c) new_mp3) (rd (fst s) media) in
              (mkCodec (cp_aac c) (Some k) (cp_h264 c), (s, r))
            else (c, (s, Err EOther))
        end
      else (c, (s, Err EOther))
  | _, _ => (c, (s, Err EOther))
  end.

(** * Muxing from memory *)

(** Where TS packets go: a writer of the caller's or one of the caches. *)
Inductive sink := SExt (w : writer) | SBuf (b : buf).
Definition sink_write (pol : Z -> Z -> Z) (d : bytes) (s : mem * sink) : mem * sink * res unit :=
  match snd s with
  | SExt w => let '(w', r) := write d w in (fst s, SExt w', r)
  | SBuf b => let '(m', b') := bput pol d (fst s, b) in (m', SBuf b', Ok tt)
  end.
(** muxer.go:73-183: p.Media is read from memory for each packet. *)
Fixpoint mux_loop_a (pol : Z -> Z -> Z) (fuel : nat) (k : tsmux) (ty : Z) (tsh pesh : bytes) (media : option sl) (dts : Z) (key : bool)
  (l : mloop) (s : mem * sink) : tsmux * (mem * sink * res unit) :=
  if 0 <? l_total l then
    match fuel with
    | O => (k, (s, OutOfFuel))
    | S fuel' =>
        let '(k, cc) := next_cc k ty in
        match build_packet (tm_pkt k) tsh pesh (match media with Some a => rd (fst s) a | None => [] end) cc dts key l with
        | Ok (pkt, l') =>
            let k := set_pkt pkt k in
            match sink_write pol pkt s with
            | (s', Ok _) =>
                mux_loop_a pol fuel' k ty tsh pesh media dts key (mkL (l_total l') (l_hdr l') (l_head l') (l_data l') false) s'
            | (s', r) => (k, (s', r))
            end
        | Err e => (k, (s, Err e))
        | Panic => (k, (s, Panic))
        | OutOfFuel => (k, (s, OutOfFuel))
        end
    end
  else (k, (s, Ok tt)).
(** muxer.go:42-186. *)
Definition ts_mux_a (pol : Z -> Z -> Z) (k : tsmux) (p : apkt) (dts pts : Z) (s : mem * sink) : tsmux * (mem * sink * res unit) :=
  let q := ap_pkt p in
  let go (pid : Z) (key : bool) :=
    let n := len (match ap_media p with Some a => rd (fst s) a | None => [] end) in
    let '(pesh, hl) := generate_pes_header (p_type q) n pts dts in
    let total := n + hl in
    let tsh := [0x47; u8 (Z.shiftr pid 8); u8 pid; 0x10] in
    mux_loop_a pol (Z.to_nat total) k (p_type q) tsh pesh (ap_media p) dts key (mkL total hl 0 0 true) s in
  if p_type q =? PktVideo then
    match video_of q with
    | None => (k, (s, Panic))
    | Some vh => go video_pid (v_key vh)
    end
  else if p_type q =? PktAudio then go audio_pid false
  else (k, (s, Err EOther)).

(** * Mixers *)

(** mixer.go:15-35: [am_x] has the fields of the other model, then the writer and the caches. *)
Record amix := mkAM { am_x : tsmix; am_w : writer; am_media : buf; am_avc : buf; am_aac : buf }.
(** mixer.go:59-70 parse. Only a successful parse sets p.Media. *)
Definition mix_parse_a (pol : Z -> Z -> Z) (x : tsmix) (p : apkt) (s : mem * buf) : tsmix * apkt * (mem * buf * res unit) :=
  let '(c, (s, r)) := codec_parse_a pol (x_codec x) p (fst s, breset (snd s)) in
  (set_codec c x, match r with Ok _ => mkAP (ap_pkt p) (Some (bbytes (snd s))) | _ => p end, (s, r)).
(** mixer.go:73-80 Mux. *)
Definition mix_mux_a (pol : Z -> Z -> Z) (x : amix) (p : apkt) (m : mem) : amix * apkt * (mem * res unit) :=
  let '(t, p, (m, b, r)) := mix_parse_a pol (am_x x) p (m, am_media x) in
  match r with
  | Ok _ =>
      match ts_mux_a pol (x_muxer t) p (x_dts t) (x_pts t) (m, SExt (am_w x)) with
      | (k, (m, SExt w, r)) => (mkAM (set_muxer k t) w b (am_avc x) (am_aac x), p, (m, r))
      | (k, (m, SBuf _, r)) => (mkAM (set_muxer k t) (am_w x) b (am_avc x) (am_aac x), p, (m, r))
      end
  | _ => (mkAM t (am_w x) b (am_avc x) (am_aac x), p, (m, r))
  end.
(** The common part of mixer.go:106-116 and 119-129: parse into a cache, reset it, and mux into it the media that
    still lies in its array. *)
Definition save_header_a (pol : Z -> Z -> Z) (t : tsmix) (p : apkt) (s : mem * buf) : tsmix * apkt * (mem * buf * res unit) :=
  let '(t, p, (m, b, r)) := mix_parse_a pol t p s in
  match r with
  | Ok _ =>
      match ts_mux_a pol (x_muxer t) p 0 0 (m, SBuf (breset b)) with
      | (k, (m, SBuf b, r)) => (set_muxer k t, p, (m, b, r))
      | (k, (m, SExt _, r)) => (set_muxer k t, p, (m, b, r))
      end
  | _ => (t, p, (m, b, r))
  end.
(** mixer.go:106-116 SaveAVCHeader. *)
Definition mix_save_avc_a (pol : Z -> Z -> Z) (x : amix) (p : apkt) (m : mem) : amix * apkt * (mem * res unit) :=
  let t := set_types (types_is_video (x_types (am_x x))) (am_x x) in
  let '(t, p, (m, b, r)) := save_header_a pol t p (m, am_avc x) in
  (mkAM t (am_w x) (am_media x) b (am_aac x), p, (m, r)).
(** mixer.go:119-129 SaveAACHeader. *)
Definition mix_save_aac_a (pol : Z -> Z -> Z) (x : amix) (p : apkt) (m : mem) : amix * apkt * (mem * res unit) :=
  let t := set_types (types_is_audio (x_types (am_x x))) (am_x x) in
  let '(t, p, (m, b, r)) := save_header_a pol t p (m, am_aac x) in
  (mkAM t (am_w x) (am_media x) (am_avc x) b, p, (m, r)).
(** mixer.go:38-52 NewMixer: three caches of capacity 512. The metadata cache is replaced by SaveMetadata and never
    shared. *)
Definition new_amix (w : writer) (m : mem) : mem * amix :=
  let a := repeat 0 (Z.to_nat 512) in
  (m ++ [a; a; a],
   mkAM new_tsmix w (mkB (S (S (length m))) 0) (mkB (length m) 0) (mkB (S (length m)) 0)).

(** * A program holding packets and mixers *)

(** Variables holding packets (pointers: two names for one packet are one variable) and mixers; a mixer variable
    is nil at first. *)
Record world := mkWd { wd_mem : mem; wd_pkts : nat -> apkt; wd_mixes : nat -> option amix }.
Definition zero_packet : packet := mkP 0 0 0 0 None [] None.
Definition world0 : world := mkWd [] (fun _ => mkAP zero_packet None) (fun _ => None).
Definition upd_nat {A} (f : nat -> A) (k : nat) (a : A) : nat -> A := fun j => if Nat.eqb j k then a else f j.

Inductive aop :=
| ASet (k : nat) (p : packet)         (* *p = q, with q.Media in an array of its own: what Demux gives *)
| ACopy (k j : nat)                   (* *p = *q: Media is shared *)
| ANewMix (i : nat) (w : writer)      (* NewMixer(w) *)
| AMux (i k : nat)                    (* Mux *)
| AMeta (i : nat) (md : omap)         (* SaveMetadata *)
| ASaveAVC (i k : nat)                (* SaveAVCHeader *)
| ASaveAAC (i k : nat)                (* SaveAACHeader *)
| AHeader (i : nat)                   (* SetTsHeader *)
| AUpdate (i k : nat) (pkt_ts avc_ts : Z)  (* Update *)
| ASetWriter (i : nat) (w : writer).  (* SetWriter *)

Definition set_x (t : tsmix) (x : amix) : amix := mkAM t (am_w x) (am_media x) (am_avc x) (am_aac x).
Definition set_w (w : writer) (x : amix) : amix := mkAM (am_x x) w (am_media x) (am_avc x) (am_aac x).
Definition set_pkt_media (m : mem) (p : packet) : mem * apkt :=
  match p_media p with
  | Some d => (m ++ [d], mkAP p (Some (mkSl (length m) (len d))))
  | None => (m, mkAP p None)
  end.
(** A method called on a nil mixer panics. *)
Definition on_mix (s : world) (i : nat) (f : amix -> world * res unit) : world * res unit :=
  match wd_mixes s i with Some x => f x | None => (s, Panic) end.
Definition on_packet (s : world) (i k : nat) (f : amix -> apkt -> mem -> amix * apkt * (mem * res unit)) : world * res unit :=
  on_mix s i (fun x =>
    let '(x', p', (m', r)) := f x (wd_pkts s k) (wd_mem s) in
    (mkWd m' (upd_nat (wd_pkts s) k p') (upd_nat (wd_mixes s) i (Some x')), r)).
Definition astep (pol : Z -> Z -> Z) (s : world) (o : aop) : world * res unit :=
  match o with
  | ASet k p => let '(m', p') := set_pkt_media (wd_mem s) p in (mkWd m' (upd_nat (wd_pkts s) k p') (wd_mixes s), Ok tt)
  | ACopy k j => (mkWd (wd_mem s) (upd_nat (wd_pkts s) k (wd_pkts s j)) (wd_mixes s), Ok tt)
  | ANewMix i w => let '(m', x) := new_amix w (wd_mem s) in (mkWd m' (wd_pkts s) (upd_nat (wd_mixes s) i (Some x)), Ok tt)
  | AMux i k => on_packet s i k (mix_mux_a pol)
  | ASaveAVC i k => on_packet s i k (mix_save_avc_a pol)
  | ASaveAAC i k => on_packet s i k (mix_save_aac_a pol)
  | AMeta i md => on_mix s i (fun x =>
      let '(t, r) := mix_save_metadata (am_x x) md in
      (mkWd (wd_mem s) (wd_pkts s) (upd_nat (wd_mixes s) i (Some (set_x t x))), r))
  | AHeader i => on_mix s i (fun x =>
      let '(t, (w, r)) := mix_set_header (am_x x) (am_w x) in
      (mkWd (wd_mem s) (wd_pkts s) (upd_nat (wd_mixes s) i (Some (set_w w (set_x t x)))), r))
  | AUpdate i k a b => on_mix s i (fun x =>
      let '(t, r) := mix_update (am_x x) (ap_pkt (wd_pkts s k)) a b in
      (mkWd (wd_mem s) (wd_pkts s) (upd_nat (wd_mixes s) i (Some (set_x t x))), r))
  | ASetWriter i w => on_mix s i (fun x =>
      (mkWd (wd_mem s) (wd_pkts s) (upd_nat (wd_mixes s) i (Some (set_w w x))), Ok tt))
  end.
Fixpoint arun (pol : Z -> Z -> Z) (s : world) (os : list aop) : world * list (res unit) :=
  match os with
  | [] => (s, [])
  | o :: os' => let '(s1, r) := astep pol s o in let '(s2, rs) := arun pol s1 os' in (s2, r :: rs)
  end.
