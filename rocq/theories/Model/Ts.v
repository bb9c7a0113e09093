(** Model of container/ts: table/*.go, muxer.go, sync.go, mixer.go. *)
From Coq Require Import String.
From Verif Require Import Base.Go Base.IO Model.AmfTypes Model.Packet Model.Parsers Model.Crc32.

(** * Byte arrays *)

(** s[i] = b. A panic loses the assignments made before it in the same call: no caller can rely on them. *)
Definition upd (s : bytes) (i b : Z) : res bytes :=
  if (0 <=? i) && (i <? len s) then Ok (take s i ++ b :: drop s (i + 1)) else Panic.
(** s[i] |= b. *)
Definition or_at (s : bytes) (i b : Z) : res bytes := let* a := go_at s i in upd s i (Z.lor a b).
(** copy(s[i:], b). *)
Definition copy_at (s : bytes) (i : Z) (b : bytes) : res bytes :=
  if (0 <=? i) && (i <=? len s)
  then let b' := take b (len s - i) in Ok (take s i ++ b' ++ drop s (i + len b'))
  else Panic.
(** for j := 0; j < n; j++ { s[i+j] = b }. *)
Fixpoint fill (s : bytes) (i : Z) (n : nat) (b : Z) : res bytes :=
  match n with
  | O => Ok s
  | S n' => let* s' := upd s i b in fill s' (i + 1) n' b
  end.
(** Successive single-byte assignments s[i], s[i+1], ... = b. *)
Fixpoint write_seq (s : bytes) (i : Z) (b : bytes) : res bytes :=
  match b with
  | [] => Ok s
  | x :: b' => let* s' := upd s i x in write_seq s' (i + 1) b'
  end.

(** * table/pes.go *)

(** pes.go:66-89 encodeTs. *)
Definition encode_ts (flag ts : Z) : bytes :=
  let ts := if 0x1ffffffff <? ts then ts - 0x1ffffffff else ts in
  let v0 := Z.lor (Z.lor (Z.shiftr (Z.land flag 0xc0) 2) (u16 (Z.shiftl (Z.land (u16 (Z.shiftr ts 30)) 7) 1))) 1 in
  let v1 := Z.lor (u16 (Z.shiftl (Z.land (u16 (Z.shiftr ts 15)) 0x7fff) 1)) 1 in
  let v2 := Z.lor (u16 (Z.shiftl (u16 (Z.land ts 0x7fff)) 1)) 1 in
  [u8 v0; u8 (Z.shiftr v1 8); u8 v1; u8 (Z.shiftr v2 8); u8 v2].
(** pes.go:19-27 NewPes, the PesHeader field; 7-10 the stream ids. *)
Definition new_pes_header : bytes :=
  [0; 0; 1; 0xc0; 0xff; 0xff; 0x80; 0x80; 5; 0; 0; 0; 0; 0; 0; 0; 0; 0; 0].
(** pes.go:30-63 GeneratePesHeader on a Pes whose PesHeader is h: the PesHeader field afterwards and the returned
    length. All indices are constants within the 19 bytes that NewPes makes and that no method changes in number. *)
Definition put1 (s : bytes) (i b : Z) : bytes := take s i ++ b :: drop s (i + 1).
Definition put5 (s : bytes) (i : Z) (b : bytes) : bytes := take s i ++ b ++ drop s (i + 5).
Definition pes_gen (h : bytes) (mt media_len pts dts : Z) : bytes * Z :=
  if (mt =? PktVideo) || (mt =? PktAudio) then
    let h := put1 h 3 (if mt =? PktVideo then 0xe0 else 0xc0) in
    let h := put5 h 9 (encode_ts (at_ h 7) pts) in
    let h := if (mt =? PktVideo) && negb (pts =? dts) then
               let h := put1 h 7 (Z.lor (at_ h 7) 0x40) in
               let h := put1 h 8 (u8 (at_ h 8 + 5)) in
               put5 h 14 (encode_ts (at_ h 7) dts)
             else h in
    let n := at_ h 8 in
    let size := 3 + n + media_len in
    let size := if 0xffff <? size then 0 else size in
    let h := put1 h 4 (u8 (Z.shiftr size 8)) in
    let h := put1 h 5 (u8 size) in
    (h, 6 + 3 + n)
  else (h, 0).
(** The same on a new Pes, which is how Mux calls it (muxer.go:64-65). *)
Definition generate_pes_header (mt media_len pts dts : Z) : bytes * Z := pes_gen new_pes_header mt media_len pts dts.
(** pes.go:92-101 WriteStuff(s[i:], remain). *)
Definition write_stuff (s : bytes) (i remain : Z) : res bytes :=
  let n := u8 (remain - 1) in
  let* s := upd s i n in
  if 0 <? n then
    let* s := upd s (i + 1) 0 in
    fill s (i + 2) (Z.to_nat (n - 1)) 0xff
  else Ok s.
(** pes.go:104-111 WritePcr(s[i:], pcr). *)
Definition write_pcr (s : bytes) (i pcr : Z) : res bytes :=
  write_seq s i [u8 (Z.shiftr pcr 25); u8 (Z.shiftr pcr 17); u8 (Z.shiftr pcr 9); u8 (Z.shiftr pcr 1);
                 u8 (Z.lor (Z.shiftl (Z.land pcr 1) 7) 0x7e); 0].

(** * table/descriptor.go. A Descriptor is the contents of its buffer; bytes.Buffer writes never fail. *)

(** descriptor.go:14-18. *)
Definition new_descriptor : bytes := [].
(** descriptor.go:26-58 Service; byte arithmetic wraps. *)
Definition desc_service (d : bytes) (ty : Z) (provider service : bytes) : bytes :=
  let pl := u8 (len provider) in
  let sl := u8 (len service) in
  d ++ [0x48; u8 (u8 (pl + sl) + 3); ty] ++ [pl] ++ provider ++ [sl] ++ service.
(** descriptor.go:61-76 NetworkName. *)
Definition desc_network_name (d : bytes) (name : bytes) : bytes := d ++ [0x40; u8 (len name)] ++ name.
(** descriptor.go:79-95 CountryAvailability. *)
Definition desc_country (d : bytes) (available : bool) (code : Z) : bytes :=
  d ++ [0x49; 4; if available then 0x80 else 0] ++ be32 (Z.land code 0x0fff).

(** * muxer.go *)

(** muxer.go:24-33 Muxer. *)
Record tsmux := mkTM {
  tm_vcc : Z; tm_acc : Z; tm_patcc : Z; tm_pmtcc : Z;
  tm_sdt : bytes; tm_pat : bytes; tm_pmt : bytes; tm_pkt : bytes }.
(** muxer.go:36-38 NewMuxer; 15 tsPacketLen. *)
Definition new_tsmux : tsmux :=
  mkTM 0 0 0 0 (repeat 0 188%nat) (repeat 0 188%nat) (repeat 0 188%nat) (repeat 0 188%nat).
Definition set_vcc c m := mkTM c (tm_acc m) (tm_patcc m) (tm_pmtcc m) (tm_sdt m) (tm_pat m) (tm_pmt m) (tm_pkt m).
Definition set_acc c m := mkTM (tm_vcc m) c (tm_patcc m) (tm_pmtcc m) (tm_sdt m) (tm_pat m) (tm_pmt m) (tm_pkt m).
Definition set_pkt k m := mkTM (tm_vcc m) (tm_acc m) (tm_patcc m) (tm_pmtcc m) (tm_sdt m) (tm_pat m) (tm_pmt m) k.
Definition set_sdt k m := mkTM (tm_vcc m) (tm_acc m) (tm_patcc m) (tm_pmtcc m) k (tm_pat m) (tm_pmt m) (tm_pkt m).
Definition set_pat c k m := mkTM (tm_vcc m) (tm_acc m) c (tm_pmtcc m) (tm_sdt m) k (tm_pmt m) (tm_pkt m).
Definition set_pmt c k m := mkTM (tm_vcc m) (tm_acc m) (tm_patcc m) c (tm_sdt m) (tm_pat m) k (tm_pkt m).

(** muxer.go:85-88 and 92-95: increment a counter byte. *)
Definition bump (c : Z) : Z := let c := u8 (c + 1) in if 15 <? c then 0 else c.
(** muxer.go:83-98: the counter of the packet's type afterwards, and the muxer. Mux has checked the type. *)
Definition next_cc (m : tsmux) (ty : Z) : tsmux * Z :=
  if ty =? PktVideo then let c := bump (tm_vcc m) in (set_vcc c m, c)
  else let c := bump (tm_acc m) in (set_acc c m, c).

(** The variables of the loop of Mux (muxer.go:61-62, 68-69, 72). *)
Record mloop := mkL { l_total : Z; l_hdr : Z; l_head : Z; l_data : Z; l_first : bool }.
(** muxer.go:75-80 and the |= of 90 and 97. *)
Definition pkt_header (pkt tsh : bytes) (first : bool) (cc : Z) : res bytes :=
  let* p := copy_at pkt 0 tsh in
  let* p := if first then or_at p 1 0x40 else Ok p in
  or_at p 3 cc.
(** muxer.go:101-118: the packet and i afterwards. *)
Definition pkt_pcr (p : bytes) (has_pcr : bool) (dts : Z) : res (bytes * Z) :=
  if has_pcr then
    let* p := or_at p 3 0x20 in
    let* p := upd p 4 7 in
    let* p := upd p 5 0x50 in
    let* p := write_pcr p 6 dts in
    let* n := go_at p 4 in
    Ok (p, u8 (4 + u8 (1 + n)))
  else Ok (p, 4).
(** muxer.go:121-136: the packet, i and maxPayloadLen afterwards. *)
Definition pkt_stuff (p : bytes) (i total : Z) : res (bytes * Z * Z) :=
  let maxp := u8 (188 - i) in
  if total <? 184 then
    let remain := u8 (maxp - u8 total) in
    let* p := or_at p 3 0x20 in
    let* p := write_stuff p i remain in
    Ok (p, u8 (i + remain), u8 total)
  else Ok (p, i, maxp).
(** muxer.go:139-163. *)
Definition pkt_head (p pesh : bytes) (i maxp : Z) (l : mloop) : res (bytes * Z * Z * mloop) :=
  if 0 <? l_hdr l then
    let n := if u8 (l_hdr l) <=? maxp then u8 (l_hdr l) else maxp in
    let* h := go_slice pesh (l_head l) (l_head l + n) in
    let* p := copy_at p i h in
    Ok (p, u8 (i + n), u8 (maxp - n), mkL (l_total l - n) (l_hdr l - n) (l_head l + n) (l_data l) (l_first l))
  else Ok (p, i, maxp, l).
(** muxer.go:166-174. *)
Definition pkt_data (p media : bytes) (i maxp : Z) (l : mloop) : res (bytes * mloop) :=
  if 0 <? maxp then
    if len media <? l_data l + maxp then Err EOther
    else
      let* d := go_slice media (l_data l) (l_data l + maxp) in
      let* p := copy_at p i d in
      Ok (p, mkL (l_total l - maxp) (l_hdr l) (l_head l) (l_data l + maxp) (l_first l))
  else Ok (p, l).
(** muxer.go:75-174: one packet. *)
Definition build_packet (pkt tsh pesh media : bytes) (cc dts : Z) (key : bool) (l : mloop) : res (bytes * mloop) :=
  let* p := pkt_header pkt tsh (l_first l) cc in
  let* (p, i) := pkt_pcr p (l_first l && key) dts in
  let* (p, i, maxp) := pkt_stuff p i (l_total l) in
  let* (p, i, maxp, l) := pkt_head p pesh i maxp l in
  pkt_data p media i maxp l.
(** muxer.go:73-183: the loop. Each round with something left sends at least one byte (proved), so the fuel used
    below, the total length, is enough. *)
Fixpoint mux_loop (fuel : nat) (m : tsmux) (ty : Z) (tsh pesh media : bytes) (dts : Z) (key : bool) (l : mloop) (w : writer)
  : tsmux * (writer * res unit) :=
  if 0 <? l_total l then
    match fuel with
    | O => (m, (w, OutOfFuel))
    | S fuel' =>
        let '(m, cc) := next_cc m ty in
        match build_packet (tm_pkt m) tsh pesh media cc dts key l with
        | Ok (pkt, l') =>
            let m := set_pkt pkt m in
            match write pkt w with
            | (w', Ok _) =>
                mux_loop fuel' m ty tsh pesh media dts key (mkL (l_total l') (l_hdr l') (l_head l') (l_data l') false) w'
            | (w', r) => (m, (w', r))
            end
        | Err e => (m, (w, Err e))
        | Panic => (m, (w, Panic))
        | OutOfFuel => (m, (w, OutOfFuel))
        end
    end
  else (m, (w, Ok tt)).
(** len(p.Media) of a nil slice is 0. *)
Definition media_of (p : packet) : bytes := match p_media p with Some b => b | None => [] end.
(** muxer.go:18-21. *)
Definition video_pid : Z := 0x100.
Definition audio_pid : Z := 0x101.
(** muxer.go:42-186 Mux. *)
Definition ts_mux (m : tsmux) (p : packet) (dts pts : Z) (w : writer) : tsmux * (writer * res unit) :=
  let go (pid : Z) (key : bool) :=
    let '(pesh, hl) := generate_pes_header (p_type p) (len (media_of p)) pts dts in
    let total := len (media_of p) + hl in
    let tsh := [0x47; u8 (Z.shiftr pid 8); u8 pid; 0x10] in
    mux_loop (Z.to_nat total) m (p_type p) tsh pesh (media_of p) dts key (mkL total hl 0 0 true) w in
  if p_type p =? PktVideo then
    match video_of p with
    | None => (m, (w, Panic))
    | Some vh => go video_pid (v_key vh)
    end
  else if p_type p =? PktAudio then go audio_pid false
  else (m, (w, Err EOther)).

(** muxer.go:212-219 and alike: the CRC at i. *)
Definition write_crc (s : bytes) (i crc : Z) : res bytes :=
  write_seq s i [u8 (Z.shiftr crc 24); u8 (Z.shiftr crc 16); u8 (Z.shiftr crc 8); u8 crc].
(** muxer.go:221-223 and alike. *)
Definition pad_ff (s : bytes) (i : Z) : res bytes := fill s i (Z.to_nat (188 - i)) 0xff.

(** muxer.go:189-226 SDT, with the tables of table/sdt.go:10-24. Returned slices are the muxer's own array: a later
    call of the same method overwrites what an earlier one returned; the model returns the contents. *)
Definition sdt_header : bytes := [0x42; 0xf0; 0; 0; 1; 0xc1; 0; 0; 0xff; 1; 0xff; 0; 1; 0xfc; 0x80; 0].
Definition ts_sdt (m : tsmux) (desc : bytes) : tsmux * res bytes :=
  let sl := 17 + len desc in
  let h := put1 sdt_header 1 (Z.lor (at_ sdt_header 1) (Z.land (u8 (Z.shiftr sl 8)) 0x0f)) in
  let h := put1 h 2 (u8 sl) in
  let h := put1 h 14 (Z.lor (at_ h 14) (Z.land (u8 (Z.shiftr (sl - 17) 8)) 0x0f)) in
  let h := put1 h 15 (u8 (sl - 17)) in
  let r :=
    let* s := copy_at (tm_sdt m) 0 [0x47; 0x40; 0x11; 0x10; 0] in
    let* s := copy_at s 5 h in
    let* s := copy_at s (5 + len h) desc in
    let i := 5 + len h + len desc in
    let* sec := go_slice s 5 i in
    let* s := write_crc s i (generate_crc32 sec) in
    pad_ff s (i + 4) in
  match r with Ok s => (set_sdt s m, Ok s) | _ => (m, r) end.
(** muxer.go:229-262 PAT, with the tables of table/pat.go:10-23. *)
Definition pat_header : bytes := [0; 0xb0; 0x0d; 0; 1; 0xc1; 0; 0; 0; 1; 0xf0; 1].
Definition ts_pat (m : tsmux) : tsmux * res bytes :=
  let c := if 15 <? tm_patcc m then 0 else tm_patcc m in
  let r :=
    let* s := copy_at (tm_pat m) 0 [0x47; 0x40; 0; Z.lor 0x10 (Z.land c 0x0f); 0] in
    let* s := copy_at s 5 pat_header in
    let i := 5 + len pat_header in
    let* s := write_crc s i (generate_crc32 pat_header) in
    pad_ff s (i + 4) in
  match r with Ok s => (set_pat (u8 (c + 1)) s m, Ok s) | _ => (set_pat (u8 (c + 1)) (tm_pat m) m, r) end.
(** muxer.go:270-282: PCR_PID low byte and programInfo, with the tables of table/program.go:10-24. *)
Definition avc_program : bytes := [0x1b; 0xe1; 0; 0xf0; 0].
Definition aac_program : bytes := [0x0f; 0xe1; 1; 0xf0; 0].
Fixpoint pmt_programs (mt : list Z) (pcr : Z) (info : bytes) : Z * bytes :=
  match mt with
  | [] => (pcr, info)
  | v :: mt' =>
      if v =? PktVideo then pmt_programs mt' 0 (info ++ avc_program)
      else if v =? PktAudio then pmt_programs mt' 1 (info ++ aac_program)
      else pmt_programs mt' pcr info
  end.
(** muxer.go:265-320 PMT, with the tables of table/pmt.go:10-22. *)
Definition pmt_header : bytes := [2; 0xb0; 0xff; 0; 1; 0xc1; 0; 0; 0xe1; 0; 0xf0; 0].
Definition ts_pmt (m : tsmux) (mt : list Z) : tsmux * res bytes :=
  let '(pcr, info) := pmt_programs mt (at_ pmt_header 9) [] in
  let h := put1 (put1 pmt_header 9 pcr) 2 (u8 (len info + 9 + 4)) in
  let c := if 15 <? tm_pmtcc m then 0 else tm_pmtcc m in
  let r :=
    let* s := copy_at (tm_pmt m) 0 [0x47; 0x50; 1; Z.lor 0x10 (Z.land c 0x0f); 0] in
    let* s := copy_at s 5 h in
    let* s := copy_at s (5 + len h) info in
    let i := 5 + len h + len info in
    let* sec := go_slice s 5 i in
    let* s := write_crc s i (generate_crc32 sec) in
    pad_ff s (i + 4) in
  match r with Ok s => (set_pmt (u8 (c + 1)) s m, Ok s) | _ => (set_pmt (u8 (c + 1)) (tm_pmt m) m, r) end.

(** * sync.go *)

(** sync.go:13-17. *)
Record sync := mkS { s_num : Z; s_dts : Z; s_ms : Z }.
(** sync.go:20-27 newSync; None is the panic. *)
Definition new_sync (ms : Z) : option sync := if ms <=? 0 then None else Some (mkS 0 0 (i64 (ms * 90))).
(** sync.go:32-55 syncAudioTs: int64 arithmetic wraps, int division truncates, rate 0 panics. *)
Definition sync_audio (s : sync) (dts rate : Z) : res (sync * Z) :=
  if rate =? 0 then Panic
  else
    let inc := Z.quot (90 * 1000 * 1024) rate in
    let pts := i64 (s_dts s + i64 (s_num s * inc)) in
    let gap := if dts <=? pts then i64 (pts - dts) else i64 (dts - pts) in
    if gap <=? s_ms s then Ok (mkS (i64 (s_num s + 1)) (s_dts s) (s_ms s), pts)
    else Ok (mkS 1 dts (s_ms s), dts).

(** * mixer.go *)

(** mixer.go:15-35: Mixer and its cache; the io.Writer is kept apart. The media cache is emptied before each use and
    the avcSeqHdr and aacSeqHdr caches are never read, so they are not part of the state. *)
Record tsmix := mkX { x_meta : bytes; x_types : Z; x_muxer : tsmux; x_codec : codec; x_pts : Z; x_dts : Z; x_sync : sync }.
(** mixer.go:38-52 NewMixer; newSync(10) does not panic. *)
Definition new_tsmix : tsmix := mkX [] new_types new_tsmux new_codec 0 0 (mkS 0 0 900).
Definition set_muxer k x := mkX (x_meta x) (x_types x) k (x_codec x) (x_pts x) (x_dts x) (x_sync x).
Definition set_codec c x := mkX (x_meta x) (x_types x) (x_muxer x) c (x_pts x) (x_dts x) (x_sync x).
Definition set_types t x := mkX (x_meta x) t (x_muxer x) (x_codec x) (x_pts x) (x_dts x) (x_sync x).
Definition set_meta b x := mkX b (x_types x) (x_muxer x) (x_codec x) (x_pts x) (x_dts x) (x_sync x).
Definition set_times p d s x := mkX (x_meta x) (x_types x) (x_muxer x) (x_codec x) p d s.
Definition set_media (b : bytes) (p : packet) : packet :=
  mkP (p_type p) (p_ts p) (p_base p) (p_stream p) (p_header p) (p_data p) (Some b).

(** mixer.go:59-70 parse into an empty cache. p.Media aliases the cache, so a later parse into the same cache
    overwrites it; the model gives the packet its own copy. *)
Definition mix_parse (x : tsmix) (p : packet) : tsmix * packet * res unit :=
  let '(c, (w, r)) := codec_parse (x_codec x) p buffer0 in
  (set_codec c x, match r with Ok _ => set_media (w_out w) p | _ => p end, r).
(** mixer.go:73-80 Mux. *)
Definition mix_mux (x : tsmix) (p : packet) (w : writer) : tsmix * packet * (writer * res unit) :=
  let '(x, p, r) := mix_parse x p in
  match r with
  | Ok _ => let '(k, wr) := ts_mux (x_muxer x) p (x_dts x) (x_pts x) w in (set_muxer k x, p, wr)
  | _ => (x, p, (w, r))
  end.
(** md[k].(string), comma-ok: a nil map, a missing key and a value of another type all give the default. *)
Fixpoint map_str (k : bytes) (md : omap) (d : bytes) : bytes :=
  match md with
  | [] => d
  | (k', v) :: md' => if bytes_eqb k k' then match v with VStr s => s | _ => d end else map_str k md' d
  end.
(** mixer.go:83-103 SaveMetadata. *)
Definition mix_save_metadata (x : tsmix) (md : omap) : tsmix * res unit :=
  let provider := map_str (str "Provider") md (str "undefined") in
  let service := map_str (str "Service") md (str "undefined") in
  (set_meta (desc_service new_descriptor 1 provider service) x, Ok tt).
(** mixer.go:106-116 and 119-129 SaveAVCHeader, SaveAACHeader. The packets made go to a cache nobody reads. p.Media
    aliases that cache: when it is not empty the loop reads bytes it has overwritten, which changes only what is
    written to that cache. *)
Definition mix_save_header (t : Z) (x : tsmix) (p : packet) : tsmix * packet * res unit :=
  let '(x, p, r) := mix_parse (set_types t x) p in
  match r with
  | Ok _ => let '(k, (_, r)) := ts_mux (x_muxer x) p 0 0 buffer0 in (set_muxer k x, p, r)
  | _ => (x, p, r)
  end.
Definition mix_save_avc (x : tsmix) (p : packet) := mix_save_header (types_is_video (x_types x)) x p.
Definition mix_save_aac (x : tsmix) (p : packet) := mix_save_header (types_is_audio (x_types x)) x p.
(** mixer.go:132-159 SetTsHeader. *)
Definition mix_set_header (x : tsmix) (w : writer) : tsmix * (writer * res unit) :=
  let '(k, rs) := ts_sdt (x_muxer x) (x_meta x) in
  match rs with
  | Ok sdt =>
      let '(k, ra) := ts_pat k in
      match ra with
      | Ok pat =>
          let '(k, rm) := ts_pmt k (types_to_slice (x_types x)) in
          match rm with
          | Ok pmt => (set_muxer k x, (w* _ := write sdt in w* _ := write pat in w* _ := write pmt in wret tt) w)
          | _ => (set_muxer k x, (w, let* _ := rm in Ok tt))
          end
      | _ => (set_muxer k x, (w, let* _ := ra in Ok tt))
      end
  | _ => (set_muxer k x, (w, let* _ := rs in Ok tt))
  end.
(** mixer.go:169-188 Update. pktTs*90 and avcTs*90 are uint32. *)
Definition mix_update (x : tsmix) (p : packet) (pkt_ts avc_ts : Z) : tsmix * res unit :=
  let dts := u32 (pkt_ts * 90) in
  if p_type p =? PktVideo then (set_times (dts + u32 (avc_ts * 90)) dts (x_sync x) x, Ok tt)
  else if p_type p =? PktAudio then
    match codec_rate (x_codec x) with
    | Ok rate =>
        match sync_audio (x_sync x) dts rate with
        | Ok (s, d) => (set_times d d s x, Ok tt)
        | _ => (set_times (x_pts x) dts (x_sync x) x, Panic)
        end
    | r => (set_times (x_pts x) dts (x_sync x) x, let* _ := r in Ok tt)
    end
  else (set_times (x_pts x) dts (x_sync x) x, Ok tt).

(** Histories. *)
(** Mux calls of one Muxer: packet, dts, pts. *)
Fixpoint tsmux_run (m : tsmux) (os : list (packet * Z * Z)) (w : writer) : tsmux * writer * list (res unit) :=
  match os with
  | [] => (m, w, [])
  | (p, dts, pts) :: os' =>
      let '(m1, (w1, r)) := ts_mux m p dts pts w in
      let '(m2, w2, rs) := tsmux_run m1 os' w1 in (m2, w2, r :: rs)
  end.
(** Calls of the table methods. *)
Inductive tbl_op := TSdt (desc : bytes) | TPat | TPmt (mt : list Z) | TMux (p : packet) (dts pts : Z).
Definition tbl_step (s : tsmux * writer) (o : tbl_op) : tsmux * writer * res bytes :=
  let '(m, w) := s in
  match o with
  | TSdt d => let '(m', r) := ts_sdt m d in (m', w, r)
  | TPat => let '(m', r) := ts_pat m in (m', w, r)
  | TPmt mt => let '(m', r) := ts_pmt m mt in (m', w, r)
  | TMux p dts pts => let '(m', (w', r)) := ts_mux m p dts pts w in (m', w', let* _ := r in Ok [])
  end.
Fixpoint tbl_run (s : tsmux * writer) (os : list tbl_op) : tsmux * writer * list (res bytes) :=
  match os with
  | [] => (s, [])
  | o :: os' => let '(s1, r) := tbl_step s o in let '(s2, rs) := tbl_run s1 os' in (s2, r :: rs)
  end.
(** Histories of one Mixer. SetWriter (mixer.go:55-57) replaces the writer. *)
Inductive mix_op :=
| XMux (p : packet) | XMeta (md : omap) | XSaveAVC (p : packet) | XSaveAAC (p : packet) | XHeader
| XUpdate (p : packet) (pkt_ts avc_ts : Z) | XSetWriter (w : writer).
Definition mix_step (s : tsmix * writer) (o : mix_op) : tsmix * writer * res unit :=
  let '(x, w) := s in
  match o with
  | XMux p => let '(x', _, (w', r)) := mix_mux x p w in (x', w', r)
  | XMeta md => let '(x', r) := mix_save_metadata x md in (x', w, r)
  | XSaveAVC p => let '(x', _, r) := mix_save_avc x p in (x', w, r)
  | XSaveAAC p => let '(x', _, r) := mix_save_aac x p in (x', w, r)
  | XHeader => let '(x', (w', r)) := mix_set_header x w in (x', w', r)
  | XUpdate p a b => let '(x', r) := mix_update x p a b in (x', w, r)
  | XSetWriter w' => (x, w', Ok tt)
  end.
Fixpoint mix_run (s : tsmix * writer) (os : list mix_op) : tsmix * writer * list (res unit) :=
  match os with
  | [] => (s, [])
  | o :: os' => let '(s1, r) := mix_step s o in let '(s2, rs) := mix_run s1 os' in (s2, r :: rs)
  end.
