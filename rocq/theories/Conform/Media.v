(** The vectors of the repository's own unit tests for packet, container/flv, container/ts, parser and gop, replayed on
    the model by computation. These are tests of the model against the authors' expectations, not proofs of properties. *)
From Coq Require Import String.
From Verif Require Import Base.Go Base.IO Model.AmfTypes Model.Packet Model.Flv Model.Parsers Model.Gop Model.Crc32 Model.Ts.

Definition pkt (ty : Z) (data : bytes) : packet := mkP ty 0 0 0 None data None.
Definition dm (ty : Z) (data : bytes) : packet := fst (demux (pkt ty data)).

(** container/flv/demuxer_test.go TestDemuxer_Demux. *)
Example demuxer_case1 : let p := pkt PktVideo [23; 1; 0; 0; 0; 0; 0; 0; 1] in
  snd (demux p) = Ok tt /\ p_media (fst (demux p)) = Some [0; 0; 0; 1].
Proof. vm_compute. auto. Qed.
Definition idr_tag : bytes :=
    [23; 1; 0; 0; 0; 0; 0; 0; 211; 101; 136; 128; 128; 3; 63; 254; 245; 248; 69; 79; 50; 203; 27; 180; 32; 63;
    133; 77; 214; 155; 194; 202; 145; 178; 188; 225; 251; 53; 39; 68; 0; 0; 3; 0; 0; 3; 0; 0; 3; 0; 0; 3; 0; 80;
    153; 152; 65; 209; 175; 211; 36; 174; 160; 0; 0; 3; 0; 0; 15; 96; 0; 17; 192; 0; 27; 64; 0; 78; 64; 1; 31; 0;
    3; 184; 0; 16; 128; 0; 89; 0; 2; 56; 0; 11; 224; 0; 94; 0; 2; 32; 0; 17; 0; 0; 3; 0; 0; 3; 0; 0; 3; 0; 0; 3;
    0; 0; 3; 0; 0; 3; 0; 0; 3; 0; 0; 3; 0; 0; 3; 0; 0; 3; 0; 0; 3; 0; 0; 3; 0; 0; 3; 0; 0; 3; 0; 0; 3; 0; 0; 3; 0;
    0; 3; 0; 0; 3; 0; 0; 3; 0; 0; 3; 0; 0; 3; 0; 0; 3; 0; 0; 3; 0; 0; 3; 0; 0; 3; 0; 0; 3; 0; 0; 3; 0; 0; 3; 0; 0;
    3; 0; 0; 3; 0; 0; 3; 0; 0; 3; 0; 0; 3; 0; 0; 3; 0; 0; 3; 0; 0; 3; 0; 0; 3; 0; 0; 3; 0; 0; 64; 65].
Example demuxer_case2 : snd (demux (pkt PktVideo idr_tag)) = Ok tt /\ option_map (@len Z) (p_media (dm PktVideo idr_tag)) = Some 215.
Proof. vm_compute. auto. Qed.
Example demuxer_case3 : p_media (dm PktAudio [175; 0; 18; 16]) = Some [18; 16].
Proof. reflexivity. Qed.
Example demuxer_case4 : p_media (dm PktAudio [175; 1; 33; 0; 73; 144; 2; 25; 0; 35; 128]) = Some [33; 0; 73; 144; 2; 25; 0; 35; 128].
Proof. reflexivity. Qed.
Definition aac_tag : bytes :=
    [175; 1; 33; 78; 254; 145; 174; 241; 102; 75; 169; 46; 64; 185; 2; 165; 200; 35; 46; 56; 202; 189; 86; 64; 0;
    0; 0; 0; 32; 20; 45; 199; 243; 108; 255; 176; 1; 81; 26; 254; 79; 127; 229; 125; 168; 5; 207; 105; 62; 106;
    226; 250; 144; 2; 43; 227; 245; 92; 254; 236; 0; 193; 220; 35; 241; 124; 208; 0; 0; 141; 120; 124; 14; 211;
    29; 122; 249; 188; 142; 72; 0; 0; 46; 46; 245; 246; 71; 47; 87; 75; 191; 0; 0; 0; 1; 97; 209; 213; 215; 210;
    190; 205; 119; 249; 222; 64; 0; 0; 0; 88; 101; 24; 94; 237; 13; 78; 163; 79; 188; 221; 174; 0; 0; 16; 31; 129;
    142; 255; 143; 255; 182; 254; 47; 81; 22; 251; 50; 92; 169; 116; 164; 11; 149; 33; 9; 20; 148; 0; 0; 0; 0; 16;
    28; 25; 191; 37; 247; 30; 127; 225; 0; 1; 132; 119; 15; 15; 221; 61; 231; 216; 190; 86; 0; 115; 87; 35; 241;
    61; 31; 92; 1; 113; 183; 76; 255; 78; 0; 4; 229; 196; 235; 62; 95; 86; 0; 1; 134; 5; 111; 217; 125; 95; 195;
    199; 151; 202; 214; 210; 204; 0; 0; 52; 58; 190; 31; 30; 191; 28; 52; 0; 0; 0; 47; 57; 193; 142; 252; 55; 239;
    215; 207; 24; 233; 227; 250; 221; 87; 159; 151; 225; 0; 0; 0; 27; 216; 165; 76; 210; 35; 167; 171; 236; 190;
    222; 31; 199; 135].
Example demuxer_case5 : option_map (@len Z) (p_media (dm PktAudio aac_tag)) = Some 255.
Proof. vm_compute. reflexivity. Qed.
(** container/flv/tag_test.go. *)
Example tag_video1 : let '(t, r) := parse_media_tag_header tag0 [23; 0; 0; 0; 0] PktVideo in
  r = Ok 5 /\ tag_video t = mkVH true false true false true 7 0.
Proof. vm_compute. auto. Qed.
Example tag_video2 : let '(t, r) := parse_media_tag_header tag0 [39; 1; 0; 0; 0] PktVideo in
  r = Ok 5 /\ tag_video t = mkVH false true false false true 7 0.
Proof. vm_compute. auto. Qed.
Example tag_audio1 : let '(t, r) := parse_media_tag_header tag0 [175; 1] PktAudio in
  r = Ok 2 /\ tag_audio t = mkAH 10 1 true false false.
Proof. vm_compute. auto. Qed.
(** container/flv/muxer_test.go TestMuxer_Mux. *)
Example flv_muxer :
  let '(m, h) := mx_header new_muxer [PktVideo] in
  let '(_, d) := mx_metadata m [(str "Provider", TStr (str "test provider"))] in
  (let* a := h in let* b := d in Ok (a ++ b)) = Ok
    [70; 76; 86; 1; 1; 0; 0; 0; 9; 0; 0; 0; 0; 18; 0; 0; 43; 0; 0; 0; 0; 0; 0; 0; 2; 0; 10; 111; 110; 77; 101;
    116; 97; 68; 97; 116; 97; 3; 0; 8; 80; 114; 111; 118; 105; 100; 101; 114; 2; 0; 13; 116; 101; 115; 116; 32;
    112; 114; 111; 118; 105; 100; 101; 114; 0; 0; 9; 0; 0; 0; 54].
Proof. vm_compute. reflexivity. Qed.
(** container/ts/sync_test.go TestNewAvSync. *)
Definition sync_all (l : list Z) : option (list Z) :=
  match new_sync 10 with
  | None => None
  | Some s => Some (snd (fold_left (fun a d => match sync_audio (fst a) d 44100 with Ok (s', d') => (s', snd a ++ [d']) | _ => a end) l (s, [])))
  end.
Example ts_sync : sync_all [0; 2000; 5000; 10000; 12000] = Some [0; 2089; 4178; 10000; 12089].
Proof. vm_compute. reflexivity. Qed.
(** container/ts/table/descriptor_test.go. *)
Example descriptor_service : desc_service new_descriptor 1 (str "test provider") (str "test service") =
    [72; 28; 1; 13; 116; 101; 115; 116; 32; 112; 114; 111; 118; 105; 100; 101; 114; 12; 116; 101; 115; 116; 32;
    115; 101; 114; 118; 105; 99; 101].
Proof. reflexivity. Qed.
Example descriptor_network : desc_network_name new_descriptor (str "test network") =
    [64; 12; 116; 101; 115; 116; 32; 110; 101; 116; 119; 111; 114; 107].
Proof. reflexivity. Qed.
Example descriptor_country : desc_country new_descriptor true 1234 = [73; 4; 128; 0; 0; 4; 210].
Proof. reflexivity. Qed.
(** container/ts/table/pes_test.go. *)
Example pes_header : generate_pes_header PktVideo 1024 0 0 =
    ([0; 0; 1; 224; 4; 8; 128; 128; 5; 33; 0; 1; 0; 1; 0; 0; 0; 0; 0], 14).
Proof. vm_compute. reflexivity. Qed.
(** container/ts/muxer_test.go TestTSEncoder. *)
Example ts_encoder :
  let '(_, (w, r)) := ts_mux new_tsmux (mkP PktAudio 0 0 0 None [] (Some
    [175; 1; 33; 25; 211; 64; 125; 11; 109; 68; 174; 129; 8; 0; 137; 160; 62; 133; 182; 146; 87; 4; 128; 0; 91;
    183; 120; 0; 132; 0; 0; 0; 0; 0; 56; 48; 0; 6; 0; 56])) 0 0 buffer0 in
  r = Ok tt /\ w_calls w = 1%nat /\ w_out w =
    [71; 65; 1; 49; 129; 0; 255; 255; 255; 255; 255; 255; 255; 255; 255; 255; 255; 255; 255; 255; 255; 255; 255;
    255; 255; 255; 255; 255; 255; 255; 255; 255; 255; 255; 255; 255; 255; 255; 255; 255; 255; 255; 255; 255; 255;
    255; 255; 255; 255; 255; 255; 255; 255; 255; 255; 255; 255; 255; 255; 255; 255; 255; 255; 255; 255; 255; 255;
    255; 255; 255; 255; 255; 255; 255; 255; 255; 255; 255; 255; 255; 255; 255; 255; 255; 255; 255; 255; 255; 255;
    255; 255; 255; 255; 255; 255; 255; 255; 255; 255; 255; 255; 255; 255; 255; 255; 255; 255; 255; 255; 255; 255;
    255; 255; 255; 255; 255; 255; 255; 255; 255; 255; 255; 255; 255; 255; 255; 255; 255; 255; 255; 255; 255; 255;
    255; 0; 0; 1; 192; 0; 48; 128; 128; 5; 33; 0; 1; 0; 1; 175; 1; 33; 25; 211; 64; 125; 11; 109; 68; 174; 129; 8;
    0; 137; 160; 62; 133; 182; 146; 87; 4; 128; 0; 91; 183; 120; 0; 132; 0; 0; 0; 0; 0; 56; 48; 0; 6; 0; 56].
Proof. vm_compute. auto. Qed.
(** container/ts/muxer_test.go TestMuxer_Table. *)
Example ts_tables :
  let '(m, a) := ts_sdt new_tsmux (desc_service new_descriptor 1 (str "test provider") (str "test service")) in
  let '(m, b) := ts_pat m in
  let '(m, c) := ts_pmt m [PktVideo] in
  (let* a := a in let* b := b in let* c := c in Ok (a ++ b ++ c)) = Ok
    [71; 64; 17; 16; 0; 66; 240; 47; 0; 1; 193; 0; 0; 255; 1; 255; 0; 1; 252; 128; 30; 72; 28; 1; 13; 116; 101;
    115; 116; 32; 112; 114; 111; 118; 105; 100; 101; 114; 12; 116; 101; 115; 116; 32; 115; 101; 114; 118; 105; 99;
    101; 240; 61; 90; 226; 255; 255; 255; 255; 255; 255; 255; 255; 255; 255; 255; 255; 255; 255; 255; 255; 255;
    255; 255; 255; 255; 255; 255; 255; 255; 255; 255; 255; 255; 255; 255; 255; 255; 255; 255; 255; 255; 255; 255;
    255; 255; 255; 255; 255; 255; 255; 255; 255; 255; 255; 255; 255; 255; 255; 255; 255; 255; 255; 255; 255; 255;
    255; 255; 255; 255; 255; 255; 255; 255; 255; 255; 255; 255; 255; 255; 255; 255; 255; 255; 255; 255; 255; 255;
    255; 255; 255; 255; 255; 255; 255; 255; 255; 255; 255; 255; 255; 255; 255; 255; 255; 255; 255; 255; 255; 255;
    255; 255; 255; 255; 255; 255; 255; 255; 255; 255; 255; 255; 255; 255; 255; 255; 255; 255; 255; 255; 255; 255;
    255; 255; 255; 255; 255; 255; 71; 64; 0; 16; 0; 0; 176; 13; 0; 1; 193; 0; 0; 0; 1; 240; 1; 46; 112; 25; 5;
    255; 255; 255; 255; 255; 255; 255; 255; 255; 255; 255; 255; 255; 255; 255; 255; 255; 255; 255; 255; 255; 255;
    255; 255; 255; 255; 255; 255; 255; 255; 255; 255; 255; 255; 255; 255; 255; 255; 255; 255; 255; 255; 255; 255;
    255; 255; 255; 255; 255; 255; 255; 255; 255; 255; 255; 255; 255; 255; 255; 255; 255; 255; 255; 255; 255; 255;
    255; 255; 255; 255; 255; 255; 255; 255; 255; 255; 255; 255; 255; 255; 255; 255; 255; 255; 255; 255; 255; 255;
    255; 255; 255; 255; 255; 255; 255; 255; 255; 255; 255; 255; 255; 255; 255; 255; 255; 255; 255; 255; 255; 255;
    255; 255; 255; 255; 255; 255; 255; 255; 255; 255; 255; 255; 255; 255; 255; 255; 255; 255; 255; 255; 255; 255;
    255; 255; 255; 255; 255; 255; 255; 255; 255; 255; 255; 255; 255; 255; 255; 255; 255; 255; 255; 255; 255; 255;
    255; 255; 255; 255; 255; 255; 255; 255; 255; 255; 255; 255; 255; 71; 80; 1; 16; 0; 2; 176; 18; 0; 1; 193; 0;
    0; 225; 0; 240; 0; 27; 225; 0; 240; 0; 21; 189; 77; 86; 255; 255; 255; 255; 255; 255; 255; 255; 255; 255; 255;
    255; 255; 255; 255; 255; 255; 255; 255; 255; 255; 255; 255; 255; 255; 255; 255; 255; 255; 255; 255; 255; 255;
    255; 255; 255; 255; 255; 255; 255; 255; 255; 255; 255; 255; 255; 255; 255; 255; 255; 255; 255; 255; 255; 255;
    255; 255; 255; 255; 255; 255; 255; 255; 255; 255; 255; 255; 255; 255; 255; 255; 255; 255; 255; 255; 255; 255;
    255; 255; 255; 255; 255; 255; 255; 255; 255; 255; 255; 255; 255; 255; 255; 255; 255; 255; 255; 255; 255; 255;
    255; 255; 255; 255; 255; 255; 255; 255; 255; 255; 255; 255; 255; 255; 255; 255; 255; 255; 255; 255; 255; 255;
    255; 255; 255; 255; 255; 255; 255; 255; 255; 255; 255; 255; 255; 255; 255; 255; 255; 255; 255; 255; 255; 255;
    255; 255; 255; 255; 255; 255; 255; 255; 255; 255; 255; 255; 255; 255; 255; 255; 255; 255; 255].
Proof. vm_compute. reflexivity. Qed.
(** container/ts/mixer_test.go TestMixer_SetTsHeader. What the sequence-header caches hold is replayed in
    Conform/Alias.v, whose model keeps them. *)
Definition mixer_ops : list mix_op :=
  [XSaveAVC (dm PktVideo [23; 1; 0; 0; 0; 0; 0; 0; 1]); XSaveAAC (dm PktAudio [175; 0; 18; 16]); XHeader].
Example ts_mixer :
  let '(s, rs) := mix_run (new_tsmix, buffer0) mixer_ops in
  rs = [Ok tt; Ok tt; Ok tt] /\ w_out (snd s) =
    [71; 64; 17; 16; 0; 66; 240; 17; 0; 1; 193; 0; 0; 255; 1; 255; 0; 1; 252; 128; 0; 208; 208; 8; 130; 255; 255;
    255; 255; 255; 255; 255; 255; 255; 255; 255; 255; 255; 255; 255; 255; 255; 255; 255; 255; 255; 255; 255; 255;
    255; 255; 255; 255; 255; 255; 255; 255; 255; 255; 255; 255; 255; 255; 255; 255; 255; 255; 255; 255; 255; 255;
    255; 255; 255; 255; 255; 255; 255; 255; 255; 255; 255; 255; 255; 255; 255; 255; 255; 255; 255; 255; 255; 255;
    255; 255; 255; 255; 255; 255; 255; 255; 255; 255; 255; 255; 255; 255; 255; 255; 255; 255; 255; 255; 255; 255;
    255; 255; 255; 255; 255; 255; 255; 255; 255; 255; 255; 255; 255; 255; 255; 255; 255; 255; 255; 255; 255; 255;
    255; 255; 255; 255; 255; 255; 255; 255; 255; 255; 255; 255; 255; 255; 255; 255; 255; 255; 255; 255; 255; 255;
    255; 255; 255; 255; 255; 255; 255; 255; 255; 255; 255; 255; 255; 255; 255; 255; 255; 255; 255; 255; 255; 255;
    255; 255; 255; 255; 255; 255; 255; 71; 64; 0; 16; 0; 0; 176; 13; 0; 1; 193; 0; 0; 0; 1; 240; 1; 46; 112; 25;
    5; 255; 255; 255; 255; 255; 255; 255; 255; 255; 255; 255; 255; 255; 255; 255; 255; 255; 255; 255; 255; 255;
    255; 255; 255; 255; 255; 255; 255; 255; 255; 255; 255; 255; 255; 255; 255; 255; 255; 255; 255; 255; 255; 255;
    255; 255; 255; 255; 255; 255; 255; 255; 255; 255; 255; 255; 255; 255; 255; 255; 255; 255; 255; 255; 255; 255;
    255; 255; 255; 255; 255; 255; 255; 255; 255; 255; 255; 255; 255; 255; 255; 255; 255; 255; 255; 255; 255; 255;
    255; 255; 255; 255; 255; 255; 255; 255; 255; 255; 255; 255; 255; 255; 255; 255; 255; 255; 255; 255; 255; 255;
    255; 255; 255; 255; 255; 255; 255; 255; 255; 255; 255; 255; 255; 255; 255; 255; 255; 255; 255; 255; 255; 255;
    255; 255; 255; 255; 255; 255; 255; 255; 255; 255; 255; 255; 255; 255; 255; 255; 255; 255; 255; 255; 255; 255;
    255; 255; 255; 255; 255; 255; 255; 255; 255; 255; 255; 255; 255; 255; 71; 80; 1; 16; 0; 2; 176; 23; 0; 1; 193;
    0; 0; 225; 1; 240; 0; 27; 225; 0; 240; 0; 15; 225; 1; 240; 0; 199; 224; 239; 158; 255; 255; 255; 255; 255;
    255; 255; 255; 255; 255; 255; 255; 255; 255; 255; 255; 255; 255; 255; 255; 255; 255; 255; 255; 255; 255; 255;
    255; 255; 255; 255; 255; 255; 255; 255; 255; 255; 255; 255; 255; 255; 255; 255; 255; 255; 255; 255; 255; 255;
    255; 255; 255; 255; 255; 255; 255; 255; 255; 255; 255; 255; 255; 255; 255; 255; 255; 255; 255; 255; 255; 255;
    255; 255; 255; 255; 255; 255; 255; 255; 255; 255; 255; 255; 255; 255; 255; 255; 255; 255; 255; 255; 255; 255;
    255; 255; 255; 255; 255; 255; 255; 255; 255; 255; 255; 255; 255; 255; 255; 255; 255; 255; 255; 255; 255; 255;
    255; 255; 255; 255; 255; 255; 255; 255; 255; 255; 255; 255; 255; 255; 255; 255; 255; 255; 255; 255; 255; 255;
    255; 255; 255; 255; 255; 255; 255; 255; 255; 255; 255; 255; 255; 255; 255; 255; 255; 255; 255; 255].
Proof. vm_compute. auto. Qed.
Example ts_mixer_update :
  let '(s, rs) := mix_run (new_tsmix, buffer0) (mixer_ops ++ [XUpdate (pkt PktVideo []) 2000 0]) in
  let '(s', rs') := mix_run s [XUpdate (pkt PktAudio []) 2000 0] in
  (rs ++ rs' = [Ok tt; Ok tt; Ok tt; Ok tt; Ok tt]) /\ x_pts (fst s) = 180000 /\ x_pts (fst s') = 180000.
Proof. vm_compute. auto. Qed.
(** parser/mp3/parser_test.go. *)
Example mp3_rate : mp3_parse new_mp3 [98; 112; 108] = (32000, Ok tt).
Proof. reflexivity. Qed.
(** parser/aac/parser_test.go. *)
Example aac_frame :
  let '(p, (w, r)) := aac_parse new_aac [18; 16] 0 buffer0 in
  let '(_, (w', r')) := aac_parse p [33; 0; 73; 144; 2; 25; 0; 35; 128] 1 w in
  r = Ok tt /\ r' = Ok tt /\ w_out w' = [255; 241; 80; 128; 2; 31; 252; 33; 0; 73; 144; 2; 25; 0; 35; 128].
Proof. vm_compute. auto. Qed.
(** parser/h264/parser_test.go. *)
Definition h264_once (b : bytes) (seq : bool) : h264 * (writer * res unit) := h264_parse new_h264 b seq buffer0.
Example h264_seq :
  let '(p, (_, r)) := h264_once [1; 77; 0; 30; 255; 225; 0; 23; 103; 77; 0; 30; 171; 64; 90; 18; 108; 9; 40; 40; 40; 47; 128; 0; 1; 244; 0; 0;
    97; 168; 74; 1; 0; 4; 104; 222; 49; 18] true in
  r = Ok tt /\ h_info p = [0; 0; 0; 1; 103; 77; 0; 30; 171; 64; 90; 18; 108; 9; 40; 40; 40; 47; 128; 0; 1; 244; 0; 0; 97; 168; 74; 0; 0;
    0; 1; 104; 222; 49; 18].
Proof. vm_compute. auto. Qed.
Example h264_annexb :
  let '(_, (w, r)) := h264_once [0; 0; 0; 1; 103; 77; 0; 30; 171; 64; 90; 18; 108; 9; 40; 40; 40; 47; 128; 0; 1; 244; 0; 0; 97; 168; 74; 0; 0;
    0; 1; 104; 222; 49; 18; 0; 0; 0; 1; 101; 35] false in
  r = Ok tt /\ len (w_out w) = 41.
Proof. vm_compute. auto. Qed.
Example h264_size : snd (snd (h264_once [0; 0; 16] false)) <> Ok tt.
Proof. vm_compute. discriminate. Qed.
Example h264_mp4 :
  let '(_, (w, r)) := h264_once [0; 0; 0; 23; 103; 77; 0; 30; 171; 64; 90; 18; 108; 9; 40; 40; 40; 47; 128; 0; 1; 244; 0; 0; 97; 168; 74; 0;
    0; 0; 4; 104; 222; 49; 18; 0; 0; 0; 2; 101; 35] false in
  r = Ok tt /\ w_out w = [0; 0; 0; 1; 9; 240; 0; 0; 0; 1; 103; 77; 0; 30; 171; 64; 90; 18; 108; 9; 40; 40; 40; 47; 128; 0; 1; 244; 0;
    0; 97; 168; 74; 0; 0; 0; 1; 104; 222; 49; 18; 0; 0; 0; 1; 101; 35].
Proof. vm_compute. auto. Qed.
Example h264_bad1 : snd (snd (h264_once [0; 0; 0; 41; 0; 0; 0] false)) <> Ok tt.
Proof. vm_compute. discriminate. Qed.
Example h264_bad2 : snd (snd (h264_once [0; 0; 0; 41; 0; 0; 0; 23; 103; 77; 0; 30; 171; 64; 90; 18; 108; 9; 40; 40; 40; 47; 128; 0; 1; 244; 0; 0; 97;
    168; 74; 0; 0; 0] false)) <> Ok tt.
Proof. vm_compute. discriminate. Qed.
(** parser/parser_test.go. *)
Example codec_new : codec_rate new_codec = Err EOther /\ snd (snd (codec_parse new_codec (pkt 0 []) buffer0)) <> Ok tt.
Proof. split; [reflexivity | discriminate]. Qed.
Example codec_tests :
  let '(c1, r1) := codec_run new_codec
    (map (fun p => (p, buffer0)) [dm PktVideo [23; 1; 0; 0; 0; 0; 0; 0; 1]; dm PktVideo idr_tag; dm PktAudio [175; 0; 18; 16];
                                  dm PktAudio [175; 1; 33; 0; 73; 144; 2; 25; 0; 35; 128]]) in
  let '(c2, r2) := codec_run c1 [(dm PktAudio aac_tag, buffer0)] in
  map (fun r => (len (w_out (fst r)), snd r)) (r1 ++ r2) = [(4, Ok tt); (221, Ok tt); (0, Ok tt); (16, Ok tt); (262, Ok tt)] /\
  codec_rate c1 = Ok 44100 /\ codec_rate c2 = Ok 44100.
Proof. vm_compute. auto. Qed.
(** gop/gop_test.go TestNewCache: four rounds of one key frame and five others, then SendTo. *)
Definition gop_round (g : gops) : gops :=
  fold_left (fun g _ => fst (gop_write g (pkt 0 [4; 5; 6]) false)) [1; 2; 3; 4; 5] (fst (gop_write g (pkt 0 [1; 2; 3]) true)).
Definition gop_sent (g : gops) : bytes := concat (map p_data (pw_out (fst (gop_send pwrite g (mkPW [] 0 (fun _ => false)))))).
Example gop_cache :
  match new_gops 3 with
  | Ok g0 =>
      let g1 := gop_round g0 in let g2 := gop_round g1 in let g3 := gop_round g2 in let g4 := gop_round g3 in
      map g_index [g1; g2; g3; g4] = [0; 1; 2; 0] /\
      map gop_sent [g1; g2; g3; g4] =
        [[1; 2; 3; 4; 5; 6; 4; 5; 6; 4; 5; 6; 4; 5; 6; 4; 5; 6];
         [1; 2; 3; 4; 5; 6; 4; 5; 6; 4; 5; 6; 4; 5; 6; 4; 5; 6; 1; 2; 3; 4; 5; 6; 4; 5; 6; 4; 5; 6; 4; 5; 6; 4; 5; 6];
         [1; 2; 3; 4; 5; 6; 4; 5; 6; 4; 5; 6; 4; 5; 6; 4; 5; 6; 1; 2; 3; 4; 5; 6; 4; 5; 6; 4; 5; 6; 4; 5; 6; 4; 5; 6;
    1; 2; 3; 4; 5; 6; 4; 5; 6; 4; 5; 6; 4; 5; 6; 4; 5; 6];
         [1; 2; 3; 4; 5; 6; 4; 5; 6; 4; 5; 6; 4; 5; 6; 4; 5; 6; 1; 2; 3; 4; 5; 6; 4; 5; 6; 4; 5; 6; 4; 5; 6; 4; 5; 6;
    1; 2; 3; 4; 5; 6; 4; 5; 6; 4; 5; 6; 4; 5; 6; 4; 5; 6]]
  | _ => False
  end.
Proof. vm_compute. auto. Qed.
(** packet/types_test.go. *)
Example types_test :
  types_to_slice new_types = [] /\ types_to_slice (types_is_video new_types) = [PktVideo] /\
  let t := types_is_audio (types_reset (types_is_video new_types)) in
  types_to_slice t = [PktAudio] /\ types_to_slice (types_is_video t) = [PktVideo; PktAudio].
Proof. vm_compute. auto. Qed.
