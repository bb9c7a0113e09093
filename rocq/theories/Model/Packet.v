(** Model of package packet: packet.go and types.go. *)
From Verif Require Import Base.Go.

(** packet.go:4-9 and 12-16: tag numbers and packet types. *)
Definition TagAudio : Z := 8.
Definition TagVideo : Z := 9.
Definition TagScriptDataAMF0 : Z := 18.
Definition PktVideo : Z := 0.
Definition PktAudio : Z := 1.
Definition PktMetadata : Z := 2.

(** packet.go:33-40 AudioPacketHeader: the answers of its five methods. Simplified: an implementation whose
    methods change their answers between calls is not modelled. *)
Record ahdr := mkAH { a_format : Z; a_aactype : Z; a_aac : bool; a_mp3 : bool; a_seq : bool }.
(** packet.go:43-52 VideoPacketHeader: the answers of its seven methods, with the same simplification. *)
Record vhdr := mkVH { v_key : bool; v_inter : bool; v_seq : bool; v_eos : bool; v_avc : bool; v_codec : Z; v_cts : Z }.
(** packet.go:30 Header interface{}: a non-nil header value; each component is present iff its dynamic type
    implements the corresponding interface. *)
Record hdr := mkH { h_video : option vhdr; h_audio : option ahdr }.

(** packet.go:19-27 Packet. A nil Header is [None]; a nil Media is [None]; Data has no nil/empty distinction
    (the code never makes one). *)
Record packet := mkP {
  p_type : Z; p_ts : Z; p_base : Z; p_stream : Z;
  p_header : option hdr; p_data : bytes; p_media : option bytes }.
Definition set_data (d : bytes) (p : packet) : packet :=
  mkP (p_type p) (p_ts p) (p_base p) (p_stream p) (p_header p) d (p_media p).
Definition set_demuxed (h : hdr) (m : bytes) (p : packet) : packet :=
  mkP (p_type p) (p_ts p) (p_base p) (p_stream p) (Some h) (p_data p) (Some m).

(** The type assertions p.Header.(packet.VideoPacketHeader) and p.Header.(packet.AudioPacketHeader) without
    the comma-ok form: [None] stands for the run-time panic. *)
Definition video_of (p : packet) : option vhdr := match p_header p with Some h => h_video h | None => None end.
Definition audio_of (p : packet) : option ahdr := match p_header p with Some h => h_audio h | None => None end.

(** * types.go. A Types value is its byte. *)
(** types.go:9-13, 16-18. *)
Definition new_types : Z := 0.
Definition types_reset (t : Z) : Z := 0.
(** types.go:21-23. *)
Definition types_is_video (t : Z) : Z := Z.lor t 1.
(** types.go:26-28. *)
Definition types_is_audio (t : Z) : Z := Z.lor t 2.
(** types.go:31-40. *)
Definition types_to_slice (t : Z) : list Z :=
  (if Z.land t 1 =? 1 then [PktVideo] else []) ++ (if Z.land t 2 =? 2 then [PktAudio] else []).

(** The operations of a Types value, for histories. *)
Inductive types_op := TIsVideo | TIsAudio | TReset.
Definition types_step (t : Z) (o : types_op) : Z :=
  match o with TIsVideo => types_is_video t | TIsAudio => types_is_audio t | TReset => types_reset t end.

(** * packet.Writer (packet.go:60-62): what it has accepted, how many Write calls it has seen, and which
    calls fail. *)
Record pwriter := mkPW { pw_out : list packet; pw_calls : nat; pw_fails : nat -> bool }.
Definition pwrite (p : packet) (w : pwriter) : pwriter * res unit :=
  if pw_fails w (pw_calls w) then (mkPW (pw_out w) (S (pw_calls w)) (pw_fails w), Err EWrite)
  else (mkPW (pw_out w ++ [p]) (S (pw_calls w)) (pw_fails w), Ok tt).
