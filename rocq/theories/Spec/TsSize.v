(** How many packets of a transport stream a history of calls takes. *)
From Verif Require Import Base.Go Base.IO Model.AmfTypes Model.Packet Model.Ts Spec.Parsers Spec.Codec Spec.Ts Spec.TsClock Spec.Mixer.
Import ListNotations.
Local Open Scope Z_scope.

(** The header before a frame: 19 bytes for video with two times that differ, else 14. *)
Definition frame_head (f : sent_frame) : Z := if (sf_type f =? 0) && negb (sf_pts f =? sf_dts f) then 19 else 14.
(** A packet of 188 bytes has room for 184; a key frame gives 8 of them, in its first packet, to the clock reference. *)
Definition frame_packets (f : sent_frame) : Z := (frame_head f + len (sf_media f) + (if sf_key f then 8 else 0) + 183) / 184.
(** Three tables, a packet each, for every SetHeader that is accepted. *)
Definition table_packets (o : mix_op) (v : verdict) : Z := match o, v with XHeader, Accepted => 3 | _, _ => 0 end.
Definition sum (l : list Z) : Z := fold_right Z.add 0 l.
Definition packets_of (os : list mix_op) (fs : list sent_frame) (vs : list verdict) : Z :=
  sum (map (fun q => table_packets (fst q) (snd q)) (combine os vs)) + sum (map frame_packets fs).
