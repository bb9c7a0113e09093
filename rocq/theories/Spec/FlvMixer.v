(** What an FLV Mixer does, call by call, from the history of calls alone: what it writes and what it answers. *)
From Coq Require Import String.
From Verif Require Import Base.Go Base.IO Model.AmfTypes Model.Packet Model.Flv Spec.Amf Spec.Gop Spec.Flv Spec.Codec Spec.Amf3Ref Spec.AmfAll Spec.Command Spec.AmfRaw.
Import ListNotations.
Local Open Scope Z_scope.

(** An FLV file is a sequence of file headers and tags. *)
Inductive piece := Start (video audio : bool) | Tag (ty time : Z) (d : bytes).
(** Data sizes are cut to 24 bits in front of the data, and to 32 bits behind it. *)
Definition piece_bytes (p : piece) : bytes :=
  match p with
  | Start video audio => flv_signature video audio
  | Tag ty time d => ty :: be24 (len d) ++ be24 time ++ [u8 (time / 2 ^ 24)] ++ [0; 0; 0] ++ d ++ be32 (11 + len d)
  end.
Definition file_bytes (l : list piece) : bytes := concat (map piece_bytes l).

(** [carried p d v]: whether a packet can be put into a tag, and the data that the tag has then. *)
Inductive carried (p : packet) : bytes -> verdict -> Prop :=
| Ca_media : p_type p = 0 \/ p_type p = 1 -> carried p (p_data p) Accepted
| Ca_metadata d : p_type p = 2 -> without_command (p_data p) d -> carried p d Accepted
| Ca_no_text : p_type p = 2 -> (forall s, ~ text_at (p_data p) s) -> ~ self_refers new_world 0 (p_data p) -> carried p [] Refused
| Ca_refers : p_type p = 2 -> self_refers new_world 0 (p_data p) -> carried p [] Crashed
| Ca_other : ~ 0 <= p_type p <= 2 -> carried p [] Refused.
Definition tag_of (p : packet) (time : Z) (d : bytes) (v : verdict) : list piece :=
  match v with Accepted => [Tag (tag_number (p_type p)) time d] | _ => [] end.
(** [kept o l]: the tags kept by a call that saves something: one or none, at time 0. *)
Inductive kept : option flv_op -> list piece -> Prop :=
| Kp_nothing : kept None []
| Kp_header o p d v : o = FSaveAVC p \/ o = FSaveAAC p -> carried p d v -> kept (Some o) (tag_of p 0 d v)
| Kp_metadata md : kept (Some (FSaveMeta md))
    (if supported (TObj md) then [Tag 18 0 ([2; 0; 10] ++ str "onMetaData" ++ fst (written0 (TObj md)))] else []).

(** One call on a working writer after the calls [before]. *)
Inductive call_flv (before : list flv_op) : flv_op -> list piece -> verdict -> Prop :=
| Fl_mux p pts d v : carried p d v -> call_flv before (FMux p pts) (tag_of p pts d v) v
| Fl_header meta avc aac : kept (latest sel_meta before) meta -> kept (latest sel_avc before) avc -> kept (latest sel_aac before) aac ->
    call_flv before FHeader (Start (existsb sel_avc before) (existsb sel_aac before) :: meta ++ avc ++ aac) Accepted
| Fl_metadata md : call_flv before (FSaveMeta md) [] (if supported (TObj md) then Accepted else Refused)
| Fl_save o p d v : o = FSaveAVC p \/ o = FSaveAAC p -> carried p d v -> call_flv before o [] v.
(** A history: everything written, and the answer to every call. *)
Inductive flv_mixed : list flv_op -> list flv_op -> list piece -> list verdict -> Prop :=
| Fm_nil before : flv_mixed before [] [] []
| Fm_cons before o out v os out' vs : call_flv before o out v -> flv_mixed (before ++ [o]) os out' vs -> flv_mixed before (o :: os) (out ++ out') (v :: vs).
(** How a call answers. *)
Definition answers (r : res unit) (v : verdict) : Prop :=
  match v with Accepted => r = Ok tt | Refused => exists e, r = Err e | Crashed => r = Panic end.
