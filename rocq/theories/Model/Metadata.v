(** Model of amf/metadata.go. *)
From Coq Require Import String.
From Verif Require Import Base.Go Base.IO Model.AmfTypes Model.Amf3 Model.Amf0.

(** metadata.go:12-15. *)
Definition set_data_frame : bytes := str "@setDataFrame".
Definition on_metadata : bytes := str "onMetaData".

(** metadata.go:18-31: setFrameFrame, the AMF0 encoding of "@setDataFrame" made by init(). *)
Definition set_frame_frame : bytes := w_out (fst (encode0 (TStr set_data_frame) buffer0)).

(** metadata.go:34-60 AddMetaHeader. [dec] is d.Decode of the given Decoder and [d0] its tables; the
    reader is a bytes.Reader over p. Returns the decoder state as well. *)
Definition add_meta_header (dec : Dm value) (d0 : dstate) (p : bytes) : dstate * res bytes :=
  match dec (set_r (bytes_reader p) d0) with
  | (d, Ok (VStr s)) => (d, Ok (if bytes_eqb s set_data_frame then p else set_frame_frame ++ p))
  | (d, Ok _) => (d, Err EOther)
  | (d, Err e) => (d, Err e)
  | (d, Panic) => (d, Panic)
  | (d, OutOfFuel) => (d, OutOfFuel)
  end.

(** metadata.go:63-83 DelMetaHeader. p[len(setFrameFrame):] panics if p is shorter. *)
Definition del_meta_header (dec : Dm value) (d0 : dstate) (p : bytes) : dstate * res bytes :=
  match dec (set_r (bytes_reader p) d0) with
  | (d, Ok (VStr s)) =>
      (d, if bytes_eqb s set_data_frame
          then if len p <? len set_frame_frame then Panic else Ok (drop p (len set_frame_frame))
          else Ok p)
  | (d, Ok _) => (d, Err EOther)
  | (d, Err e) => (d, Err e)
  | (d, Panic) => (d, Panic)
  | (d, OutOfFuel) => (d, OutOfFuel)
  end.
