(** An FLV Mixer whose writers fail as they like and are replaced at any time (C187). *)
From Coq Require Import String.
From Verif Require Import Base.Go Base.IO Model.AmfTypes Model.Packet Model.Flv Spec.Gop Spec.Flv Spec.Codec Spec.FlvMixer.
Import ListNotations.
Local Open Scope Z_scope.

(** The Write calls that are meant: three for a tag that is muxed, one for the file header and one for each tag behind it. *)
Definition tag_parts (p : piece) : list bytes :=
  match p with
  | Start _ _ => []
  | Tag ty time d => [ty :: be24 (len d) ++ be24 time ++ [u8 (time / 2 ^ 24)] ++ [0; 0; 0]; d; be32 (11 + len d)]
  end.
Definition meant (o : flv_op) (out : list piece) : list bytes :=
  match o with FMux _ _ => flat_map tag_parts out | _ => map piece_bytes out end.
(** [delivers cs w w' ok]: the Write calls [cs] on the writer [w], up to the first that fails, leave [w']. *)
Inductive delivers : list bytes -> writer -> writer -> bool -> Prop :=
| De_all w : delivers [] w w true
| De_written c cs w w' ok : w_script w (w_calls w) = None -> delivers cs (mkW (w_out w ++ c) (S (w_calls w)) (w_script w)) w' ok -> delivers (c :: cs) w w' ok
| De_failed c cs w n : w_script w (w_calls w) = Some n -> delivers (c :: cs) w (mkW (w_out w ++ firstn n c) (S (w_calls w)) (w_script w)) false.
(** How a call answers if it is to be answered [v], and whether its Write calls succeeded. *)
Definition answered (r : res unit) (v : verdict) (ok : bool) : Prop := if ok then answers r v else r = Err EWrite.
(** [flv_ran before w os w' rs]: calls [os] on a Mixer with the writer [w], which has seen the calls [before], leave the writer
    [w'] and answer [rs]. What is meant to be written by a call does not depend on any writer. *)
Inductive flv_ran : list flv_op -> writer -> list flv_op -> writer -> list (res unit) -> Prop :=
| Ran_nil before w : flv_ran before w [] w []
| Ran_call before w o out v w1 ok r os w' rs : call_flv before o out v -> delivers (meant o out) w w1 ok -> answered r v ok ->
    flv_ran (before ++ [o]) w1 os w' rs -> flv_ran before w (o :: os) w' (r :: rs)
| Ran_writer before w w1 os w' rs : flv_ran before w1 os w' rs -> flv_ran before w (FSetWriter w1 :: os) w' (Ok tt :: rs).
