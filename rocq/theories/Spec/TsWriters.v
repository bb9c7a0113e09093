(** A TS Mixer whose writers fail as they like and are replaced at any time (C188). *)
From Coq Require Import String.
From Verif Require Import Base.Go Base.IO Model.AmfTypes Model.Packet Model.Ts Spec.Parsers Spec.H264 Spec.Codec Spec.Ts Spec.TsClock Spec.FlvWriters Spec.Mixer.
Import ListNotations.
Local Open Scope Z_scope.

(** How a call answers if it is to be answered [v], and whether its Write calls succeeded. *)
Definition ts_answer (v : verdict) (ok : bool) : res unit :=
  if ok then match v with Accepted => Ok tt | Refused => Err EOther | Crashed => Panic end else Err EWrite.
(** The calls that write. *)
Definition writes (o : mix_op) : bool := match o with XMux _ | XHeader => true | _ => false end.
(** The Write calls [cs] that a call makes on a writer that works: one for each packet of 188 bytes; three tables, or the
    frame [fs], as a demultiplexer finds it; none if the call is refused, panics, or does not write. *)
Definition packets_for (o : mix_op) (fs : list sent_frame) (v : verdict) (cs : list bytes) : Prop :=
  Forall (fun c => len c = 188) cs /\
  (writes o = false \/ v <> Accepted -> cs = []) /\
  (o = XHeader -> v = Accepted -> exists l, read_stream (concat cs) = Some l /\ map ts_pid l = [0x11; 0; 0x1001]) /\
  (v = Accepted -> Forall (fun f => sf_key f = true -> 170 <= len (sf_media f)) fs ->
   exists video audio, demultiplex 0x100 (concat cs) = Some video /\ demultiplex 0x101 (concat cs) = Some audio /\
     Forall2 carries (of_type 0 fs) video /\ Forall2 carries (of_type 1 fs) audio).
(** [ts_ran before k w os w' rs]: calls [os] on a Mixer with the writer [w], which has seen the calls [before] and knows [k],
    leave the writer [w'] and answer [rs]. Which frames are meant, with which times, does not depend on any writer. *)
Inductive ts_ran : list mix_op -> known -> writer -> list mix_op -> writer -> list (res unit) -> Prop :=
| TsRan_nil before k w : ts_ran before k w [] w []
| TsRan_call before k w o k' fs v cs w1 ok os w' rs : call_mixed before k o k' fs v -> packets_for o fs v cs -> delivers cs w w1 ok ->
    ts_ran (before ++ [o]) k' w1 os w' rs -> ts_ran before k w (o :: os) w' (ts_answer v ok :: rs)
| TsRan_writer before k w w1 os w' rs : ts_ran before k w1 os w' rs -> ts_ran before k w (XSetWriter w1 :: os) w' (Ok tt :: rs).
(** The calls other than SetWriter. *)
Definition keeps (o : mix_op) : bool := match o with XSetWriter _ => false | _ => true end.
(** [learned before k]: what the codecs know after the calls [before]. *)
Inductive learned : list mix_op -> known -> Prop :=
| Learned_nil : learned [] nothing
| Learned_call before k o k' fs v : learned before k -> call_mixed before k o k' fs v -> learned (before ++ [o]) k'.
