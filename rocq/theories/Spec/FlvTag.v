(** What an FLV Tag reports after any history of ParseMediaTagHeader calls: each accessor in terms of the bodies
    passed, without the state of the Tag. *)
From Verif Require Import Base.Go.

(** A call: media type (0 video, 1 audio) and body. The history of a Tag is the list of its calls, oldest first. *)
Definition call : Type := Z * bytes.
(** The bodies the accessors depend on. *)
Definition video_body (c : call) : Prop := fst c = 0 /\ 5 <= len (snd c).
Definition audio_body (c : call) : Prop := fst c = 1 /\ 2 <= len (snd c).
Definition first_byte (c : call) : Z := nth 0 (snd c) 0.
Definition second_byte (c : call) : Z := nth 1 (snd c) 0.
(** A key frame (1) or inter frame (2), whose body has a packet type and a composition time. *)
Definition timed_body (c : call) : Prop := video_body c /\ (first_byte c / 16 = 1 \/ first_byte c / 16 = 2).
Definition aac_body (c : call) : Prop := audio_body c /\ first_byte c / 16 = 10.
(** The composition time of a body, as an unsigned number. *)
Definition time_of (c : call) : Z := nth 2 (snd c) 0 * 65536 + nth 3 (snd c) 0 * 256 + nth 4 (snd c) 0.

(** [last_such P h o]: o is the latest call of the history that satisfies P. *)
Inductive last_such (P : call -> Prop) : list call -> option call -> Prop :=
| LS_none h : (forall c, In c h -> ~ P c) -> last_such P h None
| LS_some h c r : P c -> (forall d, In d r -> ~ P d) -> last_such P (h ++ c :: r) (Some c).
(** [last_two P h o p]: o is the latest, p the one before it. *)
Inductive last_two (P : call -> Prop) : list call -> option call -> option call -> Prop :=
| LT_none h : last_such P h None -> last_two P h None None
| LT_some h c r o : P c -> (forall d, In d r -> ~ P d) -> last_such P h o -> last_two P (h ++ c :: r) (Some c) o.
Definition of_last (f : call -> Z) (o : option call) : Z := match o with None => 0 | Some c => f c end.

(** x as a signed 32-bit number. *)
Definition signed32 (x : Z) : Z := if x <? 2147483648 then x else x - 4294967296.
(** The time the Tag holds: that of the latest timed body below, the last byte of the time before above it. *)
Definition held_time (o p : option call) : Z := signed32 (of_last time_of p mod 256 * 16777216 + of_last time_of o).

(** What one call returns: the number of header bytes, or none if it is refused. *)
Inductive header_bytes : call -> option Z -> Prop :=
| HB_timed c : timed_body c -> header_bytes c (Some 5)
| HB_video c : video_body c -> ~ timed_body c -> header_bytes c (Some 1)
| HB_aac c : aac_body c -> header_bytes c (Some 2)
| HB_mp3 c : audio_body c -> first_byte c / 16 = 2 -> header_bytes c (Some 1)
| HB_meta b : header_bytes (2, b) (Some 0)
| HB_short_video b : len b < 5 -> header_bytes (0, b) None
| HB_short_audio b : len b < 2 -> header_bytes (1, b) None
| HB_sound c : audio_body c -> first_byte c / 16 <> 10 -> first_byte c / 16 <> 2 -> header_bytes c None
| HB_type ty b : ~ 0 <= ty <= 2 -> header_bytes (ty, b) None.
