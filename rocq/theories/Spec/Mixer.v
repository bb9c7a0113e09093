(** What a TS Mixer does, call by call, from the history of calls alone: which frames it sends, and what it answers. *)
From Coq Require Import String.
From Verif Require Import Base.Go Base.IO Model.AmfTypes Model.Packet Model.Ts Spec.Parsers Spec.H264 Spec.Codec Spec.Ts Spec.TsClock.
Import ListNotations.
Local Open Scope Z_scope.

(** A frame as it is sent. *)
Record sent_frame := mkSent { sf_type : Z; sf_key : bool; sf_pts : Z; sf_dts : Z; sf_media : bytes }.
Definition keyed (p : packet) : bool := match video_of p with Some v => (p_type p =? 0) && v_key v | None => false end.
Definition of_type (ty : Z) (l : list sent_frame) : list sent_frame := filter (fun f => sf_type f =? ty) l.
(** A PES packet that carries a frame. *)
Definition carries (f : sent_frame) (e : pes) : Prop :=
  pes_sid e = (if sf_type f =? 0 then 0xe0 else 0xc0) /\ pes_payload e = sf_media f /\ option_map snd (pes_pts e) = Some (sf_pts f) /\
  option_map snd (pes_dts e) = (if (sf_type f =? 0) && negb (sf_pts f =? sf_dts f) then Some (sf_dts f) else None).

(** ** Metadata *)
(** The text under key k of the metadata; "undefined" if there is none, or a value that is not a text. *)
Definition name_in (md : omap) (k n : bytes) : Prop :=
  In (k, VStr n) md \/ (n = str "undefined" /\ forall s, ~ In (k, VStr s) md).
(** The metadata saved last. *)
Fixpoint last_meta (os : list mix_op) (d : option omap) : option omap :=
  match os with [] => d | XMeta md :: os' => last_meta os' (Some md) | _ :: os' => last_meta os' d end.
(** The provider and the service it names. *)
Definition names_in (md : option omap) (names : option (bytes * bytes)) : Prop :=
  match md, names with
  | None, None => True
  | Some m, Some (provider, service) => NoDup (map fst m) /\ name_in m (str "Provider") provider /\ name_in m (str "Service") service
  | _, _ => False
  end.
Definition names_len (names : option (bytes * bytes)) : Z := match names with None => 0 | Some (provider, service) => len provider + len service end.

(** ** Calls *)
(** A key frame whose PES packet has 176 to 183 bytes cannot be sent (C38). The header has 19 bytes for video with two times, else 14. *)
Definition unsendable (p : packet) (pts dts : Z) (media : bytes) : bool :=
  let n := (if (p_type p =? 0) && negb (pts =? dts) then 19 else 14) + len media in keyed p && (176 <=? n) && (n <=? 183).
(** One call on a working writer after the calls [before]; [k] is what the codecs know, before and after. *)
Inductive call_mixed (before : list mix_op) (k : known) : mix_op -> known -> list sent_frame -> verdict -> Prop :=
| Mx_frame p k' media : codec_converted k (route_of p) k' media Accepted -> unsendable p (k_pts (clock_after before)) (k_dts (clock_after before)) media = false ->
    call_mixed before k (XMux p) k' [mkSent (p_type p) (keyed p) (k_pts (clock_after before)) (k_dts (clock_after before)) media] Accepted
| Mx_unsendable p k' media : codec_converted k (route_of p) k' media Accepted -> unsendable p (k_pts (clock_after before)) (k_dts (clock_after before)) media = true ->
    call_mixed before k (XMux p) k' [] Crashed
| Mx_refused p k' media v : codec_converted k (route_of p) k' media v -> v <> Accepted -> call_mixed before k (XMux p) k' [] v
| Mx_header o p k' media v : o = XSaveAVC p \/ o = XSaveAAC p -> codec_converted k (route_of p) k' media v ->
    call_mixed before k o k' [] (match v with Accepted => if unsendable p 0 0 media then Crashed else Accepted | _ => v end)
| Mx_metadata md : call_mixed before k (XMeta md) k [] Accepted
| Mx_tables names : names_in (last_meta before None) names -> call_mixed before k XHeader k [] (if 158 <? names_len names then Crashed else Accepted)
| Mx_update p ms cts : call_mixed before k (XUpdate p ms cts) k [] (match known_rate k with None => if p_type p =? 1 then Refused else Accepted | Some _ => Accepted end).
(** A history: all the frames sent, and the answer to every call. *)
Inductive mixed : list mix_op -> known -> list mix_op -> list sent_frame -> list verdict -> Prop :=
| Mixed_nil before k : mixed before k [] [] []
| Mixed_cons before k o k' fs v os fs' vs : call_mixed before k o k' fs v -> mixed (before ++ [o]) k' os fs' vs -> mixed before k (o :: os) (fs ++ fs') (v :: vs).
