(** What a viewer who joins an FLV stream should receive, in terms of the tag bodies published so far (Video File Format Specification, E.4.2
    and E.4.3); no headers, no cache. *)
From Coq Require Import String.
From Verif Require Import Base.Go Base.IO Model.AmfTypes Model.Packet Spec.Gop Spec.Flv.
Import ListNotations.

Inductive body_kind := BMeta | BVideoConfig | BAacConfig | BKey | BInter | BOther.
(** Frame type in the upper half of the first byte (1 key, 2 inter), packet type 0 in the second for configurations; AAC is sound format 10. *)
Definition body_kind_of (p : packet) : body_kind :=
  if p_type p =? 2 then BMeta
  else match p_data p with
       | b0 :: b1 :: more =>
           if p_type p =? 0 then
             if len more <? 3 then BOther
             else if b0 / 16 =? 1 then (if b1 =? 0 then BVideoConfig else BKey) else if b0 / 16 =? 2 then BInter else BOther
           else if p_type p =? 1 then (if (b0 / 16 =? 10) && (b1 =? 0) then BAacConfig else BOther)
           else BOther
       | _ => BOther
       end.
Definition has_kind (x : body_kind) (p : packet) : bool :=
  match body_kind_of p, x with
  | BMeta, BMeta | BVideoConfig, BVideoConfig | BAacConfig, BAacConfig | BKey, BKey | BInter, BInter | BOther, BOther => true
  | _, _ => false
  end.
(** The groups of pictures: a key frame and the inter frames after it, at most 1025 in all. *)
Definition add_body (gs : list (list packet)) (p : packet) : list (list packet) :=
  match body_kind_of p with
  | BKey => gs ++ [[p]]
  | BInter => match rev gs with g :: _ => if len g <=? 1024 then app_last gs p else gs | [] => gs end
  | _ => gs
  end.
Definition body_groups (ps : list packet) : list (list packet) := fold_left add_body ps [].
(** The bodies a viewer needs: the latest metadata and configurations, then the last N groups. *)
Definition to_viewer (N : nat) (ps : list packet) : list packet :=
  opt (latest (has_kind BMeta) ps) ++ opt (latest (has_kind BVideoConfig) ps) ++ opt (latest (has_kind BAacConfig) ps) ++ concat (lastn N (body_groups ps)).

(** The content of a tag: the body, without one @setDataFrame in front of the name that metadata starts with. *)
Inductive tag_content (p : packet) : bytes -> Prop :=
| TC_media : p_type p = 0 \/ p_type p = 1 -> tag_content p (p_data p)
| TC_meta d s rest : p_type p = 2 -> 0 < len s < 65536 -> s <> str "@setDataFrame" -> d = [2] ++ be16 (len s) ++ s ++ rest ->
    p_data p = d \/ p_data p = frame_header ++ d -> tag_content p d.
(** A body that fits in a tag. Bodies of other types are for nobody. *)
Definition publishable (p : packet) : Prop :=
  is_bytes (p_data p) /\ 0 <= p_ts p < 2 ^ 32 /\ (0 <= p_type p <= 2 -> exists d, tag_content p d /\ len d < 2 ^ 24).
(** The tags of the bodies, at their own times. *)
Definition viewer_tags (ps : list packet) (ts : list ftag) : Prop :=
  Forall2 (fun p t => exists d, tag_content p d /\ t = tag_for (tag_number (p_type p)) (p_ts p) d) ps ts.
