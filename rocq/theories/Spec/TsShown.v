(** What the calls after a Mux make of the bytes its packet shows. *)
From Verif Require Import Base.Go Base.IO Model.AmfTypes Model.Packet Model.Parsers Model.Ts Model.TsAlias Spec.TsAlias.

(** What each Mux of mixer [i] among some calls converts its packet to, all packets owning their bytes: the bytes
    the codec parser writes to a fresh buffer, up to its error if it fails. A new mixer in the variable is another
    mixer. *)
Fixpoint puts (i : nat) (s : pworld) (os : list aop) : list bytes :=
  match os with
  | [] => []
  | o :: os' =>
      match o with
      | ANewMix i' _ => if Nat.eqb i' i then [] else puts i (fst (pstep s o)) os'
      | AMux i' k => match (if Nat.eqb i' i then pw_mixes s i else None) with
                     | Some (x, _) => [w_out (fst (snd (codec_parse (x_codec x) (pw_pkts s k) buffer0)))]
                     | None => []
                     end ++ puts i (fst (pstep s o)) os'
      | _ => puts i (fst (pstep s o)) os'
      end
  end.
(** The calls do not assign packet [k] or hand it over. *)
Definition spares (k : nat) (o : aop) : Prop :=
  match o with
  | ASet k' _ | ACopy k' _ | AMux _ k' | ASaveAVC _ k' | ASaveAAC _ k' => k' <> k
  | _ => True
  end.

(** [w] written over the beginning of [d], which keeps its length. *)
Definition over (d w : bytes) : bytes := take w (len d) ++ drop d (len w).
(** What [d] becomes, in an array of [room] bytes, when [ws] are converted one after the other: each goes over it from
    the beginning, until the first that has no room; of that one a part may, and none of those after it. *)
Inductive shown (room : Z) : bytes -> list bytes -> bytes -> Prop :=
| shown_end d : shown room d [] d
| shown_fits d w ws e : len w <= room -> shown room (over d w) ws e -> shown room d (w :: ws) e
| shown_left d w ws j : room < len w -> 0 <= j <= room -> shown room d (w :: ws) (over d (take w j)).
