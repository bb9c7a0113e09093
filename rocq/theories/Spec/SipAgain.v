(** Messages parsed into an object with any history (C185). *)
From Coq Require Import String.
From Verif Require Import Base.Go Base.IO Base.Text Model.Sip Spec.Sip Spec.SipLine Spec.SipAddr Spec.SipWhole.
Import ListNotations. Local Open Scope list_scope. Local Open Scope Z_scope.

(** What is stored under each name; [None]: nothing, not even an empty list. *)
Definition table := bytes -> option (list bytes).
Definition stored (s : sip) : table := fun k => match s_headers s with Some m => mget k m | None => None end.
Definition no_map (s : sip) : Prop := s_headers s = None.
Definition under (t : table) (k : bytes) : list bytes := match t k with Some vs => vs | None => [] end.
Definition put (t : table) (k : bytes) (vs : list bytes) : table := fun k' => if bytes_eqb k' k then Some vs else t k'.

(** [into nil t0 n0 ls t n]: header lines [ls], read by an object that holds [t0] and read a field named [n0] last ([nil]: it
    has no map at all), give the table [t] and [n] as the last name. A field is added behind those of its name; a
    continuation line is added to the last value of the last name, be it of this message or not. *)
Inductive into (nil : Prop) (t0 : table) (n0 : bytes) : list bytes -> table -> bytes -> Prop :=
| I_none : into nil t0 n0 [] t0 n0
| I_field ls t n l a b m v : into nil t0 n0 ls t n -> ~ nil -> ~ continuation l -> l = a ++ str ":" ++ b -> without (str ":") a ->
    bare_of_spaces a m -> bare_of_spaces b v -> into nil t0 n0 (ls ++ [l]) (put t (to_lower m) (under t (to_lower m) ++ [v])) (to_lower m)
| I_more ls t n l vs v : into nil t0 n0 ls t n -> continuation l -> t n = Some (vs ++ [v]) ->
    into nil t0 n0 (ls ++ [l]) (put t n (vs ++ [v ++ str " " ++ trim_space l])) n
| I_other ls t n l : into nil t0 n0 ls t n -> ~ continuation l -> without (str ":") l -> into nil t0 n0 (ls ++ [l]) t n.

(** The first value of a name. A name stored with an empty list is looked up by its short form (C87). *)
Definition first_of (t : table) (name : bytes) : bytes :=
  match t name with
  | None => []
  | Some (v :: _) => v
  | Some [] => hd [] (under t (compact_of name))
  end.
(** The lines of a message, read into [s]: the object after the first line, the table and the last name. *)
Definition lines_into (s : sip) (ls : list bytes) (y : sip) (t : table) (n : bytes) : Prop :=
  ls = [] /\ y = s /\ t = stored s /\ n = s_last s \/
  exists first hs, ls = first :: hs /\ first_line_of first s y (Ok tt) /\ into (no_map s) (stored s) (s_last s) hs t n.
Definition readable (t : table) : Prop :=
  (forall n, In n [str "from"; str "to"; str "contact"] -> exists u, user_of (first_of t n) u) /\ exists v, via_of (first_of t (str "via")) v.
Definition object_of (y : sip) (t : table) (n : bytes) (contents payload : bytes) (x : sip) : Prop :=
  (s_version x = s_version y /\ s_method x = s_method y /\ s_request x = s_request y /\
   s_isresp x = s_isresp y /\ s_code x = s_code y /\ s_status x = s_status y) /\
  (forall k, stored x k = t k) /\ s_last x = n /\
  (exists u, s_from x = Some u /\ user_of (first_of t (str "from")) u) /\
  (exists u, s_to x = Some u /\ user_of (first_of t (str "to")) u) /\
  (exists u, s_contact x = Some u /\ user_of (first_of t (str "contact")) u) /\
  (exists q, s_cseq x = Some q /\ cseq_of (first_of t (str "cseq")) q) /\
  (exists v, s_via x = Some v /\ via_of (first_of t (str "via")) v) /\
  s_contents x = contents /\ s_payload x = payload.
