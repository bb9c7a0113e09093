(** What a message with any number of values per header is written as and read back as (C196). *)
From Coq Require Import String.
From Verif Require Import Base.Go Base.IO Base.Text Model.Sip Spec.Sip Spec.SipLine Spec.SipAddr Spec.SipWhole.
Import ListNotations. Local Open Scope list_scope. Local Open Scope Z_scope.

(** A header map with lower-case names and any number of values, none of which has a CR or LF in it. *)
Definition text_headers (m : hmap) : Prop :=
  NoDup (map fst m) /\ Forall (fun p => lower_name (fst p) /\ Forall (without [13; 10]) (snd p)) m.
(** A message with such a map and a plain first line. *)
Definition text_message (s : sip) : Prop :=
  (if s_isresp s then - 9223372036854775808 <= s_code s <= 9223372036854775807
   else 1 <= s_method s <= 15 /\ exists r, s_request s = Some r /\ plain_request r) /\
  (exists m, s_headers s = Some m /\ text_headers m) /\ len (s_payload s) <= 9223372036854775807.

(** The header fields of the text, in the order in which the names are visited: the name, what stands behind the colon
    on its line, and the lines that follow with a space in front, which continue it. A name without values does not
    end its line: the next name is written behind its colon. *)
Fixpoint sent (open : option (bytes * bytes)) (l : hmap) : list (bytes * (bytes * list bytes)) :=
  match open, l with
  | None, [] => []
  | Some (k, t), [] => [(k, (t, []))]
  | None, (k, []) :: l => sent (Some (k, [])) l
  | None, (k, v :: vs) :: l => (k, (str " " ++ v, vs)) :: sent None l
  | Some (k, t), (k2, []) :: l => sent (Some (k, t ++ k2 ++ str ":")) l
  | Some (k, t), (k2, v :: vs) :: l => (k, (t ++ k2 ++ str ": " ++ v, vs)) :: sent None l
  end.
Definition sent_lines (l : hmap) : list bytes :=
  flat_map (fun f => (fst f ++ str ":" ++ fst (snd f)) :: map (fun u => str " " ++ u) (snd (snd f))) (sent None l).
(** The fields as they are read: a name and one value. *)
Definition received (l : hmap) : list (bytes * bytes) :=
  map (fun f => (fst f, trim_sp (fst (snd f)) ++ flat_map (fun u => str " " ++ trim_space u) (snd (snd f)))) (sent None l).
(** The last name visited has a value. *)
Definition finished (l : hmap) : Prop := exists l0 k v vs, l = l0 ++ [(k, v :: vs)].
(** The first line and the lines of the fields fit a buffer. *)
Definition lines_fit (size : Z) (s : sip) (l : hmap) : Prop :=
  (forall t, first_line s = Ok t -> len t <= size) /\ Forall (fun t => len t + 2 <= size) (sent_lines l).
(** The first line of s has been read into x. *)
Definition same_first_line (s x : sip) : Prop :=
  s_version x = shown_version (s_version s) /\ s_isresp x = s_isresp s /\
  (if s_isresp s then s_code x = s_code s /\ s_status x = status_text (s_code s)
   else s_method x = s_method s /\ exists r r', s_request s = Some r /\ s_request x = Some r' /\
     r_type r' = r_type r /\ r_user r' = r_user r /\ r_host r' = r_host r /\ r_port r' = r_port r /\ same_map (r_args r') (r_args r)).
(** What a name with the values v and vs is read back as. *)
Definition one_value (v : bytes) (vs : list bytes) : bytes := trim_sp v ++ flat_map (fun u => str " " ++ trim_space u) vs.
