(** Messages that follow one another on one connection (C201). *)
From Coq Require Import String.
From Verif Require Import Base.Go Base.IO Base.Text Model.Sip Spec.Sip Spec.SipWhole Spec.SipMany.
Import ListNotations. Local Open Scope list_scope. Local Open Scope Z_scope.

(** A message, its headers (Content-Length among them) in the order they are written, and its text. Every name has a value, and
    the lines fit a buffer of this size. *)
Definition sending : Type := sip * hmap * bytes.
Definition sent_message (m : sending) : sip := fst (fst m).
Definition headers_sent (m : sending) : hmap := snd (fst m).
Definition text_sent (m : sending) : bytes := snd m.
Definition is_sent (size : Z) (m : sending) : Prop :=
  exists order s1 m1, text_message (sent_message m) /\ iteration order /\ sip_bytes order (sent_message m) = Ok (s1, text_sent m) /\ s_headers s1 = Some m1 /\
    headers_sent m = order m1 /\ (forall k, ~ In (k, []) m1) /\ lines_fit size (sent_message m) (headers_sent m).

(** What a first line is when it is taken for a header line: a request line has a colon, behind the scheme of its URI; a status line
    has none. *)
Definition first_as_field (s : sip) : list (bytes * bytes) :=
  match s_isresp s, s_request s with
  | false, Some r => [(to_lower (method_string (s_method s) ++ str " " ++ r_type r),
      r_user r ++ str "@" ++ r_host r ++ port_part (r_port r) ++ semicolon_string (r_args r) ++ str " " ++ version_string (s_version s))]
  | _, _ => []
  end.
(** The fields of a message and of those that follow it. *)
Definition fields_of (m : sending) (ms : list sending) : list (bytes * bytes) :=
  received (headers_sent m) ++ flat_map (fun m' => first_as_field (sent_message m') ++ received (headers_sent m')) ms.
(** The value a message has under a name in lower case. *)
Definition value_sent (k : bytes) (m : sending) : list bytes :=
  match mget k (headers_sent m) with Some (v :: vs) => [one_value v vs] | _ => [] end.
