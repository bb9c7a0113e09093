(** The first line of a SIP message and the object it is parsed into (C152), and what a reader of a SIP object sees of
    the last message parsed into it (C153). *)
From Coq Require Import String.
From Verif Require Import Base.Go Base.IO Base.Text Model.Sip Spec.Sip.
Import ListNotations. Local Open Scope list_scope. Local Open Scope Z_scope.

(** A decimal numeral, with or without sign, whose value is an int. *)
Fixpoint number (d : bytes) : Z :=
  match d with [] => 0 | c :: t => (c - 48) * 10 ^ len t + number t end.
Definition digits (d : bytes) : Prop := d <> [] /\ Forall (fun c => 48 <= c <= 57) d.
Definition numeral (s : bytes) (n : Z) : Prop :=
  - 2 ^ 63 <= n < 2 ^ 63 /\
  exists d, digits d /\ ((s = d \/ s = str "+" ++ d) /\ n = number d \/ s = str "-" ++ d /\ n = - number d).
(** Three words; the third is the rest of the line. *)
Definition three_words (line a b c : bytes) : Prop :=
  line = a ++ str " " ++ b ++ str " " ++ c /\ without (str " ") a /\ without (str " ") b.
Definition starts_SIP (a : bytes) : Prop := exists t, a = str "SIP" ++ t.
Definition version_word (a : bytes) (v : Z) : Prop :=
  v = 1 /\ reads_as a (str "SIP/1.0") \/ v = 2 /\ reads_as a (str "SIP/2.0").
Definition method_word (a : bytes) (m : Z) : Prop :=
  exists name, reads_as a name /\
    In (m, name) [(1, str "INVITE"); (2, str "ACK"); (3, str "BYE"); (4, str "CANCEL"); (5, str "OPTIONS"); (6, str "REGISTER");
                  (7, str "PRACK"); (8, str "SUBSCRIBE"); (9, str "NOTIFY"); (10, str "PUBLISH"); (11, str "INFO");
                  (12, str "REFER"); (13, str "MESSAGE"); (14, str "UPDATE"); (15, str "PING")].

(** The object but for the fields a first line is about. *)
Definition object (s : sip) (version method : Z) (req : option request) (isresp : bool) (code : Z) (reason : bytes) : sip :=
  mkSip (s_contents s) (s_payload s) version (s_headers s) (s_from s) (s_to s) (s_contact s) (s_cseq s) (s_via s)
        method req isresp code reason (s_last s).
(** [first_line_of line s x r]: ParseFirstLine(line) on the object s returns or panics as r says and leaves x. *)
Inductive first_line_of (line : bytes) (s : sip) : sip -> res unit -> Prop :=
| FL_status a b c v n : three_words line a b c -> starts_SIP a -> version_word a v -> numeral b n ->
    first_line_of line s (object s v (s_method s) (s_request s) true n c) (Ok tt)
| FL_request a b c m r v : three_words line a b c -> ~ starts_SIP a -> method_word a m -> new_request b = Ok r -> version_word c v ->
    first_line_of line s (object s v m (Some r) (s_isresp s) (s_code s) (s_status s)) (Ok tt)
| FL_words : (forall a b c, ~ three_words line a b c) ->
    first_line_of line s s (Err EOther)
| FL_bad_status_version a b c : three_words line a b c -> starts_SIP a -> (forall v, ~ version_word a v) ->
    first_line_of line s (object s 0 (s_method s) (s_request s) true (s_code s) (s_status s)) (Err EOther)
| FL_bad_code a b c v : three_words line a b c -> starts_SIP a -> version_word a v -> (forall n, ~ numeral b n) ->
    first_line_of line s (object s v (s_method s) (s_request s) true (s_code s) (s_status s)) (Err EOther)
| FL_bad_method a b c : three_words line a b c -> ~ starts_SIP a -> (forall m, ~ method_word a m) ->
    first_line_of line s (object s (s_version s) 0 (s_request s) (s_isresp s) (s_code s) (s_status s)) (Err EOther)
| FL_bad_version a b c m r : three_words line a b c -> ~ starts_SIP a -> method_word a m -> new_request b = Ok r -> (forall v, ~ version_word c v) ->
    first_line_of line s (object s 0 m (Some r) (s_isresp s) (s_code s) (s_status s)) (Err EOther)
| FL_bad_uri a b c m : three_words line a b c -> ~ starts_SIP a -> method_word a m -> new_request b = Panic ->
    first_line_of line s (object s (s_version s) m (s_request s) (s_isresp s) (s_code s) (s_status s)) Panic.

(** Two objects show the same message: a reader that looks at IsResponse first and then at the fields of a response or
    at those of a request sees no difference. *)
Definition same_seen (x y : sip) : Prop :=
  s_contents x = s_contents y /\ s_payload x = s_payload y /\ s_version x = s_version y /\ s_headers x = s_headers y /\
  s_from x = s_from y /\ s_to x = s_to y /\ s_contact x = s_contact y /\ s_cseq x = s_cseq y /\ s_via x = s_via y /\
  s_isresp x = s_isresp y /\
  (if s_isresp x then s_code x = s_code y /\ s_status x = s_status y else s_method x = s_method y /\ s_request x = s_request y).
