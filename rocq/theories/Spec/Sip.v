(** Vocabulary for the SIP properties, independent of how the sips package works. *)
From Coq Require Import String Permutation.
From Verif Require Import Base.Go Base.IO Base.Text Model.Sip.

(** A printable ASCII character other than the space. *)
Definition graphic (c : Z) : Prop := 33 <= c <= 126.
(** None of the characters of [bad] occurs in s. *)
Definition without (bad s : bytes) : Prop := Forall (fun c => ~ In c bad) s.

(** The characters of v with index in [a, b). *)
Fixpoint between_from (i : Z) (v : bytes) (a b : Z) : bytes :=
  match v with
  | [] => []
  | c :: v' => if (a <=? i) && (i <? b) then c :: between_from (i + 1) v' a b else between_from (i + 1) v' a b
  end.
Definition between (v : bytes) (a b : Z) : bytes := between_from 0 v a b.

(** Go maps: the list holds the fields with distinct keys; two maps are the same if every key has the same value. *)
Definition same_map {A} (m1 m2 : smap A) : Prop := forall k, mget k m1 = mget k m2.

(** Parameters: a key is a non-empty run of graphic characters without , ; = and the quote; a value is a run of
    graphic characters without , ; and the quote (the empty value is a parameter without value). *)
Definition plain_param (p : bytes * bytes) : Prop :=
  fst p <> [] /\ Forall graphic (fst p) /\ without (str ",;=""") (fst p) /\
  Forall graphic (snd p) /\ without (str ",;""") (snd p).
Definition plain_args (a : args) : Prop := NoDup (map fst a) /\ Forall plain_param a.

Definition scheme (t : bytes) : Prop := t = str "sip" \/ t = str "sips" \/ t = str "tel".

(** Equal up to the case of ASCII letters. *)
Inductive same_letter : Z -> Z -> Prop :=
| SL_same c : same_letter c c
| SL_up c : 65 <= c <= 90 -> same_letter c (c + 32)
| SL_down c : 65 <= c <= 90 -> same_letter (c + 32) c.
Definition same_ignoring_case (a b : bytes) : Prop := Forall2 same_letter a b.

(** A header as RFC 3261 writes it on one line: a lower-case name of graphic characters without colon, one value of
    one line that neither starts nor ends with a space. *)
Definition lower_name (k : bytes) : Prop :=
  k <> [] /\ Forall (fun c => graphic c /\ ~ 65 <= c <= 90 /\ c <> 58) k.
Definition one_line (v : bytes) : Prop :=
  without [13; 10] v /\ (forall t, v <> 32 :: t) /\ (forall t, v <> t ++ [32]).
Definition plain_header (p : bytes * list bytes) : Prop := lower_name (fst p) /\ exists v, snd p = [v] /\ one_line v.
Definition plain_headers (m : hmap) : Prop := NoDup (map fst m) /\ Forall plain_header m.

(** [reads_as s n]: s is n up to ASCII case, where U+0131 (dotless i) may stand for I and U+017F (long s) for S. *)
Inductive reads_as : bytes -> bytes -> Prop :=
| RA_nil : reads_as [] []
| RA_char c s n : reads_as s n -> reads_as (c :: s) (c :: n)
| RA_lower c s n : 65 <= c <= 90 -> reads_as s n -> reads_as ((c + 32) :: s) (c :: n)
| RA_dotless_i s n : reads_as s n -> reads_as (196 :: 177 :: s) (73 :: n)
| RA_long_s s n : reads_as s n -> reads_as (197 :: 191 :: s) (83 :: n).

(** A request URI on one line. *)
Definition plain_request (r : request) : Prop :=
  scheme (r_type r) /\ without [64; 59; 32; 13; 10] (r_user r) /\ without [58; 59; 32; 13; 10] (r_host r) /\
  without [59; 32; 13; 10] (r_port r) /\ plain_args (r_args r).
(** The From, To, Contact and Via headers, if present, are acceptable to their parsers (C84 says when they are not). *)
Definition addresses_ok (h : header) : Prop :=
  (forall n, In n [str "contact"; str "from"; str "to"] -> exists u, new_user (get_first h n) = Ok u) /\
  exists v, new_via (get_first h (str "via")) = Ok v.
(** A message every part of which is plain: a response with an int code, or a request with a known method and a
    plain URI; one plain value per header; a payload whose length is an int. *)
Definition plain_message (s : sip) : Prop :=
  (if s_isresp s then - 9223372036854775808 <= s_code s <= 9223372036854775807
   else 1 <= s_method s <= 15 /\ exists r, s_request s = Some r /\ plain_request r) /\
  (exists m, s_headers s = Some m /\ plain_headers m) /\ addresses_ok (s_headers s) /\
  len (s_payload s) <= 9223372036854775807.
(** `range` over a map visits the fields in some order. *)
Definition iteration (order : hmap -> hmap) : Prop := forall m, Permutation m (order m).
(** Every line of the serialized message fits a read buffer of the given size. *)
Definition fits (size : Z) (s : sip) : Prop :=
  (forall l, first_line s = Ok l -> 0 <= len l <= size) /\
  (forall k v m, s_headers s = Some m -> In (k, [v]) m -> len k + len v + 4 <= size).
(** ParseHeader called on one line after the other, until one panics. *)
Fixpoint feed (ls : list bytes) (s : sip) : sip * res unit :=
  match ls with
  | [] => (s, Ok tt)
  | l :: ls' => match parse_header l s with
                | (s', Ok _) => feed ls' s'
                | r => r
                end
  end.
(** A continuation line starts with a space or a tab; any other line with a colon is a header line. *)
Definition continuation (l : bytes) : Prop := exists t, l = 32 :: t \/ l = 9 :: t.
Definition header_line (l : bytes) : Prop := ~ continuation l /\ In 58 l.
(** An element of a parameter list that ends at its equals sign, or one quote after it. *)
Definition broken (e : bytes) : Prop := exists k, without [61] k /\ (e = k ++ [61] \/ e = k ++ [61; 34]).
Definition transport (t : bytes) : Prop := t = str "UDP" \/ t = str "TCP" \/ t = str "TLS" \/ t = str "SCTP".
(** Lines terminated by CRLF. *)
Definition with_crlf (ls : list bytes) : bytes := flat_map (fun l => l ++ [13; 10]) ls.
(** The version a reader sees in the text of a message: 1, or 2 for everything else. *)
Definition shown_version (v : Z) : Z := if v =? 1 then 1 else 2.
(** A reader (bufio.NewReaderSize) about to deliver the given blocks, one per Read. *)
Definition reader (blocks : list bytes) (size : Z) : bufr := mkB [] false blocks size.
(** A display name as strconv.Quote leaves it, that cannot be taken for a URI or a parameter: printable ASCII without
    quote, backslash, colon and semicolon. *)
Definition plain_name (n : bytes) : Prop := n <> [] /\ Forall (fun c => 32 <= c <= 126) n /\ without [34; 92; 58; 59] n.
(** A digest parameter: the key is a non-empty run of graphic characters without separators, quote and equals sign; the
    value is any printable ASCII text, quotes and backslashes included. *)
Definition digest_param (p : bytes * bytes) : Prop :=
  fst p <> [] /\ Forall graphic (fst p) /\ without (str ",;=""") (fst p) /\ Forall (fun c => 32 <= c <= 126) (snd p).
Definition digest_args (a : args) : Prop := NoDup (map fst a) /\ Forall digest_param a.
(** Every equals sign is directly followed by a graphic character other than comma and semicolon. *)
Fixpoint equals_followed (s : bytes) : Prop :=
  match s with
  | [] => True
  | c :: t => (c = 61 -> exists d u, t = d :: u /\ graphic d /\ d <> 44 /\ d <> 59) /\ equals_followed t
  end.
(** The 19 compact names the package knows (RFC 3261 20, and the later RFCs). *)
Definition compact_table : list (bytes * bytes) :=
  [(str "accept-contact", str "a"); (str "referred-by", str "b"); (str "content-type", str "c"); (str "request-disposition", str "d");
   (str "content-encoding", str "e"); (str "from", str "f"); (str "call-id", str "i"); (str "reject-contact", str "j");
   (str "supported", str "k"); (str "content-length", str "l"); (str "contact", str "m"); (str "event", str "o");
   (str "refer-to", str "r"); (str "subject", str "s"); (str "to", str "t"); (str "allow-events", str "u");
   (str "via", str "v"); (str "session-expires", str "x"); (str "identity", str "y")].
(** Parsing the text of [s] gave [x]: everything but the payload is what it was. Header values are compared under every
    name; content-length is what Bytes put there; From, To, Contact, CSeq and Via are those the headers of [s] describe. *)
Definition same_message (s x : sip) : Prop :=
  (forall n, get_header (s_headers x) n =
     if bytes_eqb (to_lower n) (str "content-length") then [itoa (len (s_payload s))] else get_header (s_headers s) n) /\
  s_version x = shown_version (s_version s) /\ s_isresp x = s_isresp s /\
  (if s_isresp s then s_code x = s_code s /\ s_status x = status_text (s_code s)
   else s_method x = s_method s /\ exists r r', s_request s = Some r /\ s_request x = Some r' /\
     r_type r' = r_type r /\ r_user r' = r_user r /\ r_host r' = r_host r /\ r_port r' = r_port r /\ same_map (r_args r') (r_args r)) /\
  (exists u, new_user (get_first (s_headers s) (str "contact")) = Ok u /\ s_contact x = Some u) /\
  (exists u, new_user (get_first (s_headers s) (str "from")) = Ok u /\ s_from x = Some u) /\
  (exists u, new_user (get_first (s_headers s) (str "to")) = Ok u /\ s_to x = Some u) /\
  (exists q, new_cseq (get_first (s_headers s) (str "cseq")) = Ok q /\ s_cseq x = Some q) /\
  (exists v, new_via (get_first (s_headers s) (str "via")) = Ok v /\ s_via x = Some v).
(** The same object but for Contents and Payload. *)
Definition same_but_layer (x y : sip) : Prop := with_layer [] [] x = with_layer [] [] y.
(** A header field as it may arrive: name in any case, value, and continuation lines (leading white space, text). *)
Record hfield := mkField { f_name : bytes; f_value : bytes; f_more : list (Z * bytes) }.
Definition field_name (n : bytes) : Prop := n <> [] /\ Forall (fun c => graphic c /\ c <> 58) n.
Definition plain_field (f : hfield) : Prop :=
  field_name (f_name f) /\ one_line (f_value f) /\
  Forall (fun p => (fst p = 32 \/ fst p = 9) /\ snd p <> [] /\ Forall graphic (snd p)) (f_more f).
Definition field_lines (f : hfield) : list bytes :=
  (f_name f ++ [58; 32] ++ f_value f) :: map (fun p => fst p :: snd p) (f_more f).
(** RFC 3261 7.3.1: the lines of a folded value are joined with single spaces. *)
Definition field_text (f : hfield) : bytes := f_value f ++ flat_map (fun p => 32 :: snd p) (f_more f).

(** RFC 3261, section 21 and 25.1: the status codes and their reason phrases. *)
Definition reason_phrases : list (Z * bytes) :=
  [(100, str "Trying"); (180, str "Ringing"); (181, str "Call Is Being Forwarded"); (182, str "Queued");
   (183, str "Session Progress"); (200, str "OK"); (300, str "Multiple Choices"); (301, str "Moved Permanently");
   (302, str "Moved Temporarily"); (305, str "Use Proxy"); (380, str "Alternative Service"); (400, str "Bad Request");
   (401, str "Unauthorized"); (402, str "Payment Required"); (403, str "Forbidden"); (404, str "Not Found");
   (405, str "Method Not Allowed"); (406, str "Not Acceptable"); (407, str "Proxy Authentication Required");
   (408, str "Request Timeout"); (410, str "Gone"); (413, str "Request Entity Too Large"); (414, str "Request-URI Too Long");
   (415, str "Unsupported Media Type"); (416, str "Unsupported URI Scheme"); (420, str "Bad Extension");
   (421, str "Extension Required"); (423, str "Interval Too Brief"); (480, str "Temporarily Unavailable");
   (481, str "Call/Transaction Does Not Exist"); (482, str "Loop Detected"); (483, str "Too Many Hops");
   (484, str "Address Incomplete"); (485, str "Ambiguous"); (486, str "Busy Here"); (487, str "Request Terminated");
   (488, str "Not Acceptable Here"); (491, str "Request Pending"); (493, str "Undecipherable"); (500, str "Server Internal Error");
   (501, str "Not Implemented"); (502, str "Bad Gateway"); (503, str "Service Unavailable"); (504, str "Server Time-out");
   (505, str "Version Not Supported"); (513, str "Message Too Large"); (600, str "Busy Everywhere"); (603, str "Decline");
   (604, str "Does Not Exist Anywhere"); (606, str "Not Acceptable")].
