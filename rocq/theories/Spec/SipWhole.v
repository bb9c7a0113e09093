(** Whole SIP messages, for every input (C156). *)
From Coq Require Import String.
From Verif Require Import Base.Go Base.IO Base.Text Model.Sip Spec.Sip Spec.SipLine Spec.SipAddr.
Import ListNotations. Local Open Scope list_scope. Local Open Scope Z_scope.

(** The next line of a text that is read through a buffer of [size] bytes: up to and including the first line feed, or
    what is left at the end. The former must fit the buffer, the latter must not fill it. *)
Definition next_line (size : Z) (r l rest : bytes) : Prop :=
  r = l ++ rest /\ l <> [] /\
  ((exists u, l = u ++ [10] /\ without [10] u) /\ len l <= size \/ without [10] l /\ rest = [] /\ len l < size).
Definition too_long (size : Z) (r : bytes) : Prop := exists a b, r = a ++ b /\ len a = size /\ without [10] a.
(** A line without the CRs and LFs at its ends. *)
Definition bare (l t : bytes) : Prop :=
  exists a b, l = a ++ t ++ b /\ Forall (fun c => c = 13 \/ c = 10) a /\ Forall (fun c => c = 13 \/ c = 10) b /\
    (forall c u, t = c :: u -> c <> 13 /\ c <> 10) /\ (forall c u, t = u ++ [c] -> c <> 13 /\ c <> 10).
(** [begins size r ls used tail]: the text [r] begins with [used], which is the lines [ls], none of them empty. *)
Inductive begins (size : Z) : bytes -> list bytes -> bytes -> bytes -> Prop :=
| B_nil r : begins size r [] [] r
| B_line r l t rest ls used tail : next_line size r l rest -> bare l t -> t <> [] -> begins size rest ls used tail ->
    begins size r (t :: ls) (l ++ used) tail.
(** The lines end here: at the end of the text, or at an empty line [eol]. *)
Definition ends_here (size : Z) (tail eol rest : bytes) : Prop :=
  tail = [] /\ eol = [] /\ rest = [] \/ next_line size tail eol rest /\ bare eol [].

(** The header fields of a list of lines, in order: name in lower case, and value. A continuation line goes to the
    latest field; lines without colon are passed over. *)
Definition bare_of_spaces (s t : bytes) : Prop :=
  exists a b, s = a ++ t ++ b /\ Forall (fun c => c = 32) a /\ Forall (fun c => c = 32) b /\
    (forall c u, t = c :: u -> c <> 32) /\ (forall c u, t = u ++ [c] -> c <> 32).
Inductive fields : list bytes -> list (bytes * bytes) -> Prop :=
| F_none : fields [] []
| F_field ls fs l a b n v : fields ls fs -> ~ continuation l -> l = a ++ str ":" ++ b -> without (str ":") a ->
    bare_of_spaces a n -> bare_of_spaces b v -> fields (ls ++ [l]) (fs ++ [(to_lower n, v)])
| F_more ls fs l n v : fields ls (fs ++ [(n, v)]) -> continuation l -> fields (ls ++ [l]) (fs ++ [(n, v ++ str " " ++ trim_space l)])
| F_other ls fs l : fields ls fs -> ~ continuation l -> without (str ":") l -> fields (ls ++ [l]) fs.
Definition values (fs : list (bytes * bytes)) (name : bytes) : list bytes := map snd (filter (fun f => bytes_eqb (fst f) name) fs).
Definition first_value (fs : list (bytes * bytes)) (name : bytes) : bytes := hd [] (values fs name).

(** The lines of a message, read into [s]: the object after the first line, and the fields. *)
Definition lines_read (s : sip) (ls : list bytes) (x : sip) (fs : list (bytes * bytes)) : Prop :=
  ls = [] /\ x = s /\ fs = [] \/ exists first hs, ls = first :: hs /\ first_line_of first s x (Ok tt) /\ fields hs fs.
Definition cseq_of (text : bytes) (q : cseq) : Prop :=
  q_src q = text /\ without (str " ") (q_id q) /\ (text = q_id q /\ q_method q = [] \/ text = q_id q ++ str " " ++ q_method q).
(** The object [x] is [y] after its first line, with the headers [fs], the typed fields they describe, and this payload. *)
Definition message_of (y : sip) (fs : list (bytes * bytes)) (contents payload : bytes) (x : sip) : Prop :=
  (s_version x = s_version y /\ s_method x = s_method y /\ s_request x = s_request y /\
   s_isresp x = s_isresp y /\ s_code x = s_code y /\ s_status x = s_status y) /\
  (exists m, s_headers x = Some m /\ forall k, mget k m = match values fs k with [] => None | vs => Some vs end) /\
  (exists u, s_from x = Some u /\ user_of (first_value fs (str "from")) u) /\
  (exists u, s_to x = Some u /\ user_of (first_value fs (str "to")) u) /\
  (exists u, s_contact x = Some u /\ user_of (first_value fs (str "contact")) u) /\
  (exists q, s_cseq x = Some q /\ cseq_of (first_value fs (str "cseq")) q) /\
  (exists v, s_via x = Some v /\ via_of (first_value fs (str "via")) v) /\
  s_contents x = contents /\ s_payload x = payload.
Definition typed (fs : list (bytes * bytes)) : Prop :=
  (forall n, In n [str "from"; str "to"; str "contact"] -> exists u, user_of (first_value fs n) u) /\ exists v, via_of (first_value fs (str "via")) v.
